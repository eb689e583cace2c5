(** The forecast error sMAPE in floating point: Model/Errors.v with every result rounded. *)
From Coq Require Import QArith.
From Verif Require Import Base.Py Base.Float Model.Errors Model.Rounded Model.RoundedErrors.
Local Notation length := List.length.

Section Rounded.
Context (rnd : Q -> fnum).
(** np.mean of an array, summed in one order *)
Definition mean_r (o : order) (l : list fnum) : fnum := rdiv rnd (sum_in rnd o l) (fof_nat (length l)).
(** util/error.py:25-36 smape, rounded; [ord] gives the order of the sum for a number of entries, the third argument is ignored *)
Definition smape_r (ord : nat -> order) (forecast observation : list fnum) (training : option (list fnum)) : res fnum :=
  et <- np_zip (rsub rnd) forecast observation ;;
  total <- np_zip (radd rnd) forecast observation ;;
  quotients <- np_zip (rdiv rnd) (map fabs et) total ;;
  let pt := map (fun q => rmul rnd (Fin 200) q) quotients in
  Ok (mean_r (ord (length pt)) pt).
End Rounded.
