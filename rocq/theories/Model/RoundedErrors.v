(** The overall error in floating point: the arithmetic of Model/Errors.v with every result rounded. *)
From Coq Require Import QArith.
From Verif Require Import Base.Py Base.Float Model.Rounded.

(** an order in which the sum of an array is built: numpy adds blocks in pairs (pairwise summation), the loop of a Python sum
    is [Plus (Plus (Plus Start a) b) c]; leaves are positions of the array *)
Inductive order := Nothing | At (i : nat) | Plus (l r : order).

Section Rounded.
Context (rnd : Q -> fnum).
(** np.sum in one order; positions beyond the end add nothing *)
Fixpoint sum_in (o : order) (l : list fnum) : fnum :=
  match o with
  | Nothing => Fin 0
  | At i => nth i l (Fin 0)
  | Plus a b => radd rnd (sum_in a l) (sum_in b l)
  end.
(** arrays.py:86-87 squared, rounded *)
Definition squared_r (l : list fnum) : list fnum := map (fun v => rmul rnd v v) l.
(** np.nanmean, rounded: missing values count as zero in the sum and are left out of the count *)
Definition nanmean_r (o : order) (l : list fnum) : fnum :=
  rdiv rnd (sum_in o (map (fun v => if is_nan v then Fin 0 else v) l)) (fof_nat (length (filter (fun v => negb (is_nan v)) l))).
(** arrays.py:98-110 mean_squared and root_mean_squared, rounded; [sqrt] is [** 0.5] *)
Definition root_mean_squared_r (sqrt : fnum -> fnum) (o : order) (l : list fnum) : fnum := sqrt (nanmean_r o (squared_r l)).
End Rounded.
