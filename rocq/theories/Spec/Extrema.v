(** What "first least" and "first greatest" mean, independently of the models. *)
From Verif Require Import Base.Py Base.Float Model.Region.

(** row-major position of a coordinate tuple *)
Fixpoint ravel (shape coords : list nat) : nat :=
  match shape, coords with
  | _ :: rest, c :: cs => c * fold_right Nat.mul 1 rest + ravel rest cs
  | _, _ => 0
  end.
(** what "first item attaining the least value below +inf" means for a list of items *)
Definition first_least (items : list (point * fnum)) (r : option point * fnum) : Prop :=
  match fst r with
  | None => snd r = PInf /\ forall it, In it items -> flt (snd it) PInf = false
  | Some p => exists pre post, items = pre ++ (p, snd r) :: post /\ flt (snd r) PInf = true /\
               (forall it, In it pre -> flt (snd r) (snd it) = true \/ is_nan (snd it) = true) /\
               (forall it, In it post -> fle (snd r) (snd it) = true \/ is_nan (snd it) = true)
  end.
Definition first_greatest (items : list (point * fnum)) (r : option point * fnum) : Prop :=
  match fst r with
  | None => snd r = NInf /\ forall it, In it items -> flt NInf (snd it) = false
  | Some p => exists pre post, items = pre ++ (p, snd r) :: post /\ flt NInf (snd r) = true /\
               (forall it, In it pre -> flt (snd it) (snd r) = true \/ is_nan (snd it) = true) /\
               (forall it, In it post -> fle (snd it) (snd r) = true \/ is_nan (snd it) = true)
  end.

