(** Square roots with rounding, and the mean of the squared differences of two series. *)
From Coq Require Import QArith.
From Verif Require Import Base.Py Base.Float Spec.Errors.

(** a square root whose square is right up to the fraction [eps]; [eps = 0] is an exact one *)
Definition root_within (eps : Q) (sqrt : fnum -> fnum) : Prop :=
  (forall q v, 0 <= q -> sqrt (Fin q) = Fin v -> 0 <= v /\ (1 - eps) * q <= v * v /\ v * v <= (1 + eps) * q)%Q.
