(** What is assumed of rounding. *)
From Coq Require Import QArith Qabs.
From Verif Require Import Base.Py Base.Float.

(** rounding keeps the order, and 0 and 1 *)
Definition rounding (rnd : Q -> fnum) : Prop :=
  (forall p q, (p <= q)%Q -> fle (rnd p) (rnd q) = true) /\ feqv (rnd 0%Q) (Fin 0) /\ feqv (rnd 1%Q) (Fin 1).
(** the difference of two different samples is not rounded to zero (gradual underflow) *)
Definition apart (rnd : Q -> fnum) (s : list fnum) : Prop :=
  forall a b, In (Fin a) s -> In (Fin b) s -> (a < b)%Q -> flt (Fin 0) (rnd (b - a)%Q) = true.
(** the samples are floats themselves *)
Definition exact_samples (rnd : Q -> fnum) (s : list fnum) : Prop := forall a, In (Fin a) s -> feqv (rnd a) (Fin a).
(** a result is infinite, or right up to the fraction [u] and, near zero, up to [e] *)
Definition accurate (u e : Q) (rnd : Q -> fnum) : Prop :=
  forall q, is_inf (rnd q) = true \/ exists r, rnd q = Fin r /\ (Qabs (r - q) <= u * Qabs q + e)%Q.
