(** Vocabulary about series with missing (NaN) samples. *)
From Verif Require Import Base.Py Base.Float.

(** every sample is a number or NaN (no infinities) *)
Definition no_inf (s : list fnum) : Prop := forall v, In v s -> is_inf v = false.
(** all samples missing *)
Definition all_nan (s : list fnum) : Prop := forall v, In v s -> is_nan v = true.
(** the samples that are present are all equal *)
Definition constant (s : list fnum) : Prop :=
  forall u v, In u s -> In v s -> is_nan u = false -> is_nan v = false -> feqb u v = true.
Definition no_nan (s : list fnum) : Prop := forall v, In v s -> is_nan v = false.

(** [s'] is [s] scaled to [0, 1]: what the user expects of one series *)
Definition scaled_series (s s' : list fnum) : Prop :=
  length s' = length s /\
  (* missing or between 0 and 1 *)
  (forall v, In v s' -> is_nan v = true \/ (fle (Fin 0) v = true /\ fle v (Fin 1) = true)) /\
  (* all missing: stays missing *)
  (all_nan s -> all_nan s') /\
  (* constant: zeros *)
  (~ all_nan s -> constant s -> forall v, In v s' -> v = Fin 0) /\
  (* otherwise: missing where it was, 0 and 1 attained, order kept *)
  (~ constant s ->
     (exists v, In v s' /\ feqv v (Fin 0)) /\ (exists v, In v s' /\ feqv v (Fin 1)) /\
     forall n m u v u' v', nth_error s n = Some u -> nth_error s m = Some v ->
       nth_error s' n = Some u' -> nth_error s' m = Some v' ->
       is_nan u' = is_nan u /\ flt u' v' = flt u v).
