(** A clustering around some of the series of a list, in words of its own. *)
From Verif Require Import Base.Py Base.Float.

(** [k] different series are the medoids, every series has the label of a nearest medoid, and every label is used *)
Definition nearest_clusters (measure : list fnum -> list fnum -> fnum) (X : list (list fnum)) (k : nat) (medoids labels : list nat) : Prop :=
  length medoids = k /\ NoDup medoids /\ (forall m, In m medoids -> m < length X) /\
  length labels = length X /\ (forall j, j < k -> In j labels) /\
  forall i series, nth_error X i = Some series -> exists label m medoid,
    nth_error labels i = Some label /\ nth_error medoids label = Some m /\ nth_error X m = Some medoid /\
    forall m' medoid', In m' medoids -> nth_error X m' = Some medoid' -> fle (measure medoid series) (measure medoid' series) = true.
