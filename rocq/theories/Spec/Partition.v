(** What a partition means, stated without the model's methods. *)
From Verif Require Import Base.Py Base.Arr Model.Region Spec.Grid.

(** the label matrix has x rows, y columns, and label [l] at point [pt] *)
Definition label_at (p : crisp) (pt : point) (l : Z) : Prop := get2 (labels p) (fst pt) (snd pt) = Ok l.

(** A partition as the clustering algorithms build it: a full x-by-y matrix of labels 0..k-1, where k-1 is
    the largest label present. *)
Definition valid_partition (p : crisp) (x y : nat) : Prop :=
  a2x (labels p) = x /\ a2y (labels p) = y /\ wf2 (labels p) /\
  (forall pt l, in_grid x y pt -> label_at p pt l -> 0 <= l < pk p)%Z /\
  (exists pt, in_grid x y pt /\ label_at p pt (pk p - 1)%Z).
