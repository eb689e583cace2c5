(** Rectangles and time intervals inside a region (spta's Region and TimeInterval are half open). *)
From Verif Require Import Base.Py Model.Region.

Definition rect_in (g : rect) (x y : nat) : Prop :=
  (0 <= x1 g <= x2 g)%Z /\ (x2 g <= Z.of_nat x)%Z /\ (0 <= y1 g <= y2 g)%Z /\ (y2 g <= Z.of_nat y)%Z.
Definition interval_in (ti : interval) (t : nat) : Prop :=
  (0 <= t1 ti <= t2 ti)%Z /\ (t2 ti <= Z.of_nat t)%Z.
