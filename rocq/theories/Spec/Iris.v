(** What the k-medoids of iris_kmedoid.py promises, stated without its loops. *)
From Verif Require Import Base.Py Base.Float.
Local Notation length := List.length.

(** [order l] lists the elements of the set of [l] *)
Definition enumerates (order : list nat -> list nat) : Prop := forall l, NoDup (order l) /\ forall i, In i (order l) <-> In i l.

(** distances between the rows of [X]: numbers, zero for equal rows and positive for different ones *)
Definition distance_on {A} (d : A -> A -> fnum) (X : list A) : Prop :=
  forall x y, In x X -> In y X -> is_nan (d x y) = false /\ feqb (d x x) (Fin 0) = true /\ (x <> y -> flt (Fin 0) (d x y) = true).

(** the sum of the distances of all rows of [X] from [x] *)
Definition far {A} (d : A -> A -> fnum) (X : list A) (x : A) : fnum := fsum (map (fun y => d y x) X).

(** medoid [i] is the first of those nearest to [x] *)
Definition nearest {A} (d : A -> A -> fnum) (medoids : list A) (x : A) (i : nat) : Prop :=
  exists m, nth_error medoids i = Some m /\
    forall j m', nth_error medoids j = Some m' -> fle (d x m) (d x m') = true /\ ((j < i)%nat -> flt (d x m) (d x m') = true).

(** labels renamed by [f], and the number of places in which two lists of labels agree *)
Definition agreement (a b : list Z) : nat := length (filter (fun '(x, y) => (x =? y)%Z) (combine a b)).
