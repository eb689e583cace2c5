(** Density-based clustering of points by a matrix of distances, stated without the clustering code: radius 0.7, at least five
    points within the radius. *)
From Verif Require Import Base.Py Base.Arr Base.Float Model.Region Model.Distance Spec.Grid Spec.Partition Spec.Distance.
Local Notation length := List.length.

Section Density.
Context (n : nat) (D : mat).

(** sample [j] is within the radius of sample [i] *)
Definition near (i j : nat) : Prop := j < n /\ exists d, entry D i j = Some d /\ fle d (Fin (7 # 10)) = true.

(** at least five samples are within the radius of sample [i] *)
Definition core (i : nat) : Prop := exists js, NoDup js /\ length js = 5 /\ forall j, In j js -> near i j.

(** core samples joined by steps within the radius from core sample to core sample *)
Inductive connected (i : nat) : nat -> Prop :=
| connected_self : connected i i
| connected_step : forall j k, connected i j -> core k -> near j k -> connected i k.

(** the labels that DBSCAN gives to the samples: the groups are numbered from 0, core samples have the same number exactly
    when they are connected, other samples near a core sample have the number of one of these, and the rest is noise, -1 *)
Definition dbscan_labels (labels : list Z) : Prop :=
  length labels = n /\ (forall l, In l labels -> -1 <= l)%Z /\
  (forall l c, In l labels -> 0 <= c <= l -> In c labels)%Z /\
  (forall i, i < n -> core i -> exists l, nth_error labels i = Some l /\ (0 <= l)%Z) /\
  (forall i j, i < n -> j < n -> core i -> core j -> (nth_error labels i = nth_error labels j <-> connected i j)) /\
  (forall i, i < n -> ~ core i -> (exists j, j < n /\ core j /\ near j i) -> exists j, j < n /\ core j /\ near j i /\ nth_error labels i = nth_error labels j) /\
  (forall i, i < n -> ~ core i -> (forall j, j < n -> core j -> ~ near j i) -> nth_error labels i = Some (-1)%Z).
End Density.

(** a partition of an x-by-y region into the groups of density-connected points: cluster 0 holds the noise points, every other
    cluster up to the last is a group *)
Definition density_partition (x y : nat) (D : mat) (p : crisp) : Prop :=
  let core pt := core (x * y) D (index_of y pt) in
  let near q pt := near (x * y) D (index_of y q) (index_of y pt) in
  valid_partition p x y /\
  (forall pt, in_grid x y pt -> (label_at p pt 0 <-> ~ core pt /\ forall q, in_grid x y q -> core q -> ~ near q pt)) /\
  (forall q pt, in_grid x y q -> in_grid x y pt -> core q -> core pt ->
     ((exists l, label_at p q l /\ label_at p pt l) <-> connected (x * y) D (index_of y q) (index_of y pt))) /\
  (forall pt l, in_grid x y pt -> ~ core pt -> label_at p pt l -> l <> 0%Z -> exists q, in_grid x y q /\ core q /\ near q pt /\ label_at p q l) /\
  (forall l, 1 <= l < pk p -> exists pt, in_grid x y pt /\ label_at p pt l)%Z.
