(** What a clustering of a region with medoids is, stated without the methods of the clustering algorithms. *)
From Verif Require Import Base.Py Base.Arr Base.Float Model.Region Model.Distance Spec.Grid Spec.Partition Spec.Distance.

(** [dist q pt] is the distance of point [pt] from point [q] that the distance measure knows: the entry of its matrix, or,
    without a matrix, the measure of the two series (0 for a point and itself). *)
Definition measured (env : denv) (o : dobj) (d : arr3 fnum) (dist : point -> point -> fnum) : Prop :=
  match d_matrix o with
  | Some M =>
      square (a3x d * a3y d) M /\
      forall q pt, in_grid (a3x d) (a3y d) q -> in_grid (a3x d) (a3y d) pt -> entry M (index_of (a3y d) q) (index_of (a3y d) pt) = Some (dist q pt)
  | None =>
      (forall q, in_grid (a3x d) (a3y d) q -> dist q q = Fin 0) /\
      forall q pt s t, q <> pt -> in_grid (a3x d) (a3y d) q -> in_grid (a3x d) (a3y d) pt ->
        series3 d (fst q) (snd q) = Ok s -> series3 d (fst pt) (snd pt) = Ok t -> dist q pt = env_measure env t s
  end.

(** medoid number [i] is the first of the medoids nearest to [pt] *)
Definition nearest (dist : point -> point -> fnum) (ms : list point) (pt : point) (i : nat) : Prop :=
  exists m, nth_error ms i = Some m /\
    (forall j m', nth_error ms j = Some m' -> fle (dist m pt) (dist m' pt) = true) /\
    (forall j m', j < i -> nth_error ms j = Some m' -> flt (dist m pt) (dist m' pt) = true).

(** a partition of an x-by-y region with [k] different medoids: every point is in the cluster of its nearest medoid *)
Definition clustered (dist : point -> point -> fnum) (x y k : nat) (p : crisp) (ms : list point) : Prop :=
  valid_partition p x y /\ (pk p <= Z.of_nat k)%Z /\ length ms = k /\ NoDup ms /\ Forall (in_grid x y) ms /\
  forall pt, in_grid x y pt -> exists i, label_at p pt (Z.of_nat i) /\ nearest dist ms pt i.

(** the points of a cluster in row-major order *)
Definition cluster_points (p : crisp) (x y : nat) (i : Z) (pts : list point) : Prop :=
  exists keep, pts = filter keep (grid x y) /\ forall pt, in_grid x y pt -> (keep pt = true <-> label_at p pt i).
