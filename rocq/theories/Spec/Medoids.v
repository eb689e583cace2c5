(** What a k-medoids instance and a consistent clustering are. *)
From Verif Require Import Base.Py Base.Arr Base.Float Model.KMedoids.

(** an n-sample instance: a square distance matrix over the samples, or any measure on the series *)
Definition instance (X : dataset) (D : distance) : Prop :=
  match D with
  | DMatrix a => wf2 a /\ a2x a = length X /\ a2y a = length X
  | DMeasure _ => True
  end.

(** the distance between medoid sample [m] and sample [i] *)
Definition sample_dist (X : dataset) (D : distance) (m i : nat) : fnum :=
  match D with
  | DMatrix a => match get2 a (Z.of_nat m) (Z.of_nat i) with Ok v => v | Raise _ => NaN end
  | DMeasure f => if (i =? m)%nat then Fin 0 else f (nth i X []) (nth m X [])
  end.

(** sample indices *)
Definition valid_indices (X : dataset) (l : list Z) : Prop := forall i, In i l -> (0 <= i < Z.of_nat (length X))%Z.

(** distance of sample i to the j-th medoid of a list *)
Definition dist_j (X : dataset) (D : distance) (ms : list Z) (j i : nat) : fnum :=
  sample_dist X D (Z.to_nat (nth j ms 0%Z)) i.

(** [label] is the first medoid of least distance from sample i *)
Definition nearest_medoid (X : dataset) (D : distance) (ms : list Z) (i label : nat) : Prop :=
  label < length ms /\
  (forall j, j < length ms -> fle (dist_j X D ms label i) (dist_j X D ms j i) = true) /\
  (forall j, j < label -> flt (dist_j X D ms label i) (dist_j X D ms j i) = true).

(** distances of the samples labelled j to medoid j, in sample order *)
Definition cluster_dists (X : dataset) (D : distance) (ms : list Z) (labels : list nat) (j : nat) : list fnum :=
  map (dist_j X D ms j) (filter (fun i => nth i labels (length ms) =? j)%nat (seq 0 (length X))).

(** labels, costs and total agree with the medoids *)
Definition consistent (X : dataset) (D : distance) (ms : list Z) (c : cost) : Prop :=
  length (c_labels c) = length X /\
  (forall i, i < length X -> nearest_medoid X D ms i (nth i (c_labels c) (length ms))) /\
  c_costs c = map (fun j => fsum (cluster_dists X D ms (c_labels c) j)) (seq 0 (length ms)) /\
  c_total c = fsum (c_costs c) /\
  c_dist c = map (fun i => map (fun j => dist_j X D ms j i) (seq 0 (length ms))) (seq 0 (length X)).

(** no missing distances *)
Definition dist_no_nan (X : dataset) (D : distance) : Prop :=
  forall m i, m < length X -> i < length X -> is_nan (sample_dist X D m i) = false.
Definition dist_finite (X : dataset) (D : distance) : Prop :=
  forall m i, m < length X -> i < length X -> is_fin (sample_dist X D m i) = true.

(** the least distance of a sample to a list of medoids, as a minimum *)
Definition is_least (v : fnum) (l : list fnum) : Prop := In v l /\ forall u, In u l -> fle v u = true.

(** the samples considered as new medoid of cluster j *)
Definition candidate_of (md : mode) (X : dataset) (labels : list nat) (j i : nat) : Prop :=
  i < length X /\ match md with Robust => True | Lite => nth_error labels i = Some j | OtherMode => False end.


(** the samples a run starts from: the given non-empty list, otherwise the random choice *)
Definition starts_from (choice : nat -> Z -> res (list Z)) (X : dataset) (k : nat) (init : option (list Z)) (ms : list Z) : Prop :=
  (match init with None | Some [] => choice (length X) (Z.of_nat k) | Some l => Ok l end) = Ok ms /\
  length ms = k /\ 0 < k /\ valid_indices X ms.
