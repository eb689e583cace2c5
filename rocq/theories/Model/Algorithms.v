(** The clustering algorithms applied to a spatio-temporal region: clustering/kmedoids.py and clustering/regular.py
    (partition_impl), with the helper of clustering/__init__.py that finds medoids. *)
From Coq Require Import String.
From Verif Require Import Base.Py Base.Arr Base.Str Base.Float Model.Region Model.Arrays Model.Distance Model.KMedoids Model.Clustering
  Model.SolverFiles.
Local Open Scope string_scope.
Local Notation length := List.length.

(** kmedoids/kmedoids.py:136-139: the generator of candidates selected by the mode *)
Definition mode_of (s : string) : mode := if (s =? "robust")%string then Robust else if (s =? "lite")%string then Lite else OtherMode.

(** the two-dimensional array of a matrix *)
Definition arr2_of_mat (M : mat) : arr2 fnum := mk2 (length (m_rows M)) (m_cols M) (List.concat (m_rows M)).

(** kmedoids/kmedoids.py:54-57: the matrix of the distance measure when it has one, otherwise its measure *)
Definition distance_of (env : denv) (o : dobj) : distance :=
  match d_matrix o with Some M => DMatrix (arr2_of_mat M) | None => DMeasure (env_measure env) end.

Section Algorithms.
(** numpy.random.choice(n, size=k, replace=False) after seed(s) *)
Context (choice : Z -> nat -> Z -> res (list Z)) (env : denv).

(** clustering/kmedoids.py:109-149 KmedoidsClusteringAlgorithm.partition_impl.  as_2d of a region without points is
    one-dimensional, and its shape cannot be unpacked (kmedoids/kmedoids.py:128). *)
Definition kmedoids_partition_impl (m : kmeta) (r : stregion fnum) (with_medoids : bool) (o : dobj) : res part :=
  X <- as_list r ;;
  _ <- (if (length X =? 0)%nat then Raise ValueError else Ok tt) ;;
  result <- run_kmedoids (choice (km_seed m)) X (km_k m) (distance_of env o) (km_init m) (mode_of (km_mode m)) (km_max_iter m) (km_tol m)
                         (km_verbose m) ;;
  p <- from_membership_array (map Z.of_nat (c_labels (r_cost result))) (t_x r) (t_y r) ;;
  medoids <- (if with_medoids then ms <- mapM (decode_index (t_y r)) (r_medoids result) ;; Ok (Some ms) else Ok None) ;;
  Ok (p, medoids).

(** clustering/__init__.py:135-161 find_medoids_for_partition; None for a cluster without a centroid *)
Definition find_medoids_for_partition (md : option dmeta) (r : stregion fnum) (p : crisp) (o : dobj) : res (list (option point)) :=
  clusters <- create_all_spt_clusters p r ;;
  mapM (fun cluster => c <- find_centroid_and_distances env cluster md true o ;; Ok (fst c)) clusters.

(** clustering/regular.py:56-77 RegularClusteringAlgorithm.partition_impl *)
Definition regular_partition_impl (k : Z) (md : option dmeta) (r : stregion fnum) (with_medoids : bool) (o : dobj)
  : res (crisp * option (list (option point))) :=
  p <- with_regular_partition k (t_x r) (t_y r) ;;
  medoids <- (if with_medoids then ms <- find_medoids_for_partition md r p o ;; Ok (Some ms) else Ok None) ;;
  Ok (p, medoids).

(** Partitions are saved and used with medoids that are points.  A medoid None (a cluster in which no sum of distances is
    below infinity) has no coordinates; using it is an AttributeError.  Simplification: the error is raised here, in the
    code it is raised where the coordinates of the medoid are used. *)
Definition all_points (ms : list (option point)) : res (list point) :=
  mapM (fun o => match o with Some pt => Ok pt | None => Raise AttributeError end) ms.

(** clustering/factory.py:40-53 ClusteringFactory.instance, then partition_impl of the instance; [md] is the region's
    metadata *)
Definition algorithm_partition_impl (c : cmeta) (md : option dmeta) (r : stregion fnum) (with_medoids : bool) (o : dobj) : res part :=
  match c with
  | CKmedoids m => kmedoids_partition_impl m r with_medoids o
  | CRegular k =>
      '(p, ms) <- regular_partition_impl k md r with_medoids o ;;
      match ms with
      | None => Ok (p, None)
      | Some l => pts <- all_points l ;; Ok (p, Some pts)
      end
  end.

(** clustering/__init__.py:83-126 partition, up to saving: the distance matrix is looked up (l.110) before partition_impl.
    An existing matrix is replaced by the one of the file, if the file can be read. *)
Definition clustering_impl (c : cmeta) (md : option dmeta) (r : stregion fnum) (with_medoids : bool) (o : dobj) : res part * dobj :=
  match try_load_distance_matrix env md o with
  | (Raise e, o') => (Raise e, o')
  | (Ok _, o') => (algorithm_partition_impl c md r with_medoids o', o')
  end.
End Algorithms.
