(** The k-medoids algorithm applied to a region, in floating point: Model/Algorithms.v with the rounded search. *)
From Coq Require Import QArith.
From Verif Require Import Base.Py Base.Arr Base.Str Base.Float Model.Region Model.Arrays Model.Distance Model.KMedoids Model.Clustering Model.SolverFiles
  Model.Algorithms Model.KMedoidsRounded.
Local Notation length := List.length.

(** clustering/kmedoids.py:109-149 KmedoidsClusteringAlgorithm.partition_impl with rounded sums and differences; the report of
    kmedoids/kmedoids.py:208-209 is made after the search *)
Definition kmedoids_partition_impl_r (rnd : Q -> fnum) (sum : list fnum -> fnum) (choice : Z -> nat -> Z -> res (list Z)) (env : denv)
           (m : kmeta) (r : stregion fnum) (with_medoids : bool) (o : dobj) : res part :=
  X <- as_list r ;;
  _ <- (if (length X =? 0)%nat then Raise ValueError else Ok tt) ;;
  result <- run_kmedoids_r rnd sum (choice (km_seed m)) X (km_k m) (distance_of env o) (km_init m) (mode_of (km_mode m)) (km_max_iter m) (km_tol m) ;;
  _ <- (if km_verbose m then show_report (km_k m) (r_medoids result) (c_labels (r_cost result)) else Ok tt) ;;
  p <- from_membership_array (map Z.of_nat (c_labels (r_cost result))) (t_x r) (t_y r) ;;
  medoids <- (if with_medoids then ms <- mapM (decode_index (t_y r)) (r_medoids result) ;; Ok (Some ms) else Ok None) ;;
  Ok (p, medoids).
