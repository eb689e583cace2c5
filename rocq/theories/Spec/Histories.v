(** What holds after any sequence of runs of the programs in the same directory. *)
From Coq Require Import String.
From Verif Require Import Base.Py Base.Arr Base.Float Base.FloatFacts Model.Region Model.Arrays Model.Clustering Model.Distance Model.SolverFiles Model.Algorithms Model.Programs Model.PartitionAnalysis
  Model.SuitePrograms Model.Histories Spec.Grid Spec.Partition Spec.Distance Spec.Solver Spec.Programs Spec.Algorithms Spec.PartitionAnalysis Spec.SuitePrograms.
Local Notation length := List.length.
Local Open Scope string_scope.

(** the clusterings that can be asked for on a command line *)
Inductive asked : cmeta -> Prop :=
| asked_regular k : asked (CRegular k)
| asked_kmedoids k seed : asked (CKmedoids (kmeta_default k seed "lite")).

(** the run is about clustering [c] of [region] and uses its saved partition *)
Definition partitions {M} (j : job M) (region : string) (c : cmeta) : Prop :=
  match j with
  | JAnalysis rg ty sid => rg = region /\ belongs ty sid c
  | JMedoidDistances _ _ _ => False
  | JBetween _ _ _ rg ex _ _ | JDistanceErrors _ _ _ _ rg ex _ _ | JAutoArimaErrors _ _ _ _ _ _ rg ex _ => rg = region /\ exists ty sid, searched ex ty sid /\ belongs ty sid c
  | JArimaErrors _ rg ex _ => rg = region /\ exists orders ty sid, with_orders ex orders ty sid /\ belongs ty sid c
  | JTrain _ a | JPredict _ _ _ _ a _ _ _ _ _ =>
      a_region a = region /\ ((a_clustering a = "regular" /\ c = CRegular (a_k a)) \/ (a_clustering a = "kmedoids" /\ c = CKmedoids (kmeta_default (a_k a) (a_seed a) "lite")))
  end.
(** ... and writes the report of the partition *)
Definition reports {M} (j : job M) : Prop := match j with JPredict _ _ _ _ _ _ _ _ _ _ => False | _ => True end.
(** the run may write the table of costs at [path] *)
Definition tabulates {M} (j : job M) (path : string) : Prop := match j with JAnalysis rg ty sid => path = table_at rg ty sid | _ => False end.

(** the run may write the table at [path] *)
Definition may_write {M} (j : job M) (path : string) : Prop :=
  match j with
  | JAnalysis _ _ _ | JTrain _ _ | JPredict _ _ _ _ _ _ _ _ _ _ => False
  | JMedoidDistances rg ty sid => exists c, belongs ty sid c /\ path = medoid_distances_at rg c
  | JBetween _ _ _ rg ex _ et => exists ty sid c, searched ex ty sid /\ belongs ty sid c /\ path = between_medoids_at rg c et
  | JDistanceErrors _ _ _ _ rg ex _ et => exists ty sid c i order, searched ex ty sid /\ belongs ty sid c /\ path = distance_errors_at rg c et i order
  | JArimaErrors _ rg ex et => exists orders ty sid c, with_orders ex orders ty sid /\ belongs ty sid c /\ path = arima_errors_at rg c orders et
  | JAutoArimaErrors _ _ _ _ _ _ rg ex et => exists ty sid c, searched ex ty sid /\ belongs ty sid c /\ path = auto_arima_errors_at rg c et
  end.

(** the run trains the solver of these options and may save its models and errors *)
Definition trains {M} (j : job M) (k : skey) : Prop :=
  match j with
  | JTrain pg a => exists r c, region_by_name (a_region a) = Ok r /\ partitions j (a_region a) c /\ k = SKey r c "dtw" (pg_params pg) (a_test_len a) (a_error a)
  | _ => False
  end.

(** the files of a solver: its models for the training data and for all data, and its errors *)
Definition solver_file (k : skey) (path : string) : Prop :=
  path = model_training_pickle_path k \/ path = model_whole_pickle_path k \/ path = generalization_errors_pickle_path k.

(** the size of a region *)
Definition width (r : rmeta) : nat := Z.to_nat (x2 (rm_region r) - x1 (rm_region r)).
Definition height (r : rmeta) : nat := Z.to_nat (y2 (rm_region r) - y1 (rm_region r)).

(** numpy.random.choice without replacement *)
Definition draws (choice : Z -> nat -> Z -> res (list Z)) : Prop :=
  forall seed n k l, choice seed n k = Ok l -> Z.of_nat (length l) = k /\ NoDup l /\ Forall (fun i => (0 <= i < Z.of_nat n)%Z) l.

(** The data and the distance files of all predefined regions are there; [dist] gives the distances, which are positive between
    different points. *)
Definition distances (dist : string -> point -> point -> Q) : Prop :=
  forall region r q pt, region_by_name region = Ok r -> in_grid (width r) (height r) q -> in_grid (width r) (height r) pt ->
    (dist region q q == 0)%Q /\ (q <> pt -> (0 < dist region q pt)%Q).
Definition prepared (dist : string -> point -> point -> Q) (tl : tools) : Prop :=
  draws (tl_choice tl) /\
  forall region r, region_by_name region = Ok r -> exists d sc D, ready (tl_env tl) (tl_create tl) region r d sc D (fun q pt => Fin (dist region q pt)).

(** a good partition for a clustering: k clusters with a medoid each; with k-medoids every point is in the cluster of its nearest
    medoid; otherwise the parts are those of the regular partition, and no point of a part has a smaller sum of distances to the points of
    the part than its medoid *)
Definition good (dist : point -> point -> Q) (x y : nat) (c : cmeta) (p : crisp) (ms : list point) : Prop :=
  with_medoids x y (c_k c) p ms /\ (forall i m, nth_error ms i = Some m -> label_at p m (Z.of_nat i)) /\
  match c with
  | CKmedoids _ => clustered (fun q pt => Fin (dist q pt)) x y (Z.to_nat (c_k c)) p ms
  | CRegular k => with_regular_partition k x y = Ok p /\
      forall i m, nth_error ms i = Some m -> exists pts, cluster_points p x y (Z.of_nat i) pts /\
        forall q, In q pts -> (qsum (map (dist m) pts) <= qsum (map (dist q) pts))%Q
  end.

(** the clustering can be found: k points can be drawn at random, or the region can be divided *)
Definition possible (choice : Z -> nat -> Z -> res (list Z)) (x y : nat) (c : cmeta) : Prop :=
  match c with
  | CKmedoids m => exists l, choice (km_seed m) (x * y)%nat (km_k m) = Ok l
  | CRegular k => exists p, with_regular_partition k x y = Ok p
  end.

(** [lines] is a table with a row for each clustering in a first part of [suite], made from the partitions that are saved *)
Definition agrees {M} (format_float : nat -> fnum -> string) (dist : point -> point -> Q) (w : world M) (region : string) (r : rmeta) (suite : list cmeta)
    (lines : list string) : Prop :=
  exists before rest rows, suite = (before ++ rest)%list /\ lines = suite_csv rows /\
    Forall2 (fun c row => exists p ms, w_pickles w (saved_at region c) = Some (FPartition (p, Some ms)) /\
                          row_of format_float (fun q pt => Fin (dist q pt)) (width r) (height r) (rm_region r) c p ms row) before rows.

(** nothing has been saved or written yet *)
Definition empty_directories {M} (s : world M * tables) : Prop :=
  (forall q, w_pickles (fst s) q = None) /\ (forall q, w_texts (fst s) q = None) /\ (forall q, snd s q = None).
