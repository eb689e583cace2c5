(** Clustering metadata, suites, the elbow and silhouette analyses:
    spta/clustering/{__init__,kmedoids,regular,factory,suite,silhouette}.py, the medoid strings of
    spta/kmedoids/__init__.py, and the names built from region metadata (spta/region/metadata.py). *)
From Verif Require Import Base.Py Base.Str Base.Dict Base.Float Model.Region.
Local Open Scope string_scope.

(** clustering/kmedoids.py:15-26 KmedoidsClusteringMetadata: the attributes besides the name 'kmedoids' *)
Record kmeta := KMeta { km_k : Z; km_seed : Z; km_mode : string; km_init : option (list Z);
                        km_max_iter : Z; km_tol : fnum; km_verbose : bool }.
(** the default values of its constructor, l.15-16 (tol = 0.001) *)
Definition kmeta_default (k seed : Z) (md : string) : kmeta := KMeta k seed md None 1000 (Fin (1 # 1000)) true.

(** clustering/regular.py:13-14 (name 'regular' and k) or clustering/kmedoids.py *)
Inductive cmeta := CRegular (k : Z) | CKmedoids (m : kmeta).

(** clustering/__init__.py:21-23 *)
Definition c_name (c : cmeta) : string := match c with CRegular _ => "regular" | CKmedoids _ => "kmedoids" end.
Definition c_k (c : cmeta) : Z := match c with CRegular k => k | CKmedoids m => km_k m end.
(** attribute random_seed, which regular metadata do not have *)
Definition c_seed (c : cmeta) : res Z := match c with CRegular _ => Raise AttributeError | CKmedoids m => Ok (km_seed m) end.

(** clustering/__init__.py:62-66 __eq__ (and __hash__): name and k only; not overridden by the subclasses *)
Definition c_eqb (a b : cmeta) : bool := (c_name a =? c_name b)%string && (c_k a =? c_k b)%Z.

(** clustering/kmedoids.py:36-47 __repr__ *)
Definition kmeta_repr (m : kmeta) : string :=
  let r := "kmedoids" ++ "_k" ++ str_int (km_k m) ++ "_seed" ++ str_int (km_seed m) ++ "_" ++ km_mode m in
  match km_init m with
  | None => r
  | Some indices => r ++ "_im" ++ join "-" (map str_int indices)
  end.

(** clustering/__init__.py:56-57 __repr__ (regular) and clustering/kmedoids.py:36-47 *)
Definition c_repr (c : cmeta) : string :=
  match c with CRegular k => "regular" ++ "_k" ++ str_int k | CKmedoids m => kmeta_repr m end.

(** clustering/kmedoids.py:56-75 from_repr *)
Definition kmeta_from_repr (s : string) : res kmeta :=
  let parts := split "_" s in
  p0 <- getitem parts 0 ;;
  _ <- py_assert (p0 =? "kmedoids")%string ;;
  p1 <- getitem parts 1 ;;
  k <- py_int (str_from 1 p1) ;;
  p2 <- getitem parts 2 ;;
  seed <- py_int (str_from 4 p2) ;;
  md <- getitem parts 3 ;;
  Ok (kmeta_default k seed md).

(** clustering/kmedoids.py:77-88 from_classifier_label *)
Definition kmeta_from_classifier_label (label md : string) : res kmeta :=
  let parts := split "-" label in
  _ <- py_assert (List.length parts =? 3)%nat ;;
  p0 <- getitem parts 0 ;;
  p1 <- getitem parts 1 ;;
  kmeta_from_repr ("kmedoids_k" ++ p0 ++ "_seed" ++ p1 ++ "_" ++ md).

(** the label of a medoid: classifier/train_input.py writes k, seed and cluster index; classifier/model.py joins
    them with '-' *)
Definition classifier_label (k seed cluster_index : Z) : string := join "-" [str_int k; str_int seed; str_int cluster_index].

(** clustering/regular.py:22-34 from_repr *)
Definition regular_from_repr (s : string) : res cmeta :=
  let parts := split "_" s in
  p0 <- getitem parts 0 ;;
  _ <- py_assert (p0 =? "regular")%string ;;
  p1 <- getitem parts 1 ;;
  k <- py_int (str_from 1 p1) ;;
  Ok (CRegular k).

(** clustering/factory.py:26-39 ClusteringMetadataFactory.from_repr *)
Definition factory_from_repr (s : string) : res cmeta :=
  p0 <- getitem (split "_" s) 0 ;;
  if (p0 =? "regular")%string then regular_from_repr s
  else if (p0 =? "kmedoids")%string then (m <- kmeta_from_repr s ;; Ok (CKmedoids m))
  else Raise ValueError.

(** clustering/factory.py:10-24 ClusteringMetadataFactory.instance; [params] are the remaining keyword arguments
    with the constructor's defaults filled in (mode, initial_medoids, max_iter, tol, verbose) *)
Record kparams := KParams { kp_mode : string; kp_init : option (list Z); kp_max_iter : Z; kp_tol : fnum; kp_verbose : bool }.
Definition factory_instance (name : string) (k seed : Z) (ps : kparams) : res cmeta :=
  if (name =? "regular")%string then Ok (CRegular k)
  else if (name =? "kmedoids")%string
  then Ok (CKmedoids (KMeta k seed (kp_mode ps) (kp_init ps) (kp_max_iter ps) (kp_tol ps) (kp_verbose ps)))
  else Raise ValueError.

(** the random_seed argument of a suite: absent, an int or a list *)
Inductive seeds_arg := NoSeeds | OneSeed (s : Z) | ManySeeds (l : list Z).

(** clustering/suite.py:67-100 __create_metadata_instances *)
Definition suite_metadatas (name : string) (ks : list Z) (random_seed : seeds_arg) (ps : kparams) : res (list cmeta) :=
  let seeds := match random_seed with NoSeeds => [1%Z] | OneSeed s => [s] | ManySeeds l => l end in
  foldM (fun instances k =>
           foldM (fun instances seed => c <- factory_instance name k seed ps ;; Ok (instances ++ [c])%list) seeds instances)
        ks [].

(** [sorted(l, key=attrgetter('k'))]: stable *)
Fixpoint insert_by_k (m : cmeta) (l : list cmeta) : list cmeta :=
  match l with
  | [] => [m]
  | x :: t => if (c_k m <? c_k x)%Z then m :: l else x :: insert_by_k m t
  end.
Definition sorted_by_k (l : list cmeta) : list cmeta := fold_left (fun acc m => insert_by_k m acc) l [].

(** clustering/suite.py:234-258 organize_kmedoids_suite *)
Definition organize_kmedoids_suite (suite : list cmeta) : res (list (Z * list cmeta)) :=
  by_seed <- foldM (fun d m =>
                      seed <- c_seed m ;;
                      let d := if dict_in Z.eqb seed d then d else dict_set Z.eqb seed [] d in
                      l <- dict_get Z.eqb seed d ;;
                      Ok (dict_set Z.eqb seed (l ++ [m])%list d))
                   suite [] ;;
  Ok (fold_left (fun d '(seed, l) => dict_set Z.eqb seed (sorted_by_k l) d) by_seed []).

(** clustering/suite.py:356-362: the three-point second derivative; x are Python ints, y floats.
    [2.0 / n] raises ZeroDivisionError for n = 0. *)
Definition div2 (num : Q) (den : Z) : res fnum :=
  if (den =? 0)%Z then Raise ZeroDivisionError else Ok (Fin (num / inject_Z den)).
Definition second_derivative (x1 x2 x3 : Z) (y1 y2 y3 : fnum) : res fnum :=
  c1 <- div2 2 ((x2 - x1) * (x3 - x1)) ;;
  c2 <- div2 (-2) ((x3 - x2) * (x2 - x1)) ;;
  c3 <- div2 2 ((x3 - x2) * (x3 - x1)) ;;
  Ok (fadd (fadd (fmul c1 y1) (fmul c2 y2)) (fmul c3 y3)).

(** clustering/suite.py:328-376 find_cost_elbow_given_order.  The slices [i-1:i+2] are read element by element. *)
Definition elbow_step (ordered_k : list Z) (ordered_costs : list fnum) (best : fnum * Z) (i : Z) : res (fnum * Z) :=
  x1 <- getitem ordered_k (i - 1) ;; x2 <- getitem ordered_k i ;; x3 <- getitem ordered_k (i + 1) ;;
  y1 <- getitem ordered_costs (i - 1) ;; y2 <- getitem ordered_costs i ;; y3 <- getitem ordered_costs (i + 1) ;;
  d <- second_derivative x1 x2 x3 y1 y2 y3 ;;
  Ok (if flt (fst best) d then (d, i) else best).
Definition find_cost_elbow_given_order (costs : list (cmeta * fnum)) (ordered : list cmeta) : res cmeta :=
  _ <- py_assert (List.length costs =? List.length ordered)%nat ;;
  _ <- py_assert (3 <=? List.length costs)%nat ;;
  ordered_costs <- mapM (fun m => dict_get c_eqb m costs) ordered ;;
  best <- foldM (elbow_step (map c_k ordered) ordered_costs) (zrange 1 (Z.of_nat (List.length ordered) - 1)) (NInf, (-1)%Z) ;;
  getitem ordered (snd best).

(** clustering/suite.py:293-326 get_all_partitions and get_all_intra_cluster_costs; [cost c] is the intra-cluster
    cost of the partition found by the clustering algorithm for metadata c *)
Definition all_costs (cost : cmeta -> res fnum) (suite : list cmeta) : res (list (cmeta * fnum)) :=
  let partitions := fold_left (fun d m => dict_set c_eqb m m d) suite [] in
  foldM (fun d '(m, partition) => v <- cost partition ;; Ok (dict_set c_eqb m v d)) partitions [].

(** clustering/suite.py:378-400 find_cost_elbow_for_each_kmedoids_seed; l.389-391 build a dictionary that is not
    used (the lookups may raise KeyError) *)
Definition elbows_for_each_seed (costs : list (cmeta * fnum)) (suite : list cmeta) : res (list (Z * cmeta)) :=
  by_seed <- organize_kmedoids_suite suite ;;
  foldM (fun d '(seed, ordered) =>
           _ <- mapM (fun m => dict_get c_eqb m costs) ordered ;;
           e <- find_cost_elbow_given_order costs ordered ;;
           Ok (dict_set Z.eqb seed e d))
        by_seed [].

(** clustering/suite.py:273-291 calculate_elbows_kmedoids *)
Definition calculate_elbows (cost : cmeta -> res fnum) (suite : list cmeta) : res (list (Z * cmeta)) :=
  costs <- all_costs cost suite ;;
  elbows_for_each_seed costs suite.

(** clustering/silhouette.py:20-57 perform_analysis; [score c] is the silhouette average of the partition found
    for c *)
Definition perform_analysis (score : cmeta -> res fnum) (suite : list cmeta) : res (fnum * option cmeta) :=
  foldM (fun best c =>
           s <- score c ;;
           Ok (if flt (fst best) s then (s, Some c) else best))
        suite (Fin (-1), None).

(* ---------- medoids in the suite CSV ---------- *)

(** kmedoids/__init__.py:40 (also experiments/clustering/partition_analysis.py:169): '({},{}) ' *)
Definition medoid_str (pt : point) : string := "(" ++ str_int (fst pt) ++ "," ++ str_int (snd pt) ++ ") ".

(** kmedoids/__init__.py:23-42 medoids_to_absolute_coordinates, for a region with metadata (None: no metadata) *)
Definition medoids_to_absolute_coordinates (metadata : option rect) (indices : list Z) : res string :=
  match metadata with
  | None => Raise AssertionError
  | Some g => foldM (fun coordinates index => pt <- index_to_absolute_point g index ;; Ok (coordinates ++ medoid_str pt)) indices ""
  end.

(** clustering/suite.py:143-154 parsing of the third column *)
Definition parse_medoid (elem : string) : res point :=
  let pair := split "," (str_inner elem) in
  a <- getitem pair 0 ;; x <- py_int a ;;
  b <- getitem pair 1 ;; y <- py_int b ;;
  Ok (x, y).
Definition parse_medoids (s : string) : res (list point) := mapM parse_medoid (removelast (split " " s)).

(** clustering/suite.py:102-159 retrieve_suite_result_csv, on the lines of the file (None: no such file) *)
Definition retrieve_suite_result (file : option (list string)) : res (list (string * list point)) :=
  match file with
  | None => Raise ValueError
  | Some [] => Raise StopIteration
  | Some (_ :: lines) =>
      foldM (fun result line =>
               let row := csv_parse line in
               clustering_repr <- getitem row 0 ;;
               medoids_str <- getitem row 2 ;;
               medoids <- parse_medoids medoids_str ;;
               Ok (dict_set String.eqb clustering_repr medoids result))
            lines []
  end.

(** experiments/clustering/partition_analysis.py:110-132: the file written for a suite: the header and one line
    per clustering with its repr, its formatted cost and the string of its absolute medoids *)
Definition suite_csv (rows : list (string * string * list point)) : list string :=
  csv_line ["clustering"; "total_cost"; "medoids"] ::
  map (fun '(r, cost, medoids) => csv_line [r; cost; fold_left (fun s pt => s ++ medoid_str pt) medoids ""]) rows.

(* ---------- cache paths ---------- *)

(** region/metadata.py:53-64: the attributes used in names *)
Record rmeta := RMeta { rm_name : string; rm_region : rect; rm_start : Z; rm_end : Z; rm_spd : Z; rm_scaled : bool;
                        rm_dataset_dir : string }.

(** region/metadata.py:187-196 __repr__ *)
Definition rmeta_repr (r : rmeta) : string :=
  rm_name r ++ "_" ++ str_int (rm_start r) ++ "_" ++ str_int (rm_end r) ++ "_" ++ str_int (rm_spd r) ++ "spd" ++
  (if rm_scaled r then "_scaled" else "").

(** region/metadata.py:66-92 *)
Definition distances_filename (r : rmeta) : string := rm_dataset_dir r ++ "/distances_" ++ rmeta_repr r ++ ".npy".
Definition dataset_filename (r : rmeta) : string := rm_dataset_dir r ++ "/" ++ rmeta_repr r ++ ".npy".

(** region/metadata.py:174-178 pickle_dir *)
Definition region_pickle_dir (r : rmeta) (pickle_home : string) : string := path_join pickle_home (rmeta_repr r).

(** clustering/__init__.py:25-47 clustering_subdir, pickle_dir *)
Definition clustering_subdir (c : cmeta) (dist_repr : string) : string := path_join dist_repr (c_repr c).
Definition clustering_pickle_dir (c : cmeta) (r : rmeta) (dist_repr pickle_home : string) : string :=
  path_join (region_pickle_dir r pickle_home) (clustering_subdir c dist_repr).

(** clustering/__init__.py:81 and 250-259 pickle_full_path: pickle_home is left at its default *)
Definition pickle_full_path (c : cmeta) (r : rmeta) (dist_repr : string) : string :=
  path_join (clustering_pickle_dir c r dist_repr "pickle") ("partition_" ++ c_repr c ++ ".pkl").
