(** The programs that write tables for every clustering of a suite: experiments/clustering/medoid_distances.py,
    experiments/auto_arima/{error_between_medoids,distance_errors,training_error_analysis}.py and
    experiments/arima/training_error_analysis.py, from the arguments to the files.

    What happens with one clustering is in Model/Reports.v and Model/PartitionAnalysis.v.  The tables are a map from paths to
    their rows, apart from the pickled partitions and the reports of the clusterings (their names differ).  The option --plots
    is in Model/ErrorPlot.v and Model/SearchPlots.v; directories are made as needed; logging is left out. *)
From Coq Require Import String.
From Verif Require Import Base.Py Base.Arr Base.Str Base.Dict Base.Float Model.Region Model.Scaling Model.Series Model.Errors Model.Models Model.Distance Model.KMedoids Model.Clustering
  Model.Variance Model.Solver Model.SolverFiles Model.Forecast Model.Results Model.Reports Model.Algorithms Model.Programs Model.Dnn Model.PartitionAnalysis.
Local Open Scope string_scope.
Local Notation length := List.length.

(** the tables that exist; writing them one after the other *)
Definition tables := string -> option csv_file.
Definition put_table (t : tables) (f : string * csv_file) : tables := fun q => if (q =? fst f)%string then Some (snd f) else t q.
Definition put_tables (t : tables) (files : list (string * csv_file)) : tables := fold_left put_table files t.

(** medoid_distances.py:87-89 the path of the table of a clustering *)
Definition medoid_distances_path (c : cmeta) (r : rmeta) : string :=
  path_join (clustering_output_dir c r "dtw" "outputs") "medoid_distances.csv".

(** arima/training_error_analysis.py:141-155: the path of the table of a clustering and a suite of orders *)
Definition arima_errors_path (c : cmeta) (r : rmeta) (suite error_type : string) : string :=
  path_join (path_join (clustering_output_dir c r "dtw" "outputs") ("arima-" ++ suite))
            ("error-analysis__" ++ c_repr c ++ "__" ++ suite ++ "__" ++ error_type ++ ".csv").
(** auto_arima/training_error_analysis.py:148-162 *)
Definition auto_arima_errors_path (c : cmeta) (r : rmeta) (params : mparams) (error_type : string) : string :=
  path_join (path_join (clustering_output_dir c r "dtw" "outputs") (params_repr params))
            ("error-analysis__" ++ c_repr c ++ "__" ++ params_repr params ++ "__" ++ error_type ++ ".csv").

(** model/forecast.py:26 *)
Definition DEFAULT_FORECAST_LENGTH : nat := 8.

(** auto_arima/training_error_analysis.py:44-51 AutoArimaClusterResult._fields *)
Definition auto_arima_result_header : list field :=
  map FStr ["cluster"; "size"; "p_medoid"; "d_medoid"; "q_medoid"; "aic_medoid"; "failed"; "t_forecast"; "t_elapsed"; "error_each"; "error_min";
            "error_min_local"; "error_medoid"; "error_max"].
(** auto_arima/training_error_analysis.py:204-235: the row of a cluster; [order] and [aic] belong to the model at the medoid *)
Definition auto_arima_result_row (i : Z) (size : nat) (order : pdq) (aic : fnum) (x : experiment) : list field :=
  let '(p, d, q) := order in
  [FInt i; FInt (Z.of_nat size); FInt p; FInt d; FInt q; FNum 3 aic; FInt (Z.of_nat (ex_failed x)); FNum 3 (ex_forecast_time x); FNum 3 (ex_compute_time x);
   FNum 3 (fe_each (ex_errors x)); FNum 3 (fe_minimum (ex_errors x)); FNum 3 (fe_min_local (ex_errors x));
   FNum 3 (fe_centroid (ex_errors x)); FNum 3 (fe_maximum (ex_errors x))].

(** One analysis of a cluster with a trainer (ForecastAnalysis(trainer, workers).analyze_errors(cluster, error_type)): a relation,
    because neither the schedule of the workers nor the times are determined.  The number of failed models is the one the trainer
    counts (model/train.py:87-92) for the training part of the cluster. *)
Definition analyzed {P M} (kind : model_kind P M) (sqrt : fnum -> fnum) (params : arr2 (option P)) (workers : option Z) (junk : fnum)
    (cluster : stregion fnum) (medoid : point) (error_type : string) (result : res experiment) : Prop :=
  exists errors a' t_forecast t_compute,
    analyze_errors kind sqrt (train kind params) workers junk cluster (Some medoid) error_type DEFAULT_FORECAST_LENGTH new_analysis errors a' /\
    result = (e <- errors ;;
              trained <- train kind params (fst (split_training_and_test_last (Z.of_nat DEFAULT_FORECAST_LENGTH) cluster)) ;;
              Ok (Experiment e (snd trained) t_forecast t_compute)).

Section SuitePrograms.
Context {M : Type}.
Context (choice : Z -> nat -> Z -> res (list Z)) (env : denv) (create_instance : rmeta -> res (stregion fnum)) (format_coverage : Q -> string).

(** [for clustering_metadata in clustering_suite]: what a step has written stays when an exception ends the loop
    (medoid_distances.py:66-92, error_between_medoids.py:79-83, distance_errors.py:90-120, arima/training_error_analysis.py:116-124,
    auto_arima/training_error_analysis.py:122-131) *)
Fixpoint each_clustering (step : world M -> cmeta -> world M * (list (string * csv_file) * option exn)) (w : world M) (t : tables) (suite : list cmeta)
  : world M * tables * option exn :=
  match suite with
  | [] => (w, t, None)
  | c :: rest =>
      let '(w', (files, e)) := step w c in
      let t' := put_tables t files in
      match e with
      | Some e => (w', t', Some e)
      | None => each_clustering step w' t' rest
      end
  end.

(* ------------------------------------------------------------------ clustering/medoid_distances.py *)
(** medoid_distances.py:66-92: one clustering; partition is called without pickle_home and save_csv_at, so it is always computed and
    no report is written.  Iterating medoids that are None is a TypeError. *)
Definition medoid_distances_step (r : rmeta) (spt : stregion fnum) (w : world M) (c : cmeta) : world M * (list (string * csv_file) * option exn) :=
  let '(result, o) := clustering_impl choice env c (Some (dmeta_of r)) spt true (w_distance w) in
  (World (w_pickles w) (w_texts w) o,
   match result with
   | Raise e => ([], Some e)
   | Ok (_, None) => ([], Some TypeError)
   | Ok (_, Some medoids) =>
       match save_medoid_distances o (t_y spt) (c_k c) medoids with
       | Raise e => ([], Some e)
       | Ok table => ([(medoid_distances_path c r, table)], None)
       end
   end).

(** medoid_distances.py:49-92 do_medoid_distances, 143-149 metadata_from_args *)
Definition medoid_distances (w : world M) (t : tables) (region clustering_type suite_id : string) : world M * tables * option exn :=
  match (r <- region_by_name region ;;
         suite <- get_suite clustering_type suite_id ;;
         spt <- create_instance r ;;
         Ok (r, suite, spt)) with
  | Raise e => (w, t, Some e)
  | Ok (r, suite, spt) =>
      match load_distance_matrix_2d env (distances_filename r) (rm_region r) (DObj PlainDTW None false) with
      | (Raise e, o) => (World (w_pickles w) (w_texts w) o, t, Some e)
      | (Ok _, o) => each_clustering (medoid_distances_step r spt) (World (w_pickles w) (w_texts w) o) t suite
      end
  end.

(* ------------------------------------------------------------------ the partition of a clustering *)
(** clustering_algorithm.partition(spt_region, with_medoids=True, save_csv_at='outputs', pickle_home='pickle'), then [use] of the
    partition and the medoids.  A saved partition without medoids (no program saves one) makes all programs
    fail; the class of the exception is simplified. *)
Definition with_partition (r : rmeta) (spt : stregion fnum) (use : cmeta -> crisp -> list point -> dobj -> list (string * csv_file) * option exn)
    (w : world M) (c : cmeta) : world M * (list (string * csv_file) * option exn) :=
  match partition_and_report choice env format_coverage w c r spt with
  | (w', Raise e) => (w', ([], Some e))
  | (w', Ok (_, None)) => (w', ([], Some TypeError))
  | (w', Ok (p, Some medoids)) => (w', use c p medoids (w_distance w'))
  end.

(** solver/train.py:38-57 prepare_for_training with a new DistanceByDTW (error_between_medoids.py:92-102, distance_errors.py:97-107), then
    the partition *)
Definition with_prepared_partition (r : rmeta) (spt : stregion fnum) (use : cmeta -> crisp -> list point -> dobj -> list (string * csv_file) * option exn)
    (w : world M) (c : cmeta) : world M * (list (string * csv_file) * option exn) :=
  match load_distance_matrix_2d env (distances_filename r) (rm_region r) (DObj PlainDTW None false) with
  | (Raise e, o) => (World (w_pickles w) (w_texts w) o, ([], Some e))
  | (Ok _, o) => with_partition r spt use (World (w_pickles w) (w_texts w) o) c
  end.

Section Models.
Context (fit : pdq -> list fnum -> res M) (order_of : M -> pdq) (aic_of : M -> fnum) (forecast : M -> nat -> res (list fnum))
        (search : mparams -> list fnum -> res pdq).
Local Notation kind := (auto_arima_kind fit forecast search).

(** solver/train.py:50-55 the metadata of the solver trainer *)
Definition trainer_metadata (r : rmeta) (c : cmeta) (params : mparams) (forecast_len : nat) (error_type : string) : smeta :=
  SMeta r params (Z.of_nat forecast_len) error_type (SClustering c "dtw").
(** TrainerAutoArima(auto_arima_params, region_metadata.x_len, region_metadata.y_len) (error_between_medoids.py:91,
    distance_errors.py:96; region/metadata.py:63-64) *)
Definition trainer_params (r : rmeta) (params : mparams) : arr2 (option mparams) :=
  full2 (Z.to_nat (x2 (rm_region r) - x1 (rm_region r))) (Z.to_nat (y2 (rm_region r) - y1 (rm_region r))) (Some params).

(** error_between_medoids.py:107-146 and 149-180 (Reports.error_between_medoids) *)
Definition use_errors_between (r : rmeta) (spt : stregion fnum) (params : mparams) (forecast_len : nat) (error_type : string)
    (c : cmeta) (p : crisp) (medoids : list point) (o : dobj) : list (string * csv_file) * option exn :=
  let '(file, e) := error_between_medoids kind (trainer_params r params) (c_k c) spt medoids forecast_len error_type in
  (match file with
   | None => []
   | Some file => [(path_join (solver_output_dir (trainer_metadata r c params forecast_len error_type) "outputs") (between_medoids_filename c error_type), file)]
   end, e).

(** distance_errors.py:113-120 and 123-221 (Reports.distance_errors) *)
Definition use_distance_errors (r : rmeta) (spt : stregion fnum) (params : mparams) (forecast_len : nat) (error_type : string)
    (c : cmeta) (p : crisp) (medoids : list point) (o : dobj) : list (string * csv_file) * option exn :=
  distance_errors kind (extract_pdq order_of) env (Some (dmeta_of r)) (trainer_params r params)
    (trainer_metadata r c params forecast_len error_type) c p medoids spt forecast_len error_type "outputs" o.

(** error_between_medoids.py:183-202, distance_errors.py:256-272, auto_arima/training_error_analysis.py:260-279 metadata_from_args *)
Definition auto_arima_metadata (region experiment : string) : res (rmeta * list cmeta * mparams * string) :=
  r <- region_by_name region ;;
  e <- dict_get String.eqb experiment auto_arima_clustering_experiments ;;
  suite <- get_suite (ce_clustering_type e) (ce_suite_id e) ;;
  params <- dict_get String.eqb (ce_models e) predefined_auto_arima ;;
  Ok (r, suite, params, ce_distance e).

(** error_between_medoids.py:70-83 do_auto_arima_errors; [forecast_len] is --flen (negative values are not considered) *)
Definition errors_between_medoids (w : world M) (t : tables) (region experiment : string) (forecast_len : nat) (error_type : string)
  : world M * tables * option exn :=
  match ('(r, suite, params, _) <- auto_arima_metadata region experiment ;;
         spt <- create_instance r ;;
         Ok (r, suite, params, spt)) with
  | Raise e => (w, t, Some e)
  | Ok (r, suite, params, spt) =>
      each_clustering (with_prepared_partition r spt (use_errors_between r spt params forecast_len error_type)) w t suite
  end.

(** distance_errors.py:78-120 do_auto_arima_distance_errors *)
Definition auto_arima_distance_errors (w : world M) (t : tables) (region experiment : string) (forecast_len : nat) (error_type : string)
  : world M * tables * option exn :=
  match ('(r, suite, params, _) <- auto_arima_metadata region experiment ;;
         spt <- create_instance r ;;
         Ok (r, suite, params, spt)) with
  | Raise e => (w, t, Some e)
  | Ok (r, suite, params, spt) =>
      each_clustering (with_prepared_partition r spt (use_distance_errors r spt params forecast_len error_type)) w t suite
  end.

(* ------------------------------------------------------------------ arima/training_error_analysis.py *)
(** arima/training_error_analysis.py:127-224 do_arima_error_analysis_for_clustering: the clusters are made before the table is opened; [ran c i cluster medoid order] is
    what the analysis of cluster i of clustering c gives *)
Definition use_arima_errors (r : rmeta) (spt : stregion fnum) (name : string) (orders : list pdq) (error_type : string)
    (ran : cmeta -> Z -> stregion fnum -> point -> pdq -> res experiment) (c : cmeta) (p : crisp) (medoids : list point) (o : dobj)
  : list (string * csv_file) * option exn :=
  match clusters_with_centroids p spt None None (Some medoids) with
  | Raise e => ([], Some e)
  | Ok clusters =>
      let '(file, e) := training_error_analysis p (c_k c) orders (fun i order =>
          cluster <- getitem clusters i ;;
          medoid <- match h_own cluster with Some m => Ok m | None => Raise AttributeError end ;;
          ran c i (h_region cluster) medoid order) in
      ([(arima_errors_path c r name error_type, file)], e)
  end.

(** arima/training_error_analysis.py:226-245 metadata_from_args and 88-124 do_arima_error_analysis.  argparse accepts the error types of
    error_functions only; [int(args.parallel)] is part of [ran]. *)
Definition arima_error_analysis (ran : cmeta -> Z -> stregion fnum -> point -> pdq -> res experiment) (w : world M) (t : tables) (region experiment error_type : string)
  : world M * tables * option exn :=
  match (r <- region_by_name region ;;
         e <- dict_get String.eqb experiment arima_clusters_experiments ;;
         suite <- get_suite (ce_clustering_type e) (ce_suite_id e) ;;
         orders <- arima_suite_by_name (ce_models e) ;;
         spt <- create_instance r ;;
         _ <- py_assert (ce_distance e =? "dtw")%string ;;
         Ok (r, suite, ce_models e, orders, spt)) with
  | Raise e => (w, t, Some e)
  | Ok (r, suite, name, orders, spt) =>
      match load_distance_matrix_2d env (distances_filename r) (rm_region r) (DObj PlainDTW None false) with
      | (Raise e, o) => (World (w_pickles w) (w_texts w) o, t, Some e)
      | (Ok _, o) => each_clustering (with_partition r spt (use_arima_errors r spt name orders error_type ran)) (World (w_pickles w) (w_texts w) o) t suite
      end
  end.

(* ------------------------------------------------------------------ auto_arima/training_error_analysis.py *)
(** auto_arima/training_error_analysis.py:180-242 analyze_auto_arima_for_cluster: the row; [ran] is what analyze_errors gives.  The model
    region of the analysis is what the trainer returns for the training part of the cluster; pdq_region and aic_region hold the
    orders and AIC values of its cells (train.py:173-179; the orders are stored in eight bits, which is enough for the orders of the
    search). *)
Definition auto_arima_cluster_row (p : crisp) (i : Z) (cluster : stregion fnum) (medoid : point) (params : mparams) (ran : res experiment) : res (list field) :=
  x <- ran ;;
  trained <- train kind (full2 (t_x cluster) (t_y cluster) (Some params)) (fst (split_training_and_test_last (Z.of_nat DEFAULT_FORECAST_LENGTH) cluster)) ;;
  at_medoid <- get2 (fst trained) (fst medoid) (snd medoid) ;;
  Ok (auto_arima_result_row i (cluster_len p i) (extract_pdq order_of at_medoid) (extract_aic aic_of at_medoid) x).

(** auto_arima/training_error_analysis.py:134-177 do_auto_arima_error_analysis_for_clustering *)
Definition use_auto_arima_errors (r : rmeta) (spt : stregion fnum) (params : mparams) (error_type : string)
    (ran : cmeta -> Z -> stregion fnum -> point -> res experiment) (c : cmeta) (p : crisp) (medoids : list point) (o : dobj) : list (string * csv_file) * option exn :=
  match clusters_with_centroids p spt None None (Some medoids) with
  | Raise e => ([], Some e)
  | Ok clusters =>
      let '(file, e) := append_rows (map (fun i =>
          cluster <- getitem clusters i ;;
          medoid <- match h_own cluster with Some m => Ok m | None => Raise AttributeError end ;;
          auto_arima_cluster_row p i (h_region cluster) medoid params (ran c i (h_region cluster) medoid)) (zrange 0 (c_k c))) [auto_arima_result_header] in
      ([(auto_arima_errors_path c r params error_type, file)], e)
  end.

(** auto_arima/training_error_analysis.py:94-131 do_auto_arima_error_analysis *)
Definition auto_arima_error_analysis (ran : cmeta -> Z -> stregion fnum -> point -> res experiment) (w : world M) (t : tables) (region experiment error_type : string)
  : world M * tables * option exn :=
  match ('(r, suite, params, distance) <- auto_arima_metadata region experiment ;;
         spt <- create_instance r ;;
         _ <- py_assert (distance =? "dtw")%string ;;
         Ok (r, suite, params, spt)) with
  | Raise e => (w, t, Some e)
  | Ok (r, suite, params, spt) =>
      match load_distance_matrix_2d env (distances_filename r) (rm_region r) (DObj PlainDTW None false) with
      | (Raise e, o) => (World (w_pickles w) (w_texts w) o, t, Some e)
      | (Ok _, o) => each_clustering (with_partition r spt (use_auto_arima_errors r spt params error_type ran)) (World (w_pickles w) (w_texts w) o) t suite
      end
  end.
End Models.
End SuitePrograms.
