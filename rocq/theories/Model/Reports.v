(** The programs under experiments/ that write tables as CSV files: clustering/medoid_distances.py,
    auto_arima/distance_errors.py, auto_arima/error_between_medoids.py and arima/training_error_analysis.py.

    A file is the list of its rows; the cells are kept with their types ([field]).  Opening a file with 'w' empties it,
    opening it with 'a' keeps its rows; writing does not fail.  The region, the partition and the medoids are given;
    argument parsing, logging, plots and the creation of directories are left out. *)
From Coq Require Import String.
From Verif Require Import Base.Py Base.Arr Base.Str Base.Float Model.Region Model.Scaling Model.Series Model.Errors
  Model.Models Model.Distance Model.Clustering Model.Solver Model.SolverFiles Model.Forecast Model.Results.
Local Open Scope string_scope.
Local Notation length := List.length.

Definition csv_file := list (list field).

(** medoid_distances.py:118-121, error_between_medoids.py:126-133: a first cell and '0' ... 'k-1' *)
Definition index_header (first : string) (k : Z) : list field := FStr first :: map (fun i => FStr (str_int i)) (zrange 0 k).

(** medoid_distances.py:131-139, error_between_medoids.py:162-166, 174: str(i), then the values with three decimals *)
Definition indexed_row (i : Z) (values : list fnum) : list field := FStr (str_int i) :: map (FNum 3) values.

(* ------------------------------------------------------------------ clustering/medoid_distances.py *)

(** distance/__init__.py:143-165 distances_to_point_with_matrix with indices that are Python ints *)
Definition distances_with_matrix (o : dobj) (y_len : nat) (pt : point) (indices : list Z) : res (list fnum) :=
  match d_matrix o with
  | None => Raise AssertionError
  | Some M => mapM (fun j => m_get M (encode_point y_len pt) j) indices
  end.

(** assignment of an array to a row of k cells: one value is repeated *)
Definition fill_row (k : Z) (values : list fnum) : res (list fnum) :=
  if (Z.of_nat (length values) =? k)%Z then Ok values
  else match values with [v] => Ok (repeat v (Z.to_nat k)) | _ => Raise ValueError end.

(** medoid_distances.py:76-80, 95-139: the indices of the medoids and compute_and_save_medoid_distances; k is the k of
    the algorithm.  The file is opened after all distances have been found. *)
Definition save_medoid_distances (o : dobj) (y_len : nat) (k : Z) (medoids : list point) : res csv_file :=
  let medoid_indices := map (encode_point y_len) medoids in
  table <- mapM (fun i =>
             medoid <- getitem medoids i ;;
             distances <- distances_with_matrix o y_len medoid medoid_indices ;;
             fill_row k distances) (zrange 0 k) ;;
  Ok (index_header "k" k :: map (fun '(i, row) => indexed_row (Z.of_nat i) row) (enumerate table)).

(* ------------------------------------------------------------------ auto_arima/distance_errors.py *)
Section Models.
Context {P M : Type} (kind : model_kind P M) (pdq_of : cell M -> pdq).

(** distance_errors.py:164-167 (the .csv) *)
Definition distance_errors_filename (c : cmeta) (error_type cluster_name : string) (order : pdq) : string :=
  let '(p, d, q) := order in
  "dist-error__" ++ c_repr c ++ "__" ++ error_type ++ "__" ++ cluster_name ++ "__auto-arima-p" ++ str_int p ++
  "-d" ++ str_int d ++ "-q" ++ str_int q ++ ".csv".

(** distance_errors.py:109-200 distance_vs_errors_for_cluster without the plot: the path of the file and the file.
    [params] are the parameters of the trainer (TrainerAutoArima(auto_arima_params, x_len, y_len)), [smd] is the metadata
    of the solver trainer, [centroid] the attribute of the cluster.  The forecast of a cell does not use the argument
    of the model function.  The distance object is returned because it may load its matrix. *)
Definition distance_vs_errors_for_cluster (env : denv) (md : option dmeta) (params : arr2 (option P)) (smd : smeta) (c : cmeta)
    (cluster : stregion fnum) (name : string) (centroid : point) (forecast_len : nat) (error_type output_home : string) (o : dobj)
    : res (string * csv_file) * dobj :=
  let '(training_cluster, observation_cluster) := split_training_and_test_last (Z.of_nat forecast_len) cluster in
  match all_point_indices cluster with
  | Raise e => (Raise e, o)
  | Ok indices =>
      let '(distances, o) := distances_to_point env cluster md centroid indices true true o in
      (distances_to_medoid <- distances ;;
       trained <- train_at_representatives kind params [centroid] training_cluster ;;
       let models := fst trained in
       at_medoid <- get2 models (fst centroid) (snd centroid) ;;
       forecast_series <- forecast_of_cell kind at_medoid forecast_len ;;
       _ <- series_at observation_cluster centroid ;;
       let order := pdq_of at_medoid in
       error_region <- with_repeated_forecast (ErrorAnalysis observation_cluster (Some training_cluster) None) forecast_series error_type ;;
       errors <- s_items error_region ;;
       let forecast_errors := map snd errors in
       points <- t_items cluster ;;
       rows <- mapM (fun '(i, (pt, _)) =>
                 let coords := absolute_position_of_point (rm_region (sm_region smd)) pt in
                 distance <- getitem distances_to_medoid (Z.of_nat i) ;;
                 error <- getitem forecast_errors (Z.of_nat i) ;;
                 Ok [FPt coords; FNum 3 distance; FNum 3 error]) (enumerate points) ;;
       Ok (path_join (solver_output_dir smd output_home) (distance_errors_filename c error_type name order),
           [FStr "position"; FStr "distance_dtw"; FStr "forecast_error"] :: rows),
       o)
  end.

(** distance_errors.py:99-106 with partition.py:176-195: the clusters in turn, named cluster0, cluster1, ..., each with
    the medoid of its index; what has been written when an exception ends the loop stays *)
Fixpoint distance_errors_loop (env : denv) (md : option dmeta) (params : arr2 (option P)) (smd : smeta) (c : cmeta)
    (clusters : list (Z * stregion fnum * point)) (forecast_len : nat) (error_type output_home : string) (o : dobj)
    : list (string * csv_file) * option exn :=
  match clusters with
  | [] => ([], None)
  | (i, cluster, centroid) :: rest =>
      match distance_vs_errors_for_cluster env md params smd c cluster ("cluster" ++ str_int i) centroid forecast_len error_type output_home o with
      | (Raise e, _) => ([], Some e)
      | (Ok file, o') =>
          let '(files, e) := distance_errors_loop env md params smd c rest forecast_len error_type output_home o' in
          (file :: files, e)
      end
  end.
Definition distance_errors (env : denv) (md : option dmeta) (params : arr2 (option P)) (smd : smeta) (c : cmeta) (p : crisp)
    (medoids : list point) (spt_region : stregion fnum) (forecast_len : nat) (error_type output_home : string) (o : dobj)
    : list (string * csv_file) * option exn :=
  match mapM (fun i => cluster <- create_spt_cluster p spt_region i ;;
                       centroid <- getitem medoids i ;;
                       Ok (i, cluster, centroid)) (zrange 0 (pk p)) with
  | Raise e => ([], Some e)
  | Ok clusters => distance_errors_loop env md params smd c clusters forecast_len error_type output_home o
  end.

(* ------------------------------------------------------------------ auto_arima/error_between_medoids.py *)

(** error_between_medoids.py:117 *)
Definition between_medoids_filename (c : cmeta) (error_type : string) : string :=
  "error-between-medoids__" ++ c_repr c ++ "__" ++ error_type ++ ".csv".

(** error_between_medoids.py:144-174 find_auto_arima_errors_for_medoid: the row that is appended *)
Definition errors_row (ea : error_analysis) (models : arr2 (cell M)) (i : Z) (medoid : point) (medoids : list point)
    (forecast_len : nat) (error_type : string) : res (list field) :=
  at_medoid <- get2 models (fst medoid) (snd medoid) ;;
  forecast_series <- forecast_of_cell kind at_medoid forecast_len ;;
  error_region <- with_repeated_forecast ea forecast_series error_type ;;
  errors_at_medoids <- mapM (value_at error_region) medoids ;;
  Ok (indexed_row i errors_at_medoids).

(** rows that are appended one by one: what is in the file at the end, or when an exception is raised *)
Fixpoint append_rows (rows : list (res (list field))) (file : csv_file) : csv_file * option exn :=
  match rows with
  | [] => (file, None)
  | Ok row :: rest => append_rows rest (app file [row])
  | Raise e :: _ => (file, Some e)
  end.

(** error_between_medoids.py:98-141: the contents of the file, if it has been opened, and the exception, if any.  [k] is
    the k of the clustering metadata. *)
Definition error_between_medoids (params : arr2 (option P)) (k : Z) (spt_region : stregion fnum) (medoids : list point)
    (forecast_len : nat) (error_type : string) : option csv_file * option exn :=
  let '(training_region, test_region) := split_training_and_test_last (Z.of_nat forecast_len) spt_region in
  let ea := ErrorAnalysis test_region (Some training_region) None in
  match train_at_representatives kind params medoids training_region with
  | Raise e => (None, Some e)
  | Ok (models, _) =>
      let '(file, e) := append_rows (map (fun '(i, medoid) => errors_row ea models (Z.of_nat i) medoid medoids forecast_len error_type)
                                         (enumerate medoids)) [index_header "cluster" k] in
      (Some file, e)
  end.
End Models.

(* ------------------------------------------------------------------ arima/training_error_analysis.py *)

(** training_error_analysis.py:44-47 _fields *)
Definition cluster_result_header : list field :=
  map FStr ["cluster"; "size"; "p"; "d"; "q"; "failed"; "t_forecast"; "t_elapsed"; "error_each"; "error_min"; "error_min_local";
            "error_medoid"; "error_max"].

(** what one analysis of a cluster gives (l.182-192): the errors, the number of points without a model, the two times *)
Record experiment := Experiment { ex_errors : forecast_errors; ex_failed : nat; ex_forecast_time : fnum; ex_compute_time : fnum }.

(** training_error_analysis.py:187-205: the row of one experiment *)
Definition cluster_result_row (i : Z) (size : nat) (params : pdq) (x : experiment) : list field :=
  let '(p, d, q) := params in
  [FInt i; FInt (Z.of_nat size); FInt p; FInt d; FInt q; FInt (Z.of_nat (ex_failed x)); FNum 3 (ex_forecast_time x); FNum 3 (ex_compute_time x);
   FNum 3 (fe_each (ex_errors x)); FNum 3 (fe_minimum (ex_errors x)); FNum 3 (fe_min_local (ex_errors x));
   FNum 3 (fe_centroid (ex_errors x)); FNum 3 (fe_maximum (ex_errors x))].

(** training_error_analysis.py:158-226, l.152-156 for the header: for each of the k clusters and for each order of the
    suite.  [analysis i params] is what analyze_errors gives for cluster i ([Model.Forecast.analyze_errors]; the times are
    not determined).  An exception ends the program; a missing cluster is an IndexError. *)
Definition training_error_analysis (p : crisp) (k : Z) (suite : list pdq) (analysis : Z -> pdq -> res experiment) : csv_file * option exn :=
  append_rows
    (flat_map (fun i =>
       if (i <? pk p)%Z then
         map (fun params => x <- analysis i params ;; Ok (cluster_result_row i (cluster_len p i) params x)) suite
       else [Raise IndexError]) (zrange 0 k))
    [cluster_result_header].
