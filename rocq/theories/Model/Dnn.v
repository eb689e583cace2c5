(** The program that answers with the help of the neural network, experiments/classifier/solver_dnn.py, and its tables of
    experiments: experiments/metadata/{classifier,arima_clustering}.py.  As in Programs.v, the functions start from the
    options that argparse has read, and what is printed and saved is the result. *)
From Coq Require Import String.
From Verif Require Import Base.Py Base.Arr Base.Str Base.Dict Base.Float Model.Region Model.Series Model.Errors Model.Models
  Model.Forecast Model.Clustering Model.Solver Model.SolverFiles Model.Results Model.Classifier Model.Programs.
Local Open Scope string_scope.
Local Notation length := List.length.

(** experiments/metadata/classifier.py:4-13 classifier_experiments; classifier/dnn.py:13-17 ClassifierDNNParams *)
Record dnn_params := DnnParams { dp_name : string; dp_model_path : string; dp_labels_path : string; dp_window_size : nat }.
Definition classifier_experiments : list (string * dnn_params) :=
  [ ("dnn", DnnParams "lstm_wSW_label_k-seed-ci" "lstm/model_lstm_wSW_label_k-seed-ci.h5" "lstm/labels_k-seed-ci.csv" 15);
    ("dnnRV", DnnParams "lstmRV_wSW_label_k-seed-ci" "lstm/model_lstmRV_wSW_label_k-seed-ci.h5" "lstm/labels_k-seed-ci.csv" 15) ].

(** experiments/metadata/arima_clustering.py:4-5, 45-46: the two named tuples have the same fields: the ID of the models,
    clustering_type, clustering_suite_id and distance *)
Record clustering_experiment := CExperiment { ce_models : string; ce_clustering_type : string; ce_suite_id : string; ce_distance : string }.
(** arima_clustering.py:7-19 experiments_for_arima_with_clusters *)
Definition arima_clusters_experiments : list (string * clustering_experiment) :=
  [ ("arima_simple_quick", CExperiment "arima_simple" "kmedoids" "quick" "dtw");
    ("arima_two_quick", CExperiment "arima_two" "kmedoids" "quick" "dtw");
    ("arima_whole_brazil", CExperiment "arima_sweep" "kmedoids" "even" "dtw") ].
(** arima_clustering.py:49-63 auto_arima_clustering_experiments *)
Definition auto_arima_clustering_experiments : list (string * clustering_experiment) :=
  [ ("simple_kmedoids_quick", CExperiment "simple" "kmedoids" "quick" "dtw");
    ("simple_regular_quick", CExperiment "simple" "regular" "quick" "dtw");
    ("simple_kmedoids_all", CExperiment "simple" "kmedoids" "all" "dtw");
    ("simple_regular_part1", CExperiment "simple" "regular" "part1" "dtw");
    ("simple_regular_part2", CExperiment "simple" "regular" "part2" "dtw") ].

(** clustering/suite.py:224-225 __repr__ of the suites of experiments/metadata/clustering.py: their identifier is still
    'change_me' (kmedoids.py:104, regular.py:46) when the caller does not set it *)
Definition suite_repr (clustering_type identifier : string) : string := clustering_type ++ "-" ++ identifier.
(** clustering/suite.py:161-175 csv_dir and csv_suite_dir *)
Definition suite_csv_dir (dist_repr home : string) (r : rmeta) : string := region_output_dir r home ++ "/" ++ dist_repr.
Definition csv_suite_dir (suite dist_repr home : string) (r : rmeta) : string := path_join (suite_csv_dir dist_repr home r) suite.

(** solver_dnn.py:127-153 metadata_from_args; [out_of_sample] is --out-of-sample, None without the option *)
Definition dnn_metadata (region experiment classifier : string) (out_of_sample : option string)
  : res (rmeta * clustering_experiment * mparams * dnn_params * option rmeta) :=
  r <- region_by_name region ;;
  e <- dict_get String.eqb experiment auto_arima_clustering_experiments ;;
  _ <- get_suite (ce_clustering_type e) (ce_suite_id e) ;;
  params <- dict_get String.eqb (ce_models e) predefined_auto_arima ;;
  c <- dict_get String.eqb classifier classifier_experiments ;;
  o <- match out_of_sample with
       | None => Ok None
       | Some "" => Ok None
       | Some name => r' <- region_by_name name ;; Ok (Some r')
       end ;;
  Ok (r, e, params, c, o).

Section Dnn.
Context (create_instance : rmeta -> res (stregion fnum)) (partition_impl : rmeta -> cmeta -> stregion fnum -> bool -> res part)
        (sqrt : fnum -> fnum) (format_float : nat -> fnum -> string) (show_series : list fnum -> string).
(** The files of the classifier: the column of labels in the file of labels, and model.predict with the weights in the
    file of the model (they are supposed to exist). *)
Context (labels_of : string -> list string) (network : string -> list fnum -> list fnum).

(** what the classifier answers: classifier/dnn.py:36-88 *)
Definition dnn_label (c : dnn_params) : list fnum -> res string :=
  label_for_series (dp_window_size c) (labels_of (dp_labels_path c)) (network (dp_model_path c)).

(** solver_dnn.py:80-124 process_request; [tf] is --tf (negative values are not considered), [junk] the content of
    np.empty.  A solver without partition file computes it again (solver/model.py:323-350). *)
Definition dnn_request {M} (fit : pdq -> list fnum -> res M) (forecast : M -> nat -> res (list fnum)) (search : mparams -> list fnum -> res pdq)
           (junk : fnum) (fs : fsys M) (region experiment classifier : string) (lat1 lat2 long1 long2 : string)
           (out_of_sample : option string) (error_type : string) (tf : nat) : fsys M * res (list line * list (string * list string)) :=
  match dnn_metadata region experiment classifier out_of_sample with
  | Raise e => (fs, Raise e)
  | Ok (r, e, params, c, o) =>
      match prediction_region lat1 lat2 long1 long2 with
      | Raise e => (fs, Raise e)
      | Ok g =>
          let suite := suite_repr (ce_clustering_type e) "change_me" in
          let cfg := CConfig r "dtw" suite (csv_suite_dir suite "dtw") params tf error_type in
          let impl := fun (k : skey) wm => spt <- create_instance (k_region k) ;; partition_impl (k_region k) (k_clustering k) spt wm in
          let '(st, result) := classifier_predict (auto_arima_kind fit forecast search) junk cfg (dnn_label c) (create_instance r) impl g
                                 (Z.of_nat (dp_window_size c)) (option_map create_instance o) (new_classifier_solver fs) in
          (cs_files st, result <- result ;; show_result sqrt format_float show_series result)
      end
  end.
End Dnn.
