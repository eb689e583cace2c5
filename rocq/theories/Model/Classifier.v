(** Predictions with the help of a classifier: spta/classifier/model.py and the label of spta/classifier/dnn.py.
    Logging, the printed summary of the network and its weights are left out. *)
From Coq Require Import String.
From Verif Require Import Base.Py Base.Arr Base.Str Base.Dict Base.Float Model.Region Model.Scaling Model.Series Model.Errors Model.Models Model.Forecast
  Model.Clustering Model.Solver Model.SolverFiles Model.Results.
Local Open Scope string_scope.
Local Notation length := List.length.

(* ------------------------------------------------------------------ spta/classifier/dnn.py *)

(** sklearn.preprocessing.normalize(norm='l1') on one row, as called in dnn.py:74: check_array refuses NaN and
    infinity; a row of zeros is left as it is *)
Definition normalize_l1 (s : list fnum) : res (list fnum) :=
  if forallb is_fin s then
    let n := fsum (map fabs s) in
    Ok (if feqb n (Fin 0) then s else map (fun v => fdiv v n) s)
  else Raise ValueError.

(** dnn.py:67-88 label_for_series; [window_size] and [labels] (column 1 of the CSV of labels) come from the parameters,
    [model] is model.predict on one series; normalize refuses a row without columns (the shapes (1, window_size, 1) and (1, n) are flattened).  A label that
    pandas read as a number instead of a string is not considered. *)
Definition label_for_series (window_size : nat) (labels : list string) (model : list fnum -> list fnum) (s : list fnum) : res string :=
  if negb (length s =? window_size)%nat || (window_size =? 0)%nat then Raise ValueError
  else
    normalized <- normalize_l1 s ;;
    label_predict <- np_argmax (model normalized) ;;
    getitem labels (Z.of_nat label_predict).

(* ------------------------------------------------------------------ spta/classifier/model.py *)

(** model.py:64-73: the constructor arguments; the suite appears through its repr and directory *)
Record cconfig := CConfig { cc_region : rmeta; cc_dist : string; cc_suite_repr : string; cc_suite_dir : string -> rmeta -> string;
                            cc_params : mparams; cc_test_len : nat; cc_error : string }.

Section Classifier.
Context {P M : Type} (kind : model_kind P M) (junk : fnum) (cfg : cconfig).
(** the classifier, created by prepare (l.88); region_metadata.create_instance() (l.90); what recomputes the partition
    of a clustering when its file is missing (solver/model.py:323-350) *)
Context (classify : list fnum -> res string) (create_instance : res (stregion fnum)) (impl : skey -> bool -> res part).

(** model.py:75-78, 88-97: the attributes that change: whether classifier is set, spt_region, target_spt_region (None:
    not set) and the dict solvers; and the files *)
Record cstate := CState { cs_files : fsys M; cs_classifier : bool; cs_region : option (stregion fnum);
                          cs_target : option (stregion fnum); cs_solvers : list (string * loaded_solver M) }.
Definition new_classifier_solver (fs : fsys M) : cstate := CState fs false None None [].

(** model.py:80-103 prepare; [target] is out_of_sample_region.create_instance(), None without such a region.  The
    attributes set before an exception remain. *)
Definition prepare (target : option (res (stregion fnum))) (st : cstate) : cstate * res unit :=
  match create_instance with
  | Raise e => (CState (cs_files st) true (cs_region st) (cs_target st) (cs_solvers st), Raise e)
  | Ok r =>
      match target with
      | None => (CState (cs_files st) true (Some r) (Some r) (cs_solvers st), Ok tt)
      | Some (Ok t) => (CState (cs_files st) true (Some r) (Some t) (cs_solvers st), Ok tt)
      | Some (Raise e) => (CState (cs_files st) true (Some r) (cs_target st) (cs_solvers st), Raise e)
      end
  end.

(** model.py:143-157 get_labels_from_classifier *)
Definition get_labels_from_classifier (target : stregion fnum) (g : rect) (tp : Z) : res (list (point * string)) :=
  let series_len := Z.of_nat (t_len target) in
  items <- t_items (subset target g (Interval (series_len - tp) series_len)) ;;
  foldM (fun d '(pt, s) => l <- classify s ;; Ok (dict_set point_eqb pt l d)) items [].

(** model.py:159-175 solver_metadata_for_classifier_label *)
Definition key_for_label (label : string) : res skey :=
  m <- kmeta_from_classifier_label label "lite" ;;
  Ok (SKey (cc_region cfg) (CKmedoids m) (cc_dist cfg) (cc_params cfg) (Z.of_nat (cc_test_len cfg)) (cc_error cfg)).
Definition key_repr (k : skey) : string := clustering_solver_repr (meta_of k) (k_clustering k) (k_dist k).

(** model.py:187-199: the solver from the dict, or loaded and added to it (the line for the log needs its medoids) *)
Definition retrieve_solver (k : skey) (st : cstate) : cstate * res (loaded_solver M) :=
  match dict_get String.eqb (key_repr k) (cs_solvers st) with
  | Ok s => (st, Ok s)
  | Raise _ =>
      match load_solver (cs_files st) k (impl k) with
      | (fs, Ok s) =>
          (CState fs (cs_classifier st) (cs_region st) (cs_target st) (dict_set String.eqb (key_repr k) s (cs_solvers st)),
           match snd (ls_partition s) with None => Raise AttributeError | Some _ => Ok s end)
      | (fs, Raise e) => (CState fs (cs_classifier st) (cs_region st) (cs_target st) (cs_solvers st), Raise e)
      end
  end.

(** model.py:201-208: the training model at the medoid with the index of the label *)
Definition model_for_label (s : loaded_solver M) (label : string) : res (cell M) :=
  cluster_index_str <- getitem (split "-" label) 2 ;;
  cluster_index <- py_int cluster_index_str ;;
  match snd (ls_partition s) with
  | None => Raise AttributeError
  | Some medoids => medoid <- getitem medoids cluster_index ;; get2 (ls_training s) (fst medoid) (snd medoid)
  end.

(** model.py:128-132: the loop that collects the models *)
Fixpoint models_by_point (labels : list (point * string)) (st : cstate) : cstate * res (list (point * cell M)) :=
  match labels with
  | [] => (st, Ok [])
  | (pt, label) :: rest =>
      match key_for_label label with
      | Raise e => (st, Raise e)
      | Ok k =>
          match retrieve_solver k st with
          | (st, Raise e) => (st, Raise e)
          | (st, Ok s) =>
              match model_for_label s label with
              | Raise e => (st, Raise e)
              | Ok m =>
                  match models_by_point rest st with
                  | (st, Raise e) => (st, Raise e)
                  | (st, Ok l) => (st, Ok ((pt, m) :: l))
                  end
              end
          end
      end
  end.

(** model.py:210-228 build_model_region_for_models; np.empty refuses negative dimensions, and holds None *)
Definition build_model_region (g : rect) (models : list (point * cell M)) : res (arr2 (cell M)) :=
  let x_len := (x2 g - x1 g)%Z in
  let y_len := (y2 g - y1 g)%Z in
  if ((x_len <? 0) || (y_len <? 0))%Z then Raise ValueError
  else foldM (fun a '(pt, m) => set2 a (fst pt) (snd pt) m) models (full2 (Z.to_nat x_len) (Z.to_nat y_len) NoModel).

(** model.py:269-279 descale_subregion *)
Definition descale_subregion (subregion prediction : stregion fnum) : res (stregion fnum) :=
  match prediction with
  | TScaled _ mn mx => descale (TScaled subregion mn mx)
  | _ => Raise AttributeError
  end.

(** model.py:99-103, 257-266: the metadata of the result *)
Definition suite_meta : smeta :=
  SMeta (cc_region cfg) (cc_params cfg) (Z.of_nat (cc_test_len cfg)) (cc_error cfg) (SSuite (cc_suite_dir cfg)).

(** model.py:230-267 create_prediction_query_result; the object NoTrainer also copies the models into an array of
    functions that is not used (train.py:138-142) *)
Definition create_prediction_query_result (spt_region : stregion fnum) (g : rect) (models : arr2 (cell M)) (labels : list (point * string))
  : res presult :=
  prediction <- t_region_subset spt_region g ;;
  _ <- mk_trainer (ParamRegion (SPlain models)) ;;
  let '(trained, a) := train_models (no_trainer models) prediction (cc_test_len cfg) new_analysis in
  _ <- trained ;;
  each <- fst (forecast_at_each_point kind None junk (cc_test_len cfg) (cc_error cfg) a) ;;
  let '(forecast, errors) := each in
  match an_data a with
  | None => Raise AttributeError
  | Some d =>
      forecast <- (if rm_scaled (cc_region cfg) then descale_subregion forecast prediction else Ok forecast) ;;
      test <- (if rm_scaled (cc_region cfg) then descale_subregion (da_test d) prediction else Ok (da_test d)) ;;
      r <- builder suite_meta (Z.of_nat (cc_test_len cfg)) forecast (Some test) errors g spt_region false ;;
      Ok (from_classifier r (cc_suite_repr cfg) labels)
  end.

(** model.py:105-141 predict *)
Definition classifier_predict (g : rect) (tp : Z) (out_of_sample : option (res (stregion fnum))) (st : cstate) : cstate * res presult :=
  match (if cs_classifier st then (st, Ok tt) else prepare out_of_sample st) with
  | (st, Raise e) => (st, Raise e)
  | (st, Ok _) =>
      match cs_target st, cs_region st with
      | Some target, Some spt_region =>
          match get_labels_from_classifier target g tp with
          | Raise e => (st, Raise e)
          | Ok labels =>
              match models_by_point labels st with
              | (st, Raise e) => (st, Raise e)
              | (st, Ok models) =>
                  (st, model_region <- build_model_region g models ;; create_prediction_query_result spt_region g model_region labels)
              end
          end
      | _, _ => (st, Raise AttributeError)
      end
  end.
End Classifier.
Arguments cstate M : clear implicits.
