(** The solver: spta/solver/train.py, spta/solver/model.py (prediction) and the ARIMA trainers of
    spta/arima/train.py.  Logging, plotting and file output are left out here (files: Model/SolverFiles.v). *)
From Coq Require Import String.
From Verif Require Import Base.Py Base.Arr Base.Float Model.Region Model.Scaling Model.Series Model.Errors Model.Models.
Local Notation length := List.length.

Section Solver.
Context {P M : Type} (kind : model_kind P M).

(** model_trainer.create_refitter(models).apply_to(region), as a function of the models and the region;
    model/train.py:119-130: by default the trainer itself *)
Definition refitter := arr2 (cell M) -> stregion fnum -> res (arr2 (cell M) * nat).
Definition default_refitter (params : arr2 (option P)) : refitter := fun _ r => train kind params r.

(** solver/model.py:24-43 SolverWithMedoids: what training computes *)
Record solver := Solver { so_partition : crisp; so_medoids : list point;
                          so_training : arr2 (cell M); so_whole : arr2 (cell M); so_errors : sregion fnum }.

(** solver/train.py:155-169 replicate_representative_models; np.empty(dtype=object) holds None *)
Definition replicate_representative_models (medoid_models : arr2 (cell M)) (p : crisp) (medoids : list point)
  : res (arr2 (cell M)) :=
  spatial_clusters <- create_all_spatial_clusters p (SPlain medoid_models) ;;
  merged <- merge_with_representatives_2d NoModel p spatial_clusters medoids ;;
  Ok (s_data merged).

(** solver/train.py:171-192 calculate_errors *)
Definition calculate_errors (models : arr2 (cell M)) (training test : stregion fnum) (error_type : string)
  : res (sregion fnum) :=
  let forecast_len := t_len test in
  forecast_region <- t_apply_series (Fin 0) (model_function kind models forecast_len) test forecast_len ;;
  error_func <- get_error_func error_type ;;
  measure_error <- mk_measure_error error_func test (Some training) ;;
  measure_apply_to measure_error forecast_region.

(** solver/train.py:59-139 train, on the region that region_metadata.create_instance() returns (l.79); [cluster] is
    clustering_algorithm.partition(..., with_medoids=True): the partition and its medoids *)
Definition solver_train (params : arr2 (option P)) (refit : refitter)
           (cluster : stregion fnum -> res (crisp * list point))
           (spt_region : stregion fnum) (test_len : Z) (error_type : string) : res solver :=
  let '(training, test) := split_training_and_test_last test_len spt_region in
  part <- cluster spt_region ;;
  let '(p, medoids) := part in
  trained <- train_at_representatives kind params medoids training ;;
  let medoid_models := fst trained in
  replicated <- replicate_representative_models medoid_models p medoids ;;
  errors <- calculate_errors replicated training test error_type ;;
  refitted <- refit medoid_models spt_region ;;
  whole <- replicate_representative_models (fst refitted) p medoids ;;
  Ok (Solver p medoids replicated whole errors).

(** solver/model.py:133-153 prepare_for_predictions: the test region *)
Definition prepare_for_predictions (spt_region : stregion fnum) (test_len : Z) : res (stregion fnum) :=
  let '(_, test) := split_training_and_test_last test_len spt_region in
  if has_scaling test then descale test else Ok test.

(** what predict hands to the result: forecast, test (in-sample queries only) and error subregions *)
Record prediction := Prediction { pr_forecast : stregion fnum; pr_test : option (stregion fnum); pr_errors : sregion fnum }.

(** solver/model.py:45-131 predict, up to the construction of the result; [scaled] is region_metadata.scaled.
    np.zeros raises ValueError for a negative number of samples (spatial.py:81). *)
Definition solver_predict (s : solver) (scaled : bool) (spt_region : stregion fnum) (test_len : Z) (g : rect)
           (forecast_len : Z) : res prediction :=
  test_region <- prepare_for_predictions spt_region test_len ;;
  error_subregion <- s_region_subset (so_errors s) g ;;
  let is_out_of_sample := (0 <? forecast_len)%Z in
  let actual_forecast_len := if is_out_of_sample then forecast_len else test_len in
  let models := if is_out_of_sample then so_whole s else so_training s in
  test_subregion <- (if is_out_of_sample then Ok None else t <- t_region_subset test_region g ;; Ok (Some t)) ;;
  let model_subregion := slice2 models (x1 g) (x2 g) (y1 g) (y2 g) in
  if (actual_forecast_len <? 0)%Z then Raise ValueError
  else
    forecast <- model_apply_to kind model_subregion error_subregion (Z.to_nat actual_forecast_len) ;;
    forecast <- (if scaled then
                   subset <- t_region_subset spt_region g ;;
                   match subset with
                   | TScaled _ mn mx => descale (TScaled forecast mn mx)
                   | _ => Raise AttributeError          (* no scale_min *)
                   end
                 else Ok forecast) ;;
    Ok (Prediction forecast test_subregion error_subregion).
End Solver.
Arguments solver M : clear implicits.
Arguments Solver {M}. Arguments so_partition {M}. Arguments so_medoids {M}. Arguments so_training {M}.
Arguments so_whole {M}. Arguments so_errors {M}.

(* ---------- spta/arima/train.py ---------- *)

(** arima/__init__.py:3 ArimaPDQ *)
Definition pdq : Type := (Z * Z * Z)%type.
Definition pdq_eqb (a b : pdq) : bool :=
  let '(p, d, q) := a in let '(p', d', q') := b in ((p =? p') && (d =? d') && (q =? q'))%Z%bool.
(** arima/train.py:20 *)
Definition ORDER_WHEN_NO_MODEL : pdq := (-1, -1, -1)%Z.

Section Arima.
(** statsmodels and pmdarima: fitting a model of a given order, the order stored in a fitted model, its AIC and
    forecast; the order that auto_arima finds for given search parameters *)
Context {A M : Type} (fit : pdq -> list fnum -> res M) (order_of : M -> pdq) (aic_of : M -> fnum)
        (forecast : M -> nat -> res (list fnum)) (search : A -> list fnum -> res pdq).

(** arima/train.py:74-80, 156-163: ValueError and LinAlgError mean that there is no model *)
Definition no_model_on_failure {T} (r : res T) : res (option T) :=
  match r with
  | Ok m => Ok (Some m)
  | Raise ValueError | Raise LinAlgError => Ok None
  | Raise e => Raise e
  end.

(** arima/train.py:42-82 TrainerArimaPDQ.training_function (the series is never None) *)
Definition arima_training_function (order : option pdq) (series : list fnum) : res (option M) :=
  match order with
  | None => Ok None
  | Some order => no_model_on_failure (fit order series)
  end.

(** arima/train.py:125-165 TrainerAutoArima.training_function *)
Definition auto_arima_training_function (params : A) (series : list fnum) : res (option M) :=
  order <- no_model_on_failure (search params series) ;;
  match order with
  | None => Ok None
  | Some order => arima_training_function (Some order) series
  end.

(** arima/model.py:12-25 forecast_from_model; the integer 0 has no method forecast *)
Definition arima_kind : model_kind (option pdq) M :=
  ModelKind arima_training_function forecast (fun _ => Raise AttributeError).
Definition auto_arima_kind : model_kind A M :=
  ModelKind auto_arima_training_function forecast (fun _ => Raise AttributeError).

(** arima/train.py:251-262 extract_aic *)
Definition extract_aic (c : cell M) : fnum := match c with Trained m => aic_of m | _ => NaN end.
(** arima/train.py:277-290 extract_pdq *)
Definition extract_pdq (c : cell M) : pdq := match c with Trained m => order_of m | _ => ORDER_WHEN_NO_MODEL end.

(** arima/train.py:207-233 TrainerRefitArima.__init__: the parameters at each point *)
Definition refit_params (models : arr2 (cell M)) : res (arr2 (option pdq)) :=
  items <- s_items (SPlain models) ;;
  foldM (fun a '(pt, c) =>
           let order := extract_pdq c in
           if pdq_eqb order ORDER_WHEN_NO_MODEL then Ok a else set2 a (fst pt) (snd pt) (Some order))
        items (full2 (a2x models) (a2y models) None).

(** arima/train.py:189-194, 207-248 create_refitter of the auto ARIMA trainer; the AIC region of the new models is
    not computed here (it raises IndexError for an empty region) *)
Definition arima_refitter : refitter (M := M) := fun models spt_region =>
  params <- refit_params models ;;
  functions <- mk_trainer (ParamRegion (SPlain params)) ;;
  train arima_kind functions spt_region.
End Arima.
