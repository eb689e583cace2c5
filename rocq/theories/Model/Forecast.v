(** spta/model/forecast.py: the ForecastAnalysis object.  Timing, logging and plotting are left out. *)
From Coq Require Import String.
From Verif Require Import Base.Py Base.Arr Base.Float Model.Region Model.Arrays Model.Scaling Model.Series Model.Pool Model.Errors Model.Models.
Local Notation length := List.length.

Section Analysis.
Context {P M : Type} (kind : model_kind P M) (sqrt : fnum -> fnum).
(** the trainer: what its apply_to returns for a training region *)
Context (trainer : stregion fnum -> res (arr2 (cell M) * nat)) (workers : option Z).
(** the content of np.empty (base.py:53-58 empty_region_2d) *)
Context (junk : fnum).

(** forecast.py:29-39, 46-57 the attributes: what train_models has set before it calls the trainer ([None] before the
    first call: the attributes do not exist then), the model region, and the stored forecast region *)
Record data := Data { da_region : stregion fnum; da_training : stregion fnum; da_test : stregion fnum; da_len : nat }.
Record analysis := Analysis { an_data : option data; an_models : option (arr2 (cell M)); an_forecast : option (stregion fnum) }.
Definition new_analysis : analysis := Analysis None None None.

(** forecast.py:41-64 train_models; when the trainer raises, the old model region remains *)
Definition train_models (r : stregion fnum) (test_len : nat) (a : analysis) : res (arr2 (cell M)) * analysis :=
  let '(training, test) := split_training_and_test_last (Z.of_nat test_len) r in
  let d := Data r training test test_len in
  match trainer training with
  | Raise e => (Raise e, Analysis (Some d) (an_models a) (an_forecast a))
  | Ok (models, _) => (Ok models, Analysis (Some d) (Some models) (an_forecast a))
  end.

(** forecast.py:55-57 *)
Definition error_analysis_of (d : data) : error_analysis := ErrorAnalysis (da_test d) (Some (da_training d)) workers.

(** forecast.py:344-358 check_forecast_request; before training self.test_len does not exist; error_analysis exists
    whenever test_len does *)
Definition check_forecast_request (forecast_len : nat) (a : analysis) : res (data * arr2 (cell M)) :=
  match an_data a with
  | None => Raise AttributeError
  | Some d =>
      _ <- py_assert (forecast_len =? da_len d)%nat ;;
      match an_models a with None => Raise ValueError | Some models => Ok (d, models) end
  end.

(** forecast.py:86-103: the forecast region of the trained models *)
Definition forecast_region (d : data) (models : arr2 (cell M)) (forecast_len : nat) : res (stregion fnum) :=
  let empty := t_new_spatial (da_training d) (full2 (t_x (da_training d)) (t_y (da_training d)) junk) in
  f <- model_apply_to kind models empty forecast_len ;;
  Ok (if has_scaling (da_region d) then t_new_st (da_region d) (t_data f) else f).

(** forecast.py:66-107 forecast_at_each_point: the forecast and error regions *)
Definition forecast_at_each_point (forecast_len : nat) (error_type : string) (a : analysis)
  : res (stregion fnum * sregion fnum) * analysis :=
  match check_forecast_request forecast_len a with
  | Raise e => (Raise e, a)
  | Ok (d, models) =>
      match forecast_region d models forecast_len with
      | Raise e => (Raise e, a)
      | Ok f => (errors <- with_forecast_region (error_analysis_of d) f error_type ;; Ok (f, errors),
                 Analysis (an_data a) (an_models a) (Some f))
      end
  end.

(** forecast.py:130-134, 160-164: the stored forecast, or a new one *)
Definition reuse_forecast (forecast_len : nat) (error_type : string) (a : analysis) : res (data * stregion fnum) * analysis :=
  match check_forecast_request forecast_len a with
  | Raise e => (Raise e, a)
  | Ok (d, _) =>
      match an_forecast a with
      | Some f => (Ok (d, f), a)
      | None =>
          match forecast_at_each_point forecast_len error_type a with
          | (Raise e, a') => (Raise e, a')
          | (Ok (f, _), a') => (Ok (d, f), a')
          end
      end
  end.

(** forecast.py:109-142 forecast_whole_region_with_single_model *)
Definition forecast_whole_region_with_single_model (pt : point) (forecast_len : nat) (error_type : string) (a : analysis)
  : res (sregion fnum) * analysis :=
  match reuse_forecast forecast_len error_type a with
  | (Raise e, a') => (Raise e, a')
  | (Ok (d, f), a') =>
      (series <- series_at f pt ;; with_repeated_forecast (error_analysis_of d) series error_type, a')
  end.

(** forecast.py:144-170 forecast_whole_region_with_all_models: a relation because of the worker schedule *)
Definition forecast_whole_region_with_all_models (forecast_len : nat) (error_type : string) (a : analysis)
           (result : res (sregion fnum)) (a' : analysis) : Prop :=
  match reuse_forecast forecast_len error_type a with
  | (Raise e, a1) => result = Raise e /\ a' = a1
  | (Ok (d, f), a1) => overall_with_each_forecast sqrt (error_analysis_of d) f error_type result /\ a' = a1
  end.

(** forecast.py:13 ForecastErrors *)
Record forecast_errors := FE { fe_each : fnum; fe_minimum : fnum; fe_min_local : fnum; fe_centroid : fnum; fe_maximum : fnum }.

(** spatial.py:134-139, 353-364: value_at(None) is NaN *)
Definition value_at_opt (r : sregion fnum) (pt : option point) : res fnum :=
  match pt with None => Ok NaN | Some pt => value_at r pt end.

(** forecast.py:172-280 analyze_errors.  [spt_region.has_centroid] (l.214, 254) is the bound method, which is always
    true, so [spt_region.centroid] is used even when it is None. *)
Definition analyze_errors (r : stregion fnum) (centroid : option point) (error_type : string) (forecast_len : nat) (a : analysis)
           (result : res forecast_errors) (a' : analysis) : Prop :=
  match train_models r forecast_len a with
  | (Raise e, a1) => result = Raise e /\ a' = a1
  | (Ok _, a1) =>
      match forecast_at_each_point forecast_len error_type a1 with
      | (Raise e, a2) => result = Raise e /\ a' = a2
      | (Ok (_, error_region_each), a2) =>
          exists overall a3, forecast_whole_region_with_all_models forecast_len error_type a2 overall a3 /\ a' = a3 /\
          result =
            (overall_error_each <- overall_error sqrt error_region_each ;;
             _ <- value_at_opt error_region_each centroid ;;
             overall_error_region <- overall ;;
             minimum <- find_minimum overall_error_region ;;
             min_local <- find_minimum error_region_each ;;
             overall_error_min_local <- value_at_opt overall_error_region (fst min_local) ;;
             overall_error_centroid <- value_at_opt overall_error_region centroid ;;
             maximum <- find_maximum overall_error_region ;;
             Ok (FE overall_error_each (snd minimum) overall_error_min_local overall_error_centroid (snd maximum)))
      end
  end.
End Analysis.
