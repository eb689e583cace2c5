(** Forecasting models and their training: spta/model/{base,train,knn,mean}.py. *)
From Verif Require Import Base.Py Base.Arr Base.Float Model.Region Model.Arrays.

(* ---------- knn.py ---------- *)

(** knn.py:128-158 find_k_nearest_neighbors.  [measure] is the distance measure, [argpartition] is np.argpartition
    (numpy raises ValueError if kth is out of bounds); the result of argpartition is cut at [:k]. *)
Definition find_k_nearest_neighbors (measure : list fnum -> list fnum -> fnum) (argpartition : list fnum -> nat -> list nat)
           (array : list fnum) (k : Z) (possible_neighbors : list (list fnum)) : res (list nat) :=
  let n := Z.of_nat (length possible_neighbors) in
  if existsb (fun nb => negb (length nb =? length array)%nat) possible_neighbors then Raise ValueError
  else if (n <? k)%Z then Raise ValueError
  else if (n =? k)%Z then Ok (seq 0 (Z.to_nat k))
  else
    let distances := map (measure array) possible_neighbors in
    match norm_index (length distances) k with
    | None => Raise ValueError
    | Some kth => Ok (py_slice 0 k (argpartition distances kth))
    end.

(** numpy [a.take(indices, axis=0)] for non-negative indices *)
Definition take_rows (rows : list (list fnum)) (indices : list nat) : res (list (list fnum)) :=
  mapM (fun i => getitem rows (Z.of_nat i)) indices.

(** np.mean(rows, axis=0) for rows of length [len] (NaN in each column when there are no rows) *)
Definition mean_axis0 (len : nat) (rows : list (list fnum)) : list fnum :=
  map (fun j => fmean (map (fun row => nth j row NaN) rows)) (seq 0 len).

(** knn.py:101-125 predict_future_values_with_knn; a negative forecast_len is not considered *)
Definition predict_future_values_with_knn (measure : list fnum -> list fnum -> fnum)
           (argpartition : list fnum -> nat -> list nat)
           (time_series : list fnum) (k : Z) (forecast_len : nat) : res (list fnum) :=
  windows <- sliding_window time_series (Z.of_nat forecast_len) 1 ;;
  last_window <- getitem windows (-1) ;;
  let possible_neighbors := py_slice 0 (-1) windows in
  indices <- find_k_nearest_neighbors measure argpartition last_window k possible_neighbors ;;
  k_neighbors <- take_rows possible_neighbors indices ;;
  Ok (mean_axis0 forecast_len k_neighbors).

(* ---------- mean.py ---------- *)

(** mean.py:51-65 TrainerMeanOfPast.training_function (the series is never None: it comes from a region) *)
Definition mean_of_past (past : Z) (training : list fnum) : fnum := fmean (py_slice_from (- past) training).
(** mean.py:32-35 forecast_from_model *)
Definition mean_forecast (model : fnum) (forecast_len : nat) : list fnum := repeat model forecast_len.

(* ---------- base.py, train.py ---------- *)

(** A cell of a model region (dtype=object): Python None, the integer 0 left by np.zeros(dtype=object) at points
    that were not iterated (spatial.py:50), or a trained model. *)
Inductive cell (M : Type) := NoModel | Untouched | Trained (m : M).
Arguments NoModel {M}. Arguments Untouched {M}. Arguments Trained {M} m.

(** What the subclasses of ModelTrainer and ModelRegion provide: training_function (None when no model could be
    trained), forecast_from_model on a model, and on the integer 0 *)
Record model_kind (P M : Type) := ModelKind {
  training_function : P -> list fnum -> res (option M);
  forecast_from_model : M -> nat -> res (list fnum);
  forecast_from_zero : nat -> res (list fnum) }.
Arguments ModelKind {P M}. Arguments training_function {P M}. Arguments forecast_from_model {P M}. Arguments forecast_from_zero {P M}.

(** knn.py:56-96: the model is the pair of parameters and training series; the integer 0 has no model_params *)
Definition knn_kind (measure : list fnum -> list fnum -> fnum) (argpartition : list fnum -> nat -> list nat)
  : model_kind Z (Z * list fnum) :=
  ModelKind (fun k series => Ok (Some (k, series)))
            (fun '(k, series) len => predict_future_values_with_knn measure argpartition series k len)
            (fun _ => Raise AttributeError).

(** mean.py:26-68 *)
Definition mean_kind : model_kind Z fnum :=
  ModelKind (fun past series => Ok (Some (mean_of_past past series)))
            (fun m len => Ok (mean_forecast m len))
            (fun len => Ok (mean_forecast (Fin 0) len)).

Section Kind.
Context {P M : Type} (kind : model_kind P M).

(** base.py:19-43 ModelRegion.function_at: the forecast of a cell *)
Definition forecast_of_cell (c : cell M) (forecast_len : nat) : res (list fnum) :=
  match c with
  | NoModel => Ok (repeat NaN forecast_len)
  | Untouched => forecast_from_zero kind forecast_len
  | Trained m => forecast_from_model kind m forecast_len
  end.

(** base.py:51-56 ModelRegion.apply_to on a spatial region (the values of the region are ignored by the k-NN and
    mean-of-past models) *)
Definition model_function {A} (models : arr2 (cell M)) (forecast_len : nat) : fregion A (list fnum) :=
  FRegion (a2x models) (a2y models) (fun pt =>
    c <- get2 models (fst pt) (snd pt) ;;
    Ok (fun _ => forecast_of_cell c forecast_len)).
Definition model_apply_to {A} (models : arr2 (cell M)) (r : sregion A) (forecast_len : nat) : res (stregion fnum) :=
  s_apply_series (Fin 0) (model_function models forecast_len) r forecast_len.

(** train.py:25-72 ModelTrainer: the array of functions, partial(self.training_function, params), or None (np.empty
    with dtype=object) at points without parameters *)
Inductive param_arg := BothMissing | SameParams (p : P) (x_len y_len : nat) | ParamRegion (r : sregion P) | BothGiven.
Definition mk_trainer (arg : param_arg) : res (arr2 (option P)) :=
  match arg with
  | BothMissing | BothGiven => Raise ValueError
  | SameParams p x y => Ok (full2 x y (Some p))
  | ParamRegion r =>
      items <- s_items r ;;
      foldM (fun a '(pt, p) => set2 a (fst pt) (snd pt) (Some p)) items (full2 (s_x r) (s_y r) None)
  end.

Definition cell_of (m : option M) : cell M := match m with None => NoModel | Some m => Trained m end.

(** function.py:23-34 function_at of the trainer: AssertionError when the cell is not callable *)
Definition trainer_function (params : arr2 (option P)) : fregion (list fnum) (cell M) :=
  FRegion (a2x params) (a2y params) (fun pt =>
    c <- get2 params (fst pt) (snd pt) ;;
    match c with
    | None => Raise AssertionError
    | Some p => Ok (fun series => m <- training_function kind p series ;; Ok (cell_of m))
    end).

(** train.py:169-183 TrainAtRepresentatives.function_at (the decorated trainer has the same parameters) *)
Definition point_eqb (a b : point) : bool := ((fst a =? fst b)%Z && (snd a =? snd b)%Z)%bool.
Definition representative_function (params : arr2 (option P)) (representatives : list point) : fregion (list fnum) (cell M) :=
  FRegion (a2x params) (a2y params) (fun pt =>
    if existsb (point_eqb pt) representatives then f_at (trainer_function params) pt
    else Ok (fun _ => Ok NoModel)).

Definition is_missing (c : cell M) : bool := match c with NoModel => true | _ => false end.

(** train.py:74-100 apply_to with the given function_at: the models and missing_count *)
Definition train_with (f : fregion (list fnum) (cell M)) (training : stregion fnum) : res (arr2 (cell M) * nat) :=
  models <- t_apply_scalar Untouched f training ;;
  items <- s_items models ;;
  Ok (s_data models, length (filter (fun it => is_missing (snd it)) items)).
Definition train (params : arr2 (option P)) := train_with (trainer_function params).
Definition train_at_representatives (params : arr2 (option P)) (representatives : list point) :=
  train_with (representative_function params representatives).
(** train.py:133-146 NoTrainer.apply_to *)
Definition no_trainer (models : arr2 (cell M)) (training : stregion fnum) : res (arr2 (cell M) * nat) := Ok (models, 0).
End Kind.
Arguments param_arg P : clear implicits.
Arguments BothMissing {P}. Arguments SameParams {P}. Arguments ParamRegion {P}. Arguments BothGiven {P}.
