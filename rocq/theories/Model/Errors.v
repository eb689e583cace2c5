(** Forecast errors: spta/util/error.py, spta/util/arrays.py (mean squares), spta/model/error.py and
    spta/model/error_parallel.py.  Series hold floats; warnings, logging and printing are left out. *)
From Coq Require Import String.
From Verif Require Import Base.Py Base.Arr Base.Float Model.Region Model.Scaling Model.Pool.
Local Notation length := List.length.

(** numpy element-wise operation on two 1-d arrays: equal lengths, or one array of length 1 that is broadcast;
    otherwise ValueError *)
Definition np_zip (f : fnum -> fnum -> fnum) (a b : list fnum) : res (list fnum) :=
  if (length a =? length b)%nat then Ok (map (fun '(x, y) => f x y) (combine a b))
  else match a, b with
       | [x], _ => Ok (map (f x) b)
       | _, [y] => Ok (map (fun x => f x y) a)
       | _, _ => Raise ValueError
       end.

(** error.py:17-19: [sum_Yi] for the training series *)
Definition sum_of_steps (training : list fnum) : res fnum :=
  foldM (fun s i =>
           a <- getitem training i ;;
           b <- getitem training (i - 1) ;;
           Ok (fadd s (fabs (fsub a b))))
        (zrange 1 (Z.of_nat (length training))) (Fin 0).

(** error.py:6-22 mase.  [len(None)] is a TypeError.  With one training sample [sum_Yi / (n - 1)] is the Python
    integer division 0 / 0; with none it is -0.0, and the sign of the infinite quotients is removed by np.abs. *)
Definition mase (forecast observation : list fnum) (training : option (list fnum)) : res fnum :=
  et <- np_zip fsub forecast observation ;;
  match training with
  | None => Raise TypeError
  | Some training =>
      let n := Z.of_nat (length training) in
      sum_Yi <- sum_of_steps training ;;
      if (n =? 1)%Z then Raise ZeroDivisionError
      else
        let scale := fdiv sum_Yi (Fin (inject_Z (n - 1))) in
        Ok (fmean (map (fun e => fabs (fdiv e scale)) et))
  end.

(** error.py:25-36 smape; the third argument is ignored *)
Definition smape (forecast observation : list fnum) (training : option (list fnum)) : res fnum :=
  et <- np_zip fsub forecast observation ;;
  total <- np_zip fadd forecast observation ;;
  quotients <- np_zip fdiv (map fabs et) total ;;
  Ok (fmean (map (fun q => fmul (Fin 200) q) quotients)).

(** arrays.py:86-87 squared *)
Definition squared (l : list fnum) : list fnum := map (fun v => fmul v v) l.
(** arrays.py:98-103 mean_squared *)
Definition mean_squared (l : list fnum) : fnum := fnanmean (squared l).
(** arrays.py:106-110 root_mean_squared; [sqrt] is [** 0.5] on numpy floats *)
Definition root_mean_squared (sqrt : fnum -> fnum) (l : list fnum) : fnum := sqrt (mean_squared l).

(** error.py:39-46 mse *)
Definition mse (forecast observation : list fnum) (training : option (list fnum)) : res fnum :=
  et <- np_zip fsub forecast observation ;;
  Ok (mean_squared et).

(** An error function of model/error.py: forecast, observation and optional training series *)
Definition error_fn := list fnum -> list fnum -> option (list fnum) -> res fnum.

(** model/error.py:16-35 error_functions, get_error_func; also 328-350 get_overall_error_func, whose functions
    (353-377) ask get_error_func for the function of the same name *)
Definition get_error_func (error_type : string) : res error_fn :=
  if String.eqb error_type "MASE" then Ok mase
  else if String.eqb error_type "sMAPE" then Ok smape
  else if String.eqb error_type "MSE" then Ok mse
  else Raise ValueError.

(** model/error.py:38-75 ErrorRegion over a spatial region: the loop is the loop of the decorated region *)
Definition overall_error (sqrt : fnum -> fnum) (errors : sregion fnum) : res fnum :=
  items <- s_items errors ;;
  Ok (root_mean_squared sqrt (map snd items)).

(** model/error.py:84-112 MeasureForecastingError.__init__: the (descaled) observation and training regions *)
Record measure_error := MeasureError { me_func : error_fn; me_obs : stregion fnum; me_train : option (stregion fnum);
                                       me_x : nat; me_y : nat }.
Definition mk_measure_error (func : error_fn) (obs : stregion fnum) (train : option (stregion fnum)) : res measure_error :=
  if has_scaling obs then
    obs' <- descale obs ;;
    match train with
    | None => Raise AttributeError       (* None.descale() *)
    | Some t => t' <- descale t ;; Ok (MeasureError func obs' (Some t') (t_x obs) (t_y obs))
    end
  else Ok (MeasureError func obs train (t_x obs) (t_y obs)).

(** model/error.py:114-139 function_at *)
Definition measure_function (me : measure_error) : fregion (list fnum) fnum :=
  FRegion (me_x me) (me_y me) (fun pt =>
    observation <- series_at (me_obs me) pt ;;
    training <- match me_train me with None => Ok None | Some t => s <- series_at t pt ;; Ok (Some s) end ;;
    Ok (fun forecast => me_func me forecast observation training)).

(** model/error.py:141-155 apply_to: the error region *)
Definition measure_apply_to (me : measure_error) (forecast : stregion fnum) : res (sregion fnum) :=
  forecast_ok <- (if has_scaling forecast then descale forecast else Ok forecast) ;;
  t_apply_scalar (Fin 0) (measure_function me) forecast_ok.

(** model/error.py:380-403 overall_error_generic *)
Definition overall_error_generic (sqrt : fnum -> fnum) (func : error_fn) (forecast : list fnum)
           (obs : stregion fnum) (train : option (stregion fnum)) : res fnum :=
  if forallb is_nan forecast then Ok NaN
  else
    repeated <- repeat_series obs forecast ;;
    me <- mk_measure_error func obs train ;;
    errors <- measure_apply_to me repeated ;;
    overall_error sqrt errors.

(** model/error.py:275-287 ErrorAnalysis(observation_region, training_region, parallel_workers) *)
Record error_analysis := ErrorAnalysis { ea_obs : stregion fnum; ea_train : option (stregion fnum); ea_workers : option Z }.

(** model/error.py:289-301 with_forecast_region *)
Definition with_forecast_region (ea : error_analysis) (forecast : stregion fnum) (error_type : string) : res (sregion fnum) :=
  func <- get_error_func error_type ;;
  me <- mk_measure_error func (ea_obs ea) (ea_train ea) ;;
  measure_apply_to me forecast.

(** model/error.py:303-314 with_repeated_forecast *)
Definition with_repeated_forecast (ea : error_analysis) (forecast : list fnum) (error_type : string) : res (sregion fnum) :=
  repeated <- repeat_series (ea_obs ea) forecast ;;
  with_forecast_region ea repeated error_type.

(* ---------- model/error.py:158-242 OverallErrorForEachForecast ---------- *)
Section Overall.
Context (sqrt : fnum -> fnum).

(** l.192-221 function_at, 238-239: the serial computation *)
Definition overall_serial (func : error_fn) (ea : error_analysis) (forecast : stregion fnum) : res (sregion fnum) :=
  t_apply_scalar (Fin 0)
    (FRegion (t_x (ea_obs ea)) (t_y (ea_obs ea)) (fun _ => Ok (fun series => overall_error_generic sqrt func series (ea_obs ea) (ea_train ea))))
    forecast.

(** error_parallel.py:44-81 error_function_wrapper: the task of one point and its place in the shared array *)
Definition error_task (func : error_fn) (ea : error_analysis) (forecast : stregion fnum) (pt : point) : res fnum :=
  series <- series_at forecast pt ;;
  overall_error_generic sqrt func series (ea_obs ea) (ea_train ea).
Definition error_slot (forecast : stregion fnum) (pt : point) : nat :=
  Z.to_nat (fst pt) * t_y forecast + Z.to_nat (snd pt).

(** error_parallel.py:95-135: the points of the forecast region, a zeroed array, chunks of 10 *)
Definition error_start (num_proc : nat) (forecast : stregion fnum) (points : list point) : pstate point :=
  pool_start num_proc 10 points (repeat (Fin 0) (t_x forecast * t_y forecast)).

(** error_parallel.py:137-154: the error region read from the shared array when the pool has finished *)
Definition error_collect (forecast : stregion fnum) (final : pstate point) : res (sregion fnum) :=
  output <- pool_outcome final ;;
  output_2d <- reshape2 output (t_x forecast) (t_y forecast) ;;
  Ok (t_new_spatial forecast output_2d).

(** l.223-242 apply_to and 316-325 overall_with_each_forecast: what may be returned; [None] and 0 workers mean the
    serial computation, a negative number of processes is refused by Pool.  A relation, because the schedule of the
    workers is not determined. *)
Definition overall_with_each_forecast (ea : error_analysis) (forecast : stregion fnum) (error_type : string)
           (result : res (sregion fnum)) : Prop :=
  match get_error_func error_type with
  | Raise e => result = Raise e
  | Ok func =>
      match ea_workers ea with
      | None | Some 0%Z => result = overall_serial func ea forecast
      | Some n =>
          if (n <? 0)%Z then result = Raise ValueError
          else match t_items forecast with
               | Raise e => result = Raise e
               | Ok items =>
                   exists final, psteps (error_slot forecast) (error_task func ea forecast)
                                        (error_start (Z.to_nat n) forecast (map fst items)) final /\
                                 pool_done final /\ result = error_collect forecast final
               end
      end
  end.
End Overall.
