(** spta/region/scaling.py: scaling every series of a region to [0, 1] and back. *)
From Verif Require Import Base.Py Base.Arr Base.Float Model.Region.

(** scaling.py:41-51 scale_this_point: the series scaled with its minimum and maximum *)
Definition scale_this_point (series_len : nat) (series_min series_max : fnum) (series : list fnum) : list fnum :=
  if (is_nan series_min || is_nan series_max)%bool then repeat NaN series_len
  else if feqb series_min series_max then repeat (Fin 0) series_len
  else map (fun v => fdiv (fsub v series_min) (fsub series_max series_min)) series.

(** scaling.py:29-54 ScaleFunction(x_len, y_len) and its function_at, once scale_min and scale_max are set *)
Definition scale_function (x_len y_len series_len : nat) (scale_min scale_max : sregion fnum)
  : fregion (list fnum) (list fnum) :=
  FRegion x_len y_len (fun pt =>
    series_min <- value_at scale_min pt ;;
    series_max <- value_at scale_max pt ;;
    Ok (fun series => Ok (scale_this_point series_len series_min series_max series))).

(** scaling.py:56-85 ScaleFunction(x_len, y_len).apply_to(r, output_len); the per-point minima and maxima
    come from FunctionRegionScalarSame (function.py:69-82) applied to the region *)
Definition scale_apply_to (x_len y_len : nat) (r : stregion fnum) (output_len : nat) : res (stregion fnum) :=
  _ <- py_assert (t_len r =? output_len)%nat ;;
  scale_min <- t_apply_scalar (Fin 0) (fregion_same nanmin (t_x r) (t_y r)) r ;;
  scale_max <- t_apply_scalar (Fin 0) (fregion_same nanmax (t_x r) (t_y r)) r ;;
  region <- t_apply_series (Fin 0) (scale_function x_len y_len (t_len r) scale_min scale_max) r output_len ;;
  Ok (TScaled region scale_min scale_max).

(** scaling.py:183-185 descale: the function applied at each point *)
Definition descale_series (min_for_point max_for_point : fnum) (series : list fnum) : list fnum :=
  map (fun v => fadd (fmul (fsub max_for_point min_for_point) v) min_for_point) series.

(** scaling.py:167-187 DescaleRegion *)
Definition descale_function (x_len y_len : nat) (scale_min scale_max : sregion fnum)
  : fregion (list fnum) (list fnum) :=
  FRegion x_len y_len (fun pt =>
    min_for_point <- value_at scale_min pt ;;
    max_for_point <- value_at scale_max pt ;;
    Ok (fun series => Ok (descale_series min_for_point max_for_point series))).

(** descale: temporal.py:152-158 (plain region), 266-283 (cluster), scaling.py:159-200 (scaled region) *)
Fixpoint descale (r : stregion fnum) : res (stregion fnum) :=
  match r with
  | TPlain _ => Raise NotImplementedError
  | TCluster r' _ _ =>
      descaled <- descale r' ;;
      Ok (t_new_st r (t_data descaled))
  | TScaled r' mn mx =>
      descaled <- t_apply_series (Fin 0) (descale_function (t_x r) (t_y r) mn mx) r (t_len r) ;;
      Ok (t_new_st r' (t_data descaled))
  end.

(** has_scaling: temporal.py:146-150 (plain), 259-264 (cluster), scaling.py:153-157 (scaled) *)
Fixpoint has_scaling {A} (r : stregion A) : bool :=
  match r with
  | TPlain _ => false
  | TCluster r' _ _ => has_scaling r'
  | TScaled _ _ _ => true
  end.
