(** Scaling and descaling of one series with rounding: the arithmetic of Model/Scaling.v with every result rounded.
    How a region applies these functions point by point is in Model/Scaling.v and does not depend on the arithmetic. *)
From Coq Require Import QArith.
From Verif Require Import Base.Py Base.Float.

Section Rounded.
(** the float nearest (or otherwise next) to the exact result; an infinity if that is too large *)
Context (rnd : Q -> fnum).
Definition rounded (v : fnum) : fnum := match v with Fin q => rnd q | _ => v end.
Definition rsub (a b : fnum) : fnum := rounded (fsub a b).
Definition radd (a b : fnum) : fnum := rounded (fadd a b).
Definition rmul (a b : fnum) : fnum := rounded (fmul a b).
Definition rdiv (a b : fnum) : fnum := rounded (fdiv a b).

(** scaling.py:41-51 scale_this_point, rounded *)
Definition scale_this_point_r (series_len : nat) (series_min series_max : fnum) (series : list fnum) : list fnum :=
  if (is_nan series_min || is_nan series_max)%bool then repeat NaN series_len
  else if feqb series_min series_max then repeat (Fin 0) series_len
  else map (fun v => rdiv (rsub v series_min) (rsub series_max series_min)) series.

(** scaling.py:56-85 apply_to at one point: the scaled series with its minimum and maximum *)
Definition scale_series_r (series : list fnum) : res (list fnum * fnum * fnum) :=
  series_min <- nanmin series ;;
  series_max <- nanmax series ;;
  Ok (scale_this_point_r (length series) series_min series_max series, series_min, series_max).

(** scaling.py:183-185 descale at one point, rounded *)
Definition descale_series_r (min_for_point max_for_point : fnum) (series : list fnum) : list fnum :=
  map (fun v => radd (rmul (rsub max_for_point min_for_point) v) min_for_point) series.
End Rounded.
