(** Vocabulary for the solver, stated without its methods. *)
From Verif Require Import Base.Py Base.Arr Base.Float Model.Region Model.Models Spec.Grid Spec.Partition.

(** A region as region_metadata.create_instance() returns it: the samples [d], and for a scaled region the minimum
    and the maximum of each original series. *)
Definition qregion (d : arr3 fnum) (sc : option (arr2 fnum * arr2 fnum)) : stregion fnum :=
  match sc with None => TPlain d | Some (mn, mx) => TScaled (TPlain d) (SPlain mn) (SPlain mx) end.
Definition qwf (d : arr3 fnum) (sc : option (arr2 fnum * arr2 fnum)) : Prop :=
  wf3 d /\
  match sc with
  | None => True
  | Some (mn, mx) => wf2 mn /\ a2x mn = a3x d /\ a2y mn = a3y d /\ wf2 mx /\ a2x mx = a3x d /\ a2y mx = a3y d
  end.

(** [shown sc pt s t]: a series [s] of point [pt] appears to the user as [t]: unchanged, or with the scaling of the
    point removed *)
Definition shown (sc : option (arr2 fnum * arr2 fnum)) (pt : point) (s t : list fnum) : Prop :=
  match sc with
  | None => t = s
  | Some (mn, mx) =>
      exists a b, get2 mn (fst pt) (snd pt) = Ok a /\ get2 mx (fst pt) (snd pt) = Ok b /\
                  t = map (fun v => fadd (fmul (fsub b a) v) a) s
  end.

(** one medoid for each cluster, and each medoid belongs to its cluster *)
Definition medoids_of (p : crisp) (x y : nat) (medoids : list point) : Prop :=
  length medoids = Z.to_nat (pk p) /\
  forall i m, nth_error medoids i = Some m -> in_grid x y m /\ label_at p m (Z.of_nat i).

(** [medoid] represents the cluster of [pt] *)
Definition represents (p : crisp) (medoids : list point) (pt medoid : point) : Prop :=
  exists c, label_at p pt c /\ (0 <= c)%Z /\ nth_error medoids (Z.to_nat c) = Some medoid.

(** the forecast of a model that may be missing *)
Definition forecast_by {P M} (kind : model_kind P M) (m : option M) (len : nat) : res (list fnum) :=
  match m with None => Ok (repeat NaN len) | Some m => forecast_from_model kind m len end.

(** a kind of models whose forecasts have the length asked for *)
Definition forecasts_fit {P M} (kind : model_kind P M) : Prop :=
  forall m len f, forecast_from_model kind m len = Ok f -> length f = len.

(** a point of the prediction region seen from the whole region *)
Definition in_domain (g : rect) (pt : point) : point := (fst pt + x1 g, snd pt + y1 g)%Z.
