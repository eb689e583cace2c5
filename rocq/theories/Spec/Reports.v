(** Vocabulary for the tables of the experiments. *)
From Coq Require Import String Sorted.
From Verif Require Import Base.Py Base.Arr Base.Float Model.Region Model.Models Model.Distance Model.Results Spec.Grid Spec.Partition Spec.Distance Spec.Solver.
Local Notation length := List.length.

(** [error_of func d sc n forecast pt v]: [v] is the error of the forecast at [pt] in the region ([d], [sc]), where the
    last [n] samples of each series are the observation and the others the training samples; all series are taken as
    they appear to the user *)
Definition error_of (func : list fnum -> list fnum -> option (list fnum) -> res fnum) (d : arr3 fnum)
    (sc : option (arr2 fnum * arr2 fnum)) (n : nat) (forecast : list fnum) (pt : point) (v : fnum) : Prop :=
  exists s f' training observation, series3 d (fst pt) (snd pt) = Ok s /\
    shown sc pt forecast f' /\
    shown sc pt (firstn (length s - n) s) training /\
    shown sc pt (skipn (length s - n) s) observation /\
    func f' observation (Some training) = Ok v.

(** [forecast_at kind ap d n pt m f]: training with [ap] on all but the last [n] samples of [pt] gives [m] (None: no
    model could be fitted), and the forecast of [n] samples is [f] *)
Definition forecast_at {P M} (kind : model_kind P M) (ap : P) (d : arr3 fnum) (n : nat) (pt : point) (m : option M) (f : res (list fnum)) : Prop :=
  exists s, series3 d (fst pt) (snd pt) = Ok s /\
    training_function kind ap (firstn (length s - n) s) = Ok m /\
    forecast_by kind m n = f.

(** [cluster_table g x y p k D med err file]: a header, then one row for each point with label [k], in the order of the
    grid: its position when the region has its corner at the corner of [g], its entry in the row of [med] in the matrix [D],
    and its error *)
Definition cluster_table (g : rect) (x y : nat) (p : crisp) (k : Z) (D : mat) (med : point) (err : point -> fnum) (file : list (list field)) : Prop :=
  exists members dist,
    file = [FStr "position"; FStr "distance_dtw"; FStr "forecast_error"] ::
           map (fun pt => [FPt (fst pt + x1 g, snd pt + y1 g)%Z; FNum 3 (dist pt); FNum 3 (err pt)]) members /\
    (forall pt, In pt members <-> in_grid x y pt /\ label_at p pt k) /\
    StronglySorted lt (map (index_of y) members) /\
    (forall pt, In pt members -> entry D (index_of y med) (index_of y pt) = Some (dist pt)).
