(** The forecast errors in plain arithmetic, and the regions whose errors are measured. *)
From Coq Require Import String QArith Qabs.
From Verif Require Import Base.Py Base.Arr Base.Float Model.Region Spec.Grid Spec.Partition Spec.Solver.
Local Close Scope Q_scope.
Local Open Scope nat_scope.
Local Notation length := List.length.

Definition average (l : list Q) : Q := (fold_right Qplus 0 l / inject_Z (Z.of_nat (length l)))%Q.
(** the differences of two series, sample by sample *)
Definition differences (a b : list Q) : list Q := map (fun '(x, y) => (x - y)%Q) (combine a b).
(** the steps of a series from each sample to the next *)
Definition steps_of (t : list Q) : list Q := differences (tl t) t.

(** MASE: mean absolute error over the mean absolute step of the training series *)
Definition mase_of (f o t : list Q) : Q := (average (map Qabs (differences f o)) / average (map Qabs (steps_of t)))%Q.
(** sMAPE: 200 |f - o| / (f + o), on average *)
Definition smape_of (f o : list Q) : Q := average (map (fun '(x, y) => 200 * (Qabs (x - y) / (x + y)))%Q (combine f o)).
(** MSE: mean of the squared differences *)
Definition mse_of (f o : list Q) : Q := average (map (fun d => d * d)%Q (differences f o)).

(** the region with samples [d], or one cluster of it *)
Definition region_or_cluster (d : arr3 fnum) (sc : option (arr2 fnum * arr2 fnum)) (pc : option (crisp * Z)) : stregion fnum :=
  match pc with None => qregion d sc | Some (p, c) => TCluster (qregion d sc) p c end.
Definition partitioned (pc : option (crisp * Z)) (x y : nat) : Prop := match pc with None => True | Some (p, _) => valid_partition p x y end.
(** the points whose errors count: all points, or those of the cluster *)
Definition counted (pc : option (crisp * Z)) (x y : nat) (pt : point) : Prop :=
  in_grid x y pt /\ match pc with None => True | Some (p, c) => label_at p pt c end.

(** the values that are not NaN *)
Definition present_values (l : list fnum) : list fnum := filter (fun v => negb (is_nan v)) l.
