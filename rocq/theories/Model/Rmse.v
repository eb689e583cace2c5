(** The RMSE distances of several series combined into one, and the distances between the points of a grid. *)
From Coq Require Import QArith.
From Verif Require Import Base.Py Base.Arr Base.Float Model.Region Model.Distance Model.Errors.
Local Close Scope Q_scope.

(** distance/rmse.py:26-31 DistanceByRMSE.combine; [sqrt] is [** 0.5] *)
Definition rmse_combine (sqrt : fnum -> fnum) (distances : list fnum) : fnum := root_mean_squared sqrt distances.

(** arrays.py:128-135 distances_to_point_in_2d_region, for sizes that are not negative; np.linalg.norm with axis=1 is the
    square root of the sum of the squares of each row, [sqrt] is its square root *)
Definition distances_to_point_in_2d_region (sqrt : fnum -> fnum) (i j x_len y_len : Z) : list fnum :=
  map (fun '(x, y) => sqrt (fsum (squared [Fin (inject_Z (x - i)); Fin (inject_Z (y - j))]))) (list_of_2d_points x_len y_len).
