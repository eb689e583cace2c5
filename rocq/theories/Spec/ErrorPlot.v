(** What the picture of distances and errors shows, and what the forecast program prints. *)
From Coq Require Import String.
From Verif Require Import Base.Py Base.Arr Base.Str Base.Float Model.Region Model.Distance Model.Clustering Model.Models Model.Forecast Model.Solver Model.SolverFiles Model.Programs Model.ErrorPlot Spec.Grid Spec.Distance Spec.Algorithms Spec.SuitePrograms Spec.TrainingErrors.
Local Open Scope string_scope.
Local Notation length := List.length.

(** a complete picture: for each of the [members], its distance to the left and its error upwards; the order of the medoid's model; saved if a
    file is given *)
Definition complete_picture (members : list point) (dist err : point -> fnum) (order : Z * Z * Z) (error_type desc : string) (file : option string) : list scatter_call :=
  ([Points (map dist members) (map err members); Title "Distances to medoid vs forecast errors at medoid"; Note order desc;
   Labels "DTW distances to medoid" (error_type ++ " forecast errors")] ++ match file with Some path => [Saved path] | None => [] end)%list.

(** what the forecast program prints for one order: three numbers of the summary of the errors of the models of that order, over all [points] *)
Definition line_for (sqrt : fnum -> fnum) (points : list point) (centroid : point) (order : Z * Z * Z) (fo : point -> list fnum) (err : point -> point -> fnum) (line : error_line) : Prop :=
  exists fe, error_summary sqrt points fo err centroid fe /\ line = ErrorLine order (fe_each fe) (fe_min_local fe) (fe_centroid fe).

(** the number of workers that was asked for: none without the option, or with an empty one *)
Definition workers_asked (parallel : option string) (workers : option Z) : Prop :=
  match parallel with
  | None => workers = None
  | Some s => (s = "" /\ workers = None) \/ (s <> "" /\ exists n, py_int s = Ok n /\ workers = Some n)
  end.

(** the file of the picture of cluster [i] and an order *)
Definition arima_picture_at (region : string) (c : cmeta) (suite error_type : string) (i : nat) (order : Z * Z * Z) : string :=
  let '(p, d, q) := order in
  clustering_at region c ++ "arima-" ++ suite ++ "/dist-error__" ++ c_repr c ++ "__" ++ error_type ++ "__cluster" ++ str_int (Z.of_nat i) ++
  "__arima-p" ++ str_int p ++ "-d" ++ str_int d ++ "-q" ++ str_int q ++ ".pdf".

(** the order that the fitted model of a point reports; a point without a model has none *)
Definition reported {M} (order_of : M -> res (Z * Z * Z)) (model : option M) : res (Z * Z * Z) :=
  match model with Some m => order_of m | None => Raise AttributeError end.

(** the first [n] pictures of the analysis of the clusters with given orders: one complete picture for each cluster and each order, clusters first *)
Definition orders_pictures {M} (order_of : M -> res (Z * Z * Z)) (region : string) (c : cmeta) (suite error_type : string) (x y : nat) (p : crisp) (ms : list point) (orders : list (Z * Z * Z))
    (dist : point -> point -> fnum) (mo : Z * Z * Z -> point -> option M) (err : Z * Z * Z -> point -> point -> fnum) (n : nat) (pictures : list (list scatter_call)) : Prop :=
  length pictures = n /\
  forall i j med order members, nth_error ms i = Some med -> nth_error orders j = Some order -> cluster_points p x y (Z.of_nat i) members -> (i * length orders + j < n)%nat ->
    exists shown, reported order_of (mo order med) = Ok shown /\
      nth_error pictures (i * length orders + j) =
        Some (complete_picture members (dist med) (err order med) shown error_type (c_repr c) (Some (arima_picture_at region c suite error_type i order))).
