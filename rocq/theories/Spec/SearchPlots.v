(** The pictures of the training-error program that searches models. *)
From Coq Require Import String.
From Verif Require Import Base.Py Base.Arr Base.Str Base.Float Model.Region Model.Distance Model.Clustering Model.Models Model.Forecast Model.Solver Model.SolverFiles Model.Programs Model.ErrorPlot
  Spec.Grid Spec.Distance Spec.Algorithms Spec.SuitePrograms Spec.TrainingErrors Spec.ErrorPlot.
Local Open Scope string_scope.
Local Notation length := List.length.

(** the file of the picture of cluster [i], whose medoid has a model of a given order *)
Definition search_picture_at (region : string) (c : cmeta) (error_type : string) (i : nat) (order : Z * Z * Z) : string :=
  let '(p, d, q) := order in
  clustering_at region c ++ simple_search ++ "/dist-error__" ++ c_repr c ++ "__" ++ error_type ++ "__cluster" ++ str_int (Z.of_nat i) ++
  "__auto-arima-p" ++ str_int p ++ "-d" ++ str_int d ++ "-q" ++ str_int q ++ ".pdf".

(** the first [n] pictures of a clustering: one complete picture for each cluster; the order of the model of the medoid is written in it and
    is part of the name of its file *)
Definition search_pictures {M} (order_of : M -> Z * Z * Z) (region : string) (c : cmeta) (error_type : string) (x y : nat) (p : crisp) (ms : list point)
    (dist : point -> point -> fnum) (mo : point -> option M) (err : point -> point -> fnum) (n : nat) (pictures : list (list scatter_call)) : Prop :=
  length pictures = n /\
  forall i med members, nth_error ms i = Some med -> cluster_points p x y (Z.of_nat i) members -> (i < n)%nat ->
    exists m, mo med = Some m /\
      nth_error pictures i =
        Some (complete_picture members (dist med) (err med) (order_of m) error_type (c_repr c) (Some (search_picture_at region c error_type i (order_of m)))).
