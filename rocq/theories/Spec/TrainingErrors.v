(** What an error analysis of a region or of a cluster reports. *)
From Coq Require Import String.
From Verif Require Import Base.Py Base.Arr Base.Str Base.Float Model.Region Model.Distance Model.Clustering Model.Errors Model.Models Model.Solver Model.SolverFiles Model.Forecast Model.Results
  Model.Algorithms Model.Programs Spec.Grid Spec.Extrema Spec.Distance Spec.Algorithms Spec.Reports Spec.SuitePrograms.
Local Notation length := List.length.

(** no parallel workers, or a number of them that is not negative *)
Definition workers_ok (workers : option Z) : Prop := match workers with None => True | Some w => (0 <= w)%Z end.

(** [forecasts kind ap func d sc n members mo fo err]: training with [ap] at the members gives the models [mo], whose forecasts of [n]
    samples are [fo]; [err q pt] is the error of the forecast of [q] at [pt] *)
Definition forecasts {P M} (kind : model_kind P M) (ap : P) (func : list fnum -> list fnum -> option (list fnum) -> res fnum) (d : arr3 fnum)
    (sc : option (arr2 fnum * arr2 fnum)) (n : nat) (members : list point) (mo : point -> option M) (fo : point -> list fnum) (err : point -> point -> fnum) : Prop :=
  (forall pt, In pt members -> forecast_at kind ap d n pt (mo pt) (Ok (fo pt)) /\ length (fo pt) = n) /\
  (forall q pt, In q members -> In pt members -> error_of func d sc n (fo q) pt (err q pt)).

(** [overall sqrt members fo err q]: the error of the forecast [fo q] when it is used at all [members], where it gives the errors
    [err q]; a forecast without any number has no error *)
Definition overall (sqrt : fnum -> fnum) (members : list point) (fo : point -> list fnum) (err : point -> point -> fnum) (q : point) : fnum :=
  if forallb is_nan (fo q) then NaN else root_mean_squared sqrt (map (err q) members).

(** [error_summary sqrt members fo err med fe]: the error when each member has its own forecast, the least and the greatest overall error
    of a member's forecast, and the overall errors of the forecasts of the member with the least own error and of [med].  A missing
    member (no error is a number) gives infinity for the least and the greatest, and NaN for the member with the least own error. *)
Definition error_summary (sqrt : fnum -> fnum) (members : list point) (fo : point -> list fnum) (err : point -> point -> fnum) (med : point)
    (fe : forecast_errors) : Prop :=
  fe_each fe = root_mean_squared sqrt (map (fun pt => err pt pt) members) /\
  (exists q, Extrema.first_least (map (fun q => (q, overall sqrt members fo err q)) members) (q, fe_minimum fe)) /\
  (exists q v, Extrema.first_least (map (fun q => (q, err q q)) members) (q, v) /\
     fe_min_local fe = match q with Some q => overall sqrt members fo err q | None => NaN end) /\
  fe_centroid fe = overall sqrt members fo err med /\
  (exists q, Extrema.first_greatest (map (fun q => (q, overall sqrt members fo err q)) members) (q, fe_maximum fe)).

(** how many members have no model *)
Definition without_model {M} (mo : point -> option M) (members : list point) : nat :=
  length (filter (fun pt => match mo pt with None => true | Some _ => false end) members).

(** the first [n] rows of the table of an analysis of the clusters with given orders: one row for each cluster and each order, clusters
    first *)
Definition orders_rows {M} (sqrt : fnum -> fnum) (x y : nat) (p : crisp) (ms : list point) (orders : list (Z * Z * Z))
    (mo : Z * Z * Z -> point -> option M) (fo : Z * Z * Z -> point -> list fnum) (err : Z * Z * Z -> point -> point -> fnum) (n : nat) (file : list (list field)) : Prop :=
  exists rows, file = map FStr ["cluster"; "size"; "p"; "d"; "q"; "failed"; "t_forecast"; "t_elapsed"; "error_each"; "error_min"; "error_min_local"; "error_medoid"; "error_max"]%string :: rows /\
    length rows = n /\
    forall i j med pp dd qq members, nth_error ms i = Some med -> nth_error orders j = Some (pp, dd, qq) -> cluster_points p x y (Z.of_nat i) members ->
      (i * length orders + j < n)%nat ->
      exists fe t_forecast t_elapsed, error_summary sqrt members (fo (pp, dd, qq)) (err (pp, dd, qq)) med fe /\
        nth_error rows (i * length orders + j) =
          Some [FInt (Z.of_nat i); FInt (Z.of_nat (length members)); FInt pp; FInt dd; FInt qq; FInt (Z.of_nat (without_model (mo (pp, dd, qq)) members));
                FNum 3 t_forecast; FNum 3 t_elapsed; FNum 3 (fe_each fe); FNum 3 (fe_minimum fe); FNum 3 (fe_min_local fe); FNum 3 (fe_centroid fe); FNum 3 (fe_maximum fe)].
Definition orders_table {M} sqrt x y p ms orders (mo : Z * Z * Z -> point -> option M) fo err (file : list (list field)) : Prop :=
  orders_rows sqrt x y p ms orders mo fo err (length ms * length orders)%nat file.

(** the first [n] rows of the table of an analysis of the clusters with a search of models: one row for each cluster, with the order and the AIC of the model of
    the medoid *)
Definition search_rows {M} (sqrt : fnum -> fnum) (order_of : M -> Z * Z * Z) (aic_of : M -> fnum) (x y : nat) (p : crisp) (ms : list point)
    (mo : point -> option M) (fo : point -> list fnum) (err : point -> point -> fnum) (n : nat) (file : list (list field)) : Prop :=
  exists rows, file = map FStr ["cluster"; "size"; "p_medoid"; "d_medoid"; "q_medoid"; "aic_medoid"; "failed"; "t_forecast"; "t_elapsed"; "error_each"; "error_min"; "error_min_local";
                                "error_medoid"; "error_max"]%string :: rows /\
    length rows = n /\
    forall i med members, nth_error ms i = Some med -> cluster_points p x y (Z.of_nat i) members -> (i < n)%nat ->
      exists fe t_forecast t_elapsed, error_summary sqrt members fo err med fe /\
        let '(pp, dd, qq) := order_shown order_of (mo med) in
        nth_error rows i =
          Some [FInt (Z.of_nat i); FInt (Z.of_nat (length members)); FInt pp; FInt dd; FInt qq; FNum 3 (match mo med with Some m => aic_of m | None => NaN end);
                FInt (Z.of_nat (without_model mo members)); FNum 3 t_forecast; FNum 3 t_elapsed; FNum 3 (fe_each fe); FNum 3 (fe_minimum fe); FNum 3 (fe_min_local fe);
                FNum 3 (fe_centroid fe); FNum 3 (fe_maximum fe)].
Definition search_table {M} sqrt (order_of : M -> Z * Z * Z) aic_of x y p ms mo fo err (file : list (list field)) : Prop :=
  search_rows sqrt order_of aic_of x y p ms mo fo err (length ms) file.

(** a program cannot start an experiment with given orders: [e] is the exception *)
Definition cannot_start_orders (env : denv) (create_instance : rmeta -> res (stregion fnum)) (region experiment : string) (e : exn) : Prop :=
  region_by_name region = Raise e \/
  exists r, region_by_name region = Ok r /\
    ((e = KeyError /\ forall orders ty sid, ~ with_orders experiment orders ty sid) \/
     exists orders ty sid, with_orders experiment orders ty sid /\ (create_instance r = Raise e \/ exists spt, create_instance r = Ok spt /\ bad_distances env r e)).
