(** Where the tables of the suite programs are and what they say. *)
From Coq Require Import String.
From Verif Require Import Base.Py Base.Arr Base.Str Base.Float Model.Region Model.Clustering Model.Distance Model.SolverFiles Model.Forecast Model.Results Model.Algorithms Model.Programs
  Model.PartitionAnalysis Spec.Grid Spec.Partition Spec.Distance Spec.Solver Spec.Algorithms Spec.PartitionAnalysis.
Local Notation length := List.length.
Local Open Scope string_scope.

(** the directory of the results of a clustering, and the name of the only predefined search of ARIMA models *)
Definition clustering_at (region : string) (c : cmeta) : string := "outputs/" ++ region ++ "/dtw/" ++ c_repr c ++ "/".
Definition simple_search : string := "auto-arima-start_p1-start_q1-max_p3-max_q3-dNone-stepwiseTrue".

Definition medoid_distances_at (region : string) (c : cmeta) : string := clustering_at region c ++ "medoid_distances.csv".
Definition between_medoids_at (region : string) (c : cmeta) (error_type : string) : string :=
  clustering_at region c ++ simple_search ++ "/error-between-medoids__" ++ c_repr c ++ "__" ++ error_type ++ ".csv".
Definition distance_errors_at (region : string) (c : cmeta) (error_type : string) (i : nat) (order : Z * Z * Z) : string :=
  let '(p, d, q) := order in
  clustering_at region c ++ simple_search ++ "/dist-error__" ++ c_repr c ++ "__" ++ error_type ++ "__cluster" ++ str_int (Z.of_nat i) ++
  "__auto-arima-p" ++ str_int p ++ "-d" ++ str_int d ++ "-q" ++ str_int q ++ ".csv".
Definition arima_errors_at (region : string) (c : cmeta) (suite error_type : string) : string :=
  clustering_at region c ++ "arima-" ++ suite ++ "/error-analysis__" ++ c_repr c ++ "__" ++ suite ++ "__" ++ error_type ++ ".csv".
Definition auto_arima_errors_at (region : string) (c : cmeta) (error_type : string) : string :=
  clustering_at region c ++ simple_search ++ "/error-analysis__" ++ c_repr c ++ "__" ++ simple_search ++ "__" ++ error_type ++ ".csv".

(** a table over pairs of medoids: a header with the indices of the clusters, and a row for each medoid with one value for each medoid *)
Definition medoid_pairs (first : string) (value : point -> point -> fnum) (ms : list point) (file : list (list field)) : Prop :=
  exists rows, file = (FStr first :: map (fun i => FStr (str_int (Z.of_nat i))) (seq 0 (length ms))) :: rows /\ length rows = length ms /\
    forall i mi, nth_error ms i = Some mi -> nth_error rows i = Some (FStr (str_int (Z.of_nat i)) :: map (fun mj => FNum 3 (value mi mj)) ms).

(** [each suite results P]: P holds for the clusterings and their partitions and medoids *)
Definition each (suite : list cmeta) (results : list (crisp * list point)) (P : cmeta -> crisp -> list point -> Prop) : Prop :=
  forall i c p ms, nth_error suite i = Some c -> nth_error results i = Some (p, ms) -> P c p ms.

(** the partitions and the reports of the clusterings [suite], and no other change *)
Definition partitions_left {M} (format_coverage : Q -> string) (w w' : world M) (region : string) (suite : list cmeta) (results : list (crisp * list point)) : Prop :=
  each suite results (fun c p ms => w_pickles w' (saved_at region c) = Some (FPartition (p, Some ms)) /\
     exists lines, clustering_report format_coverage (c_k c) p = Ok lines /\ w_texts w' (report_at region c) = Some lines) /\
  (forall q, each suite results (fun c _ _ => q <> report_at region c) -> w_texts w' q = w_texts w q) /\
  (forall q, each suite results (fun c _ _ => q <> saved_at region c) -> w_pickles w' q = w_pickles w q).

(** one table for each clustering, at the path that [at_] gives, and no other change *)
Definition tables_left (t t' : string -> option (list (list field))) (at_ : cmeta -> string) (suite : list cmeta) (results : list (crisp * list point))
    (P : cmeta -> crisp -> list point -> list (list field) -> Prop) : Prop :=
  each suite results (fun c p ms => exists file, t' (at_ c) = Some file /\ P c p ms file) /\
  (forall q, each suite results (fun c _ _ => q <> at_ c) -> t' q = t q).
(** the experiments with a search of ARIMA models: the ID, the clustering type and the suite *)
Definition searched (experiment ty sid : string) : Prop :=
  experiment = "simple_" ++ ty ++ "_" ++ sid /\
  In (ty, sid) [("kmedoids", "quick"); ("regular", "quick"); ("kmedoids", "all"); ("regular", "part1"); ("regular", "part2")].
(** the experiments with given ARIMA orders that can be run: the ID, the suite of orders, the clustering type and the suite *)
Definition with_orders (experiment orders ty sid : string) : Prop :=
  experiment = orders ++ "_" ++ sid /\ In orders ["arima_simple"; "arima_two"] /\ ty = "kmedoids" /\ sid = "quick".

(** the distances file of the region cannot be used: it cannot be read, but it exists, or its matrix is not that of the region *)
Definition bad_distances (env : denv) (r : rmeta) (e : exn) : Prop :=
  (np_load env (distances_filename r) = Raise e /\ e <> IOError) \/
  exists D x y, np_load env (distances_filename r) = Ok D /\ spans (rm_region r) x y /\ (length (m_rows D) <> x * y \/ m_cols D <> x * y)%nat /\ e = ValueError.
(** a program cannot start an experiment with a search: [e] is the exception *)
Definition cannot_start (env : denv) (create_instance : rmeta -> res (stregion fnum)) (region experiment : string) (e : exn) : Prop :=
  region_by_name region = Raise e \/
  exists r, region_by_name region = Ok r /\
    ((e = KeyError /\ forall ty sid, ~ searched experiment ty sid) \/
     exists ty sid, searched experiment ty sid /\ (create_instance r = Raise e \/ exists spt, create_instance r = Ok spt /\ bad_distances env r e)).

(** the order of a model; without a model it is given as (-1, -1, -1) *)
Definition order_shown {M} (order_of : M -> Z * Z * Z) (m : option M) : Z * Z * Z := match m with Some m => order_of m | None => (-1, -1, -1)%Z end.
