(** What the table of a clustering suite says, stated without the program that writes it. *)
From Coq Require Import String.
From Verif Require Import Base.Py Base.Arr Base.Float Model.Region Model.Clustering Model.Distance Model.SolverFiles Model.Algorithms Model.Programs Model.PartitionAnalysis
  Spec.Grid Spec.Partition Spec.Distance Spec.Solver Spec.Algorithms.
Local Notation length := List.length.

(** where the files of a region are: the table of a suite, the report of a clustering and its saved partition *)
Definition table_at (region clustering_type suite_id : string) : string :=
  ("outputs/" ++ region ++ "/dtw/clustering__" ++ clustering_type ++ "-" ++ suite_id ++ ".csv")%string.
Definition report_at (region : string) (c : cmeta) : string :=
  ("outputs/" ++ region ++ "/dtw/" ++ c_repr c ++ "/clustering__" ++ c_repr c ++ ".csv")%string.
Definition saved_at (region : string) (c : cmeta) : string :=
  ("pickle/" ++ region ++ "/dtw/" ++ c_repr c ++ "/partition_" ++ c_repr c ++ ".pkl")%string.

(** a partition of an x-by-y region in [k] clusters with one medoid each *)
Definition with_medoids (x y : nat) (k : Z) (p : crisp) (ms : list point) : Prop :=
  valid_partition p x y /\ pk p = k /\ Z.of_nat (length ms) = k /\ Forall (in_grid x y) ms.

(** the partition used for clustering [c] of region [r]: the one saved at the path of the clustering, otherwise what the
    algorithm computes with the distances [o] *)
Definition used {M} (choice : Z -> nat -> Z -> res (list Z)) (env : denv) (fs : fsys M) (r : rmeta) (md : dmeta) (spt : stregion fnum) (o : dobj)
    (c : cmeta) (p : crisp) (ms : list point) : Prop :=
  match fs (saved_at (rmeta_repr r) c) with
  | Some (FPartition q) => q = (p, Some ms)
  | _ => algorithm_partition_impl choice env c (Some md) spt true o = Ok (p, Some ms)
  end.

(** one cost per medoid: the sum of the distances of the points of its cluster from it *)
Definition costs_of (dist : point -> point -> fnum) (x y : nat) (p : crisp) (ms : list point) (costs : list fnum) : Prop :=
  length costs = length ms /\
  forall i m v, nth_error ms i = Some m -> nth_error costs i = Some v ->
    exists pts, cluster_points p x y (Z.of_nat i) pts /\ v = fsum (map (dist m) pts).

(** the row of a clustering: its name, its total cost with three decimals, and its medoids in raw coordinates *)
Definition row_of (format_float : nat -> fnum -> string) (dist : point -> point -> fnum) (x y : nat) (g : rect) (c : cmeta) (p : crisp) (ms : list point)
    (row : string * string * list point) : Prop :=
  exists costs, costs_of dist x y p ms costs /\
    row = (c_repr c, format_float 3 (fsum costs), map (fun m => (fst m + x1 g, snd m + y1 g)%Z) ms).

(** The program has what it needs for [region]: it is a predefined region with metadata [r], its data is an x-by-y region and
    its distances file holds a matrix [D] of the distances [dist] between the points. *)
Definition ready (env : denv) (create_instance : rmeta -> res (stregion fnum)) (region : string) (r : rmeta) (d : arr3 fnum)
    (sc : option (arr2 fnum * arr2 fnum)) (D : mat) (dist : point -> point -> fnum) : Prop :=
  region_by_name region = Ok r /\ create_instance r = Ok (qregion d sc) /\ qwf d sc /\ spans (rm_region r) (a3x d) (a3y d) /\
  np_load env (distances_filename r) = Ok D /\ square (a3x d * a3y d) D /\
  forall q pt, in_grid (a3x d) (a3y d) q -> in_grid (a3x d) (a3y d) pt -> entry D (index_of (a3y d) q) (index_of (a3y d) pt) = Some (dist q pt).

(** the partition and the medoids that are used for each clustering *)
Definition outcomes {M} choice env (fs : fsys M) r (d : arr3 fnum) sc D (suite : list cmeta) (results : list (crisp * list point)) : Prop :=
  Forall2 (fun c pm => used choice env fs r (dmeta_of r) (qregion d sc) (DObj PlainDTW (Some D) false) c (fst pm) (snd pm) /\
                       with_medoids (a3x d) (a3y d) (c_k c) (fst pm) (snd pm)) suite results.

(** What the program leaves behind after the clusterings [suite] with partitions and medoids [results]: the table with one row
    per clustering in the order of the suite, the saved partitions and the reports; no other file changes. *)
Definition left_behind {M} (format_coverage : Q -> string) (format_float : nat -> fnum -> string) (w w' : world M)
    (region : string) (r : rmeta) (d : arr3 fnum) (dist : point -> point -> fnum) (ty sid : string)
    (suite : list cmeta) (results : list (crisp * list point)) (rows : list (string * string * list point)) : Prop :=
  w_texts w' (table_at region ty sid) = Some (suite_csv rows) /\ length rows = length results /\
  (forall i c p ms, nth_error suite i = Some c -> nth_error results i = Some (p, ms) ->
     (exists row, nth_error rows i = Some row /\ row_of format_float dist (a3x d) (a3y d) (rm_region r) c p ms row) /\
     w_pickles w' (saved_at region c) = Some (FPartition (p, Some ms)) /\
     exists lines, clustering_report format_coverage (c_k c) p = Ok lines /\ w_texts w' (report_at region c) = Some lines) /\
  (forall q, q <> table_at region ty sid -> (forall i c pm, nth_error suite i = Some c -> nth_error results i = Some pm -> q <> report_at region c) -> w_texts w' q = w_texts w q) /\
  (forall q, (forall i c pm, nth_error suite i = Some c -> nth_error results i = Some pm -> q <> saved_at region c) -> w_pickles w' q = w_pickles w q).
