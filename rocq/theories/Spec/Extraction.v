(** What the files of training data say, stated without the program that writes them. *)
From Coq Require Import String.
From Verif Require Import Base.Py Base.Arr Base.Str Base.Float Model.Region Model.Clustering Model.Solver Model.SolverFiles Model.TrainInput Model.PartitionAnalysis
  Model.Extraction Spec.Grid Spec.TrainInput.
Local Open Scope string_scope.
Local Notation length := List.length.

(** where the files of a run are; [what] is 'random_point' or 'hist' *)
Definition criterion_in_name (cr : criterion) : string :=
  match cr with
  | MinDistance => "_dist_medoid__"
  | MinError params test_len error => "_medoid_min_pred_error__" ++ params_repr params ++ "__tp" ++ str_int test_len ++ "__" ++ error ++ "__"
  end.
Definition run_file (what region clustering_type suite_id : string) (cr : criterion) (count seed : Z) : string :=
  "outputs/" ++ region ++ "/dtw/" ++ what ++ criterion_in_name cr ++ clustering_type ++ "-" ++ suite_id ++
  "_count" ++ str_int count ++ "_seed" ++ str_int seed ++ ".csv".
Definition medoids_file (region clustering_type suite_id : string) : string :=
  "outputs/" ++ region ++ "/dtw/medoid_data__" ++ clustering_type ++ "-" ++ suite_id ++ ".csv".

(** the columns that describe a clustering, and their values *)
Definition columns (c : cmeta) : list string :=
  match c with CRegular _ => ["type"; "k"] | CKmedoids _ => ["type"; "k"; "seed"; "mode"] end.
Definition values (c : cmeta) : list string :=
  match c with
  | CRegular k => ["regular"; str_int k]
  | CKmedoids m => ["kmedoids"; str_int (km_k m); str_int (km_seed m); km_mode m]
  end.

(** the first line, after the first clustering of the suite, for series of [n] values *)
Definition header_line (first : cmeta) (n : nat) : string :=
  csv_line (["region_id"] ++ columns first ++ ["cluster_index"; "medoid_x"; "medoid_y"] ++ map (fun i => ("s" ++ str_int (Z.of_nat i))%string) (seq 0 n))%list.
(** the line of medoid [m], number [i] of the clustering named [c], with a series *)
Definition line_of (format_float : nat -> fnum -> string) (region c : string) (i : Z) (m : point) (series : list fnum) (line : string) : Prop :=
  exists md, factory_from_repr c = Ok md /\
    line = csv_line ([region] ++ values md ++ [str_int i; str_int (fst m); str_int (snd m)] ++ map (format_float 3) series)%list.

(** results of choices up to the first failure, and that failure *)
Fixpoint leading {A} (rs : list (res A)) : list A * option exn :=
  match rs with
  | [] => ([], None)
  | Ok a :: rest => let '(l, e) := leading rest in (a :: l, e)
  | Raise e :: _ => ([], Some e)
  end.

(** every medoid of the suite with its clustering and its number *)
Definition all_medoids (sr : suite) : list (string * nat * point) :=
  flat_map (fun '(c, ms) => map (fun '(i, m) => (c, i, m)) (combine (seq 0 (length ms)) ms)) sr.

(** a table that can be used for the region in rectangle [g]: it has clusterings, all with known names and with medoids in [g] *)
Definition usable (g : rect) (sr : suite) : Prop :=
  sr <> [] /\ forall c ms, In (c, ms) sr -> ms <> [] /\ (exists md, factory_from_repr c = Ok md) /\
    forall m, In m ms -> (x1 g <= fst m < x2 g /\ y1 g <= snd m < y2 g)%Z.
Definition first_clustering (sr : suite) (md : cmeta) : Prop :=
  exists c ms rest, sr = (c, ms) :: rest /\ factory_from_repr c = Ok md.

(** a point of the dataset in the coordinates of the region in rectangle [g]; the penalties by distance *)
Definition inside (g : rect) (m : point) : point := (fst m - x1 g, snd m - y1 g)%Z.
Definition by_distance (dist : point -> point -> fnum) (g : rect) (c : string) (ms : list point) (pt : point) : res (list fnum) :=
  Ok (map (fun m => dist pt (inside g m)) ms).

(** the files of a trained solver *)
Definition solver_saved {M} (fs : fsys M) (k : skey) (s : solver M) : Prop :=
  fs (partition_pickle_path k) = Some (FPartition (so_partition s, Some (so_medoids s))) /\
  fs (model_training_pickle_path k) = Some (FModels (so_training s)) /\
  fs (model_whole_pickle_path k) = Some (FModels (so_whole s)) /\
  fs (generalization_errors_pickle_path k) = Some (FErrors (so_errors s)).

(** What a run leaves behind when [count] points are drawn and the medoids are chosen with the penalties [f]: a file with a
    line for every point up to the first failure, each with the chosen medoid and the series of the point; without a failure,
    also the histogram of the choices and the series of all medoids.  No other file changes. *)
Definition left_by_run {M} (format_float : nat -> fnum -> string) (w w' : world M) (result : res unit) (region ty sid : string) (cr : criterion)
    (count seed threshold : Z) (g : rect) (d : arr3 fnum) (sr : suite) (f : string -> list point -> point -> res (list fnum)) (pts : list point) : Prop :=
  let choices_path := run_file "random_point" region ty sid cr count seed in
  let hist_path := run_file "hist" region ty sid cr count seed in
  let medoids_path := medoids_file region ty sid in
  exists rs h first, choices threshold (map (fun p => Call sr p f) pts) [] = (rs, h) /\ first_clustering sr first /\
    (exists lines, w_texts w' choices_path = Some (header_line first (a3t d) :: lines) /\
       Forall2 (fun '(p, (c, i, m)) line => exists s, series3 d (fst p) (snd p) = Ok s /\ line_of format_float region c i m s line)
         (combine pts (fst (leading rs))) lines) /\
    (forall q, w_pickles w' q = w_pickles w q) /\
    match snd (leading rs) with
    | Some e => result = Raise e /\ forall q, q <> choices_path -> w_texts w' q = w_texts w q
    | None =>
        result = Ok tt /\
        (exists entries, w_texts w' hist_path = Some (csv_line ["clustering_repr"; "cluster_index"; "count"] ::
                                                      map (fun '(c, i, n) => csv_line [c; str_int i; str_int n]) entries) /\ NoDup (map fst entries) /\
           forall c i n, In (c, i, n) entries <-> (0 < n)%Z /\ n = Z.of_nat (count_if (chose (c, i)) rs)) /\
        (exists lines, w_texts w' medoids_path = Some (header_line first (a3t d) :: lines) /\
           Forall2 (fun '(c, i, m) line => exists s, series3 d (fst m - x1 g) (snd m - y1 g) = Ok s /\ line_of format_float region c (Z.of_nat i) m s line)
             (all_medoids sr) lines) /\
        forall q, q <> choices_path -> q <> hist_path -> q <> medoids_path -> w_texts w' q = w_texts w q
    end.

(** the positions x * y_len + y of an x-by-y region from which points are drawn: those that no medoid of the suite has, with
    the coordinates of the medoids in the dataset *)
Definition free_positions (x y : nat) (sr : suite) (free : list Z) : Prop :=
  NoDup free /\ forall v, In v free <-> (0 <= v < Z.of_nat (x * y))%Z /\ forall m, In m (flat_map snd sr) -> v <> (fst m * Z.of_nat y + snd m)%Z.
(** [count] different points of the region at free positions *)
Definition drawn (x y : nat) (sr : suite) (count : Z) (pts : list point) : Prop :=
  Z.of_nat (length pts) = count /\ NoDup pts /\
  forall p, In p pts -> in_grid x y p /\ forall m, In m (flat_map snd sr) -> (fst p * Z.of_nat y + snd p <> fst m * Z.of_nat y + snd m)%Z.
