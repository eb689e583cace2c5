(** Training data for the classifier: spta/classifier/train_input.py and random_integers_with_blacklist of
    spta/util/maths.py.

    get_medoid_penalties is a parameter of the choice; the two strategies of the code follow.  np.random.choice and the
    order in which a set is turned into a list are parameters too.  Logging and directories are left out; the files
    are lists of rows whose cells keep their types ([field] of Model/Results.v). *)
From Coq Require Import String.
From Verif Require Import Base.Py Base.Arr Base.Str Base.Dict Base.Float Model.Region Model.Models Model.Distance Model.Clustering
  Model.Solver Model.SolverFiles Model.Results.
Local Open Scope string_scope.
Local Notation length := List.length.

(** a suite result (clustering/suite.py:102-159) and the histogram of choices *)
Definition suite := list (string * list point).
Definition hist := list ((string * Z) * Z).
Definition key_eqb (a b : string * Z) : bool := ((fst a =? fst b)%string && (snd a =? snd b)%Z)%bool.
(** medoid_histogram.get(key, 0) *)
Definition hist_get (h : hist) (k : string * Z) : Z := match dict_get key_eqb k h with Ok n => n | Raise _ => 0 end.

(** train_input.py:276-291 supress_medoids_that_reached_threshold: the scores it leaves *)
Definition supress_medoids (clustering_repr : string) (medoids : list point) (scores : list fnum) (threshold : Z) (h : hist)
  : res (list fnum) :=
  if (threshold =? 0)%Z then Ok scores
  else
    foldM (fun scores '(cluster_index, _) =>
             let n := hist_get h (clustering_repr, Z.of_nat cluster_index) in
             _ <- py_assert (n <=? threshold)%Z ;;
             if (n =? threshold)%Z then setitem scores (Z.of_nat cluster_index) PInf else Ok scores)
          (enumerate medoids) scores.

Section Choose.
(** get_medoid_penalties(clustering_repr, medoids, point) *)
Context (penalties : string -> list point -> point -> res (list fnum)).

(** train_input.py:240-262 one iteration over the suite: the best so far and its score *)
Definition choose_step (pt : point) (threshold : Z) (h : hist) (best : option (string * Z * point) * fnum)
           (entry : string * list point) : res (option (string * Z * point) * fnum) :=
  let '(clustering_repr, medoids) := entry in
  scores <- penalties clustering_repr medoids pt ;;
  scores <- supress_medoids clustering_repr medoids scores threshold h ;;
  current_min_cluster_index <- np_argmin scores ;;
  current_min_score <- getitem scores (Z.of_nat current_min_cluster_index) ;;
  current_min_medoid <- getitem medoids (Z.of_nat current_min_cluster_index) ;;
  if flt current_min_score (snd best)
  then Ok (Some (clustering_repr, Z.of_nat current_min_cluster_index, current_min_medoid), current_min_score)
  else Ok best.

(** train_input.py:200-274 choose_medoid, with the histogram it leaves; 'no best' has score inf, so the last case
    cannot happen *)
Definition choose_medoid (sr : suite) (pt : point) (threshold : Z) (h : hist) : res (string * Z * point) * hist :=
  match foldM (choose_step pt threshold h) sr (None, PInf) with
  | Raise e => (Raise e, h)
  | Ok (best, score) =>
      if is_inf score then (Raise ValueError, h)
      else match best with
           | Some (r, i, m) => (Ok (r, i, m), dict_set key_eqb (r, i) (hist_get h (r, i) + 1)%Z h)
           | None => (Raise TypeError, h)
           end
  end.
End Choose.

(** train_input.py:324-347 MedoidsChoiceMinDistance.get_medoid_penalties with distance/__init__.py:143-165, for a
    distance matrix [M] that has been loaded; [g] is the rectangle of the metadata *)
Definition min_distance_penalties (M : mat) (g : rect) (y_len : nat) (clustering_repr : string) (medoids : list point) (pt : point)
  : res (list fnum) :=
  let medoid_indices := map (fun m => ((fst m - x1 g) * Z.of_nat y_len + (snd m - y1 g))%Z) medoids in
  mapM (fun j => m_get M (encode_point y_len pt) j) medoid_indices.

(** train_input.py:390-440 MedoidsChoiceMinPredictionError.get_medoid_penalties; [solver_of] gives the loaded solver of
    a clustering with its metadata.  The solvers are kept under repr(solver_metadata), which depends on the clustering
    only through the metadata made from its repr, so the cache is left out. *)
Definition min_error_penalties {P Mo} (kind : model_kind P Mo) (solver_of : string -> res (solver Mo * smeta)) (dist : dmeasure)
           (scaled : bool) (spt_region : stregion fnum) (clustering_repr : string) (medoids : list point) (pt : point)
  : res (list fnum) :=
  '(s, m) <- solver_of clustering_repr ;;
  let penalties := repeat PInf (length medoids) in
  let prediction_region := Rect (fst pt) (fst pt + 1) (snd pt) (snd pt + 1) in
  prediction_result <- solver_result kind s m dist scaled spt_region prediction_region 0 ;;
  forecast_error_at_representative <- prediction_error_at prediction_result (0, 0)%Z ;;
  cluster_index_of_representative <- (l <- membership_of_points (so_partition s) [pt] ;; getitem l 0) ;;
  setitem penalties cluster_index_of_representative forecast_error_at_representative.

(** equality of Points (namedtuples) *)
Definition point_dec : forall a b : point, {a = b} + {a <> b}.
Proof. decide equality; apply Z.eq_dec. Defined.

Section Random.
(** list(set) of integers, list(set) of points, and np.random.choice(l, size=n, replace=False) *)
Context (set_order : list Z -> list Z) (point_order : list point -> list point) (choice : list Z -> Z -> res (list Z)).

(** util/maths.py:55-74 random_integers_with_blacklist *)
Definition random_integers_with_blacklist (n min_value max_value : Z) (blacklist : list Z) : res (list Z) :=
  choice (set_order (filter (fun v => negb (existsb (Z.eqb v) blacklist)) (zrange min_value (max_value + 1)))) n.

(** train_input.py:155-173 get_random_points_different_to_medoids; int(a / b) of ints a >= 0 and b > 0, exact below
    2^53 *)
Definition random_points_different_to_medoids (count : Z) (medoid_indices : list Z) (x_len y_len : nat) : res (list point) :=
  let max_index := (Z.of_nat x_len * Z.of_nat y_len - 1)%Z in
  random_indices <- random_integers_with_blacklist count 0 max_index medoid_indices ;;
  Ok (map (fun i => (i / Z.of_nat y_len, i mod Z.of_nat y_len)%Z) random_indices).

(** train_input.py:614-631 extract_all_medoid_indices_from_suite_result *)
Definition extract_all_medoid_indices (sr : suite) (y_len : nat) : list Z :=
  map (fun m => (fst m * Z.of_nat y_len + snd m)%Z)
      (point_order (nodup point_dec (flat_map snd sr))).
End Random.

(** train_input.py:634-666 calculate_csv_header_given_suite_result *)
Definition csv_header (sr : suite) (series_len : nat) : res (list string) :=
  first_repr <- getitem (map fst sr) 0 ;;
  first_clustering_metadata <- factory_from_repr first_repr ;;
  Ok (["region_id"] ++ map fst (as_dict first_clustering_metadata) ++ ["cluster_index"; "medoid_x"; "medoid_y"] ++
      map (fun i => ("s" ++ str_int (Z.of_nat i))%string) (seq 0 series_len))%list.

(** train_input.py:113-131, 592-609: the row of a medoid and a series *)
Definition medoid_row (region_id clustering_repr : string) (cluster_index : Z) (medoid : point) (series : list fnum)
  : res (list field) :=
  clustering_metadata <- factory_from_repr clustering_repr ;;
  Ok ([FStr region_id] ++ map snd (as_dict clustering_metadata) ++ [FInt cluster_index; FInt (fst medoid); FInt (snd medoid)] ++
      map (FNum 3) series)%list.

(** train_input.py:106-133 the loop over the random points: the rows and the histogram *)
Definition random_point_rows (penalties : string -> list point -> point -> res (list fnum)) (sr : suite) (region_id : string)
           (spt_region : stregion fnum) (threshold : Z) (random_points : list point) : res (list (list field) * hist) :=
  foldM (fun '(rows, h) random_point =>
           let '(result, h) := choose_medoid penalties sr random_point threshold h in
           '(r, i, m) <- result ;;
           _ <- factory_from_repr r ;;
           series <- series_at spt_region random_point ;;
           row <- medoid_row region_id r i m series ;;
           Ok (rows ++ [row], h)%list)
        random_points ([], []).
(** train_input.py:139-151 the histogram file *)
Definition histogram_rows (h : hist) : list (list string) :=
  ["clustering_repr"; "cluster_index"; "count"] :: map (fun '((r, i), n) => [r; str_int i; str_int n]) h.

(** train_input.py:66-153 evaluate_score_of_random_points, from the suite result on: header, rows, histogram file *)
Definition evaluate_score_of_random_points (set_order : list Z -> list Z) (point_order : list point -> list point)
           (choice : list Z -> Z -> res (list Z)) (penalties : string -> list point -> point -> res (list fnum)) (sr : suite)
           (region_id : string) (spt_region : stregion fnum) (count threshold : Z)
  : res (list string * list (list field) * list (list string)) :=
  let medoid_indices := extract_all_medoid_indices point_order sr (t_y spt_region) in
  random_points <- random_points_different_to_medoids set_order choice count medoid_indices (t_x spt_region) (t_y spt_region) ;;
  header <- csv_header sr (t_len spt_region) ;;
  '(rows, h) <- random_point_rows penalties sr region_id spt_region threshold random_points ;;
  Ok (header, rows, histogram_rows h).

(** train_input.py:488-552 retrieve_medoid_data: per clustering, (cluster_index, medoid, series) *)
Definition retrieve_medoid_data (g : rect) (sr : suite) (spt_region : stregion fnum)
  : res (list (string * list (Z * point * list fnum))) :=
  mapM (fun '(clustering_repr, medoids) =>
          entries <- mapM (fun '(i, medoid) =>
                             series <- series_at spt_region (fst medoid - x1 g, snd medoid - y1 g)%Z ;;
                             Ok (Z.of_nat i, medoid, series)) (enumerate medoids) ;;
          Ok (clustering_repr, entries)) sr.

(** train_input.py:554-611 produce_csv: header and rows *)
Definition medoid_series_csv (g : rect) (region_id : string) (sr : suite) (spt_region : stregion fnum)
  : res (list string * list (list field)) :=
  data <- retrieve_medoid_data g sr spt_region ;;
  header <- csv_header sr (t_len spt_region) ;;
  rows <- mapM (fun '(clustering_repr, entries) =>
                  mapM (fun '(i, m, s) => medoid_row region_id clustering_repr i m s) entries) data ;;
  Ok (header, List.concat rows).
