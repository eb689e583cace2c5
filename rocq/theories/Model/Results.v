(** The results of prediction queries: spta/solver/result.py, and the CSV files written from them.

    The cells of a row are kept with their types ([field]); [render] turns them into text with functions for
    '{:.3f}'.format and str(array) that are given from outside.  Printed lines are kept as [line]s, without their
    padding.  Logging, plotting and directories are left out. *)
From Coq Require Import String.
From Verif Require Import Base.Py Base.Arr Base.Str Base.Dict Base.Float Model.Region Model.Scaling Model.Series Model.Errors
  Model.Models Model.Distance Model.Clustering Model.Solver Model.SolverFiles.
Local Open Scope string_scope.
Local Notation length := List.length.

(** a value written to a cell: a Point, a float formatted with [digits] decimals, a numpy series, an int or a str *)
Inductive field := FPt (p : point) | FNum (digits : nat) (v : fnum) | FSer (s : list fnum) | FInt (n : Z) | FStr (s : string).

(** a printed line (result.py:64-70, 275-294, 337-352, 409-415, 626-634) *)
Inductive line :=
| LPoint (absolute : point) | LPointCluster (absolute : point) (cluster : Z) | LPointLabel (absolute : point) (label : string)
| LForecast (s : list fnum) | LForecastFuture (s : list fnum) | LTest (s : list fnum) | LError (error_type : string) (e : fnum).

(** the distance measure of the metadata: DistanceByDTW (and its subclasses) with the function measure, or
    DistanceByRMSE, which has no method compute_distances_to_a_series *)
Inductive dmeasure := ByDTW (measure : list fnum -> list fnum -> fnum) | ByRMSE.

(** result.py:31-56 PredictionQueryResult.__init__ (the region that is iterated is the forecast) *)
Record rbase := RBase { rb_meta : smeta; rb_forecast_len : Z; rb_forecast : stregion fnum; rb_errors : sregion fnum;
                        rb_region : rect; rb_spt_region : stregion fnum }.

(** result.py:245-263 InSampleResult, 320 OutOfSampleResult, 368-382 ResultWithPartition (with the clustering metadata
    and the distance measure of the solver metadata, the partition and its attribute medoids), 596-611
    ResultFromClassifier (repr of the suite, labels by point) *)
Inductive presult :=
| InSample (b : rbase) (test : stregion fnum)
| OutOfSample (b : rbase)
| WithPartition (decorated : presult) (c : cmeta) (dist : dmeasure) (p : crisp) (medoids : option (list point))
| FromClassifier (decorated : presult) (suite_repr : string) (labels : list (point * string)).

(** the attributes that all layers share (370-377, 599-606) *)
Fixpoint base_of (r : presult) : rbase :=
  match r with
  | InSample b _ | OutOfSample b => b
  | WithPartition d _ _ _ _ | FromClassifier d _ _ => base_of d
  end.

(** result.py:148-160 *)
Definition to_domain_coordinates (r : presult) (pt : point) : point :=
  (fst pt + x1 (rb_region (base_of r)), snd pt + y1 (rb_region (base_of r)))%Z.
Definition to_relative_coordinates (r : presult) (pt : point) : point :=
  (fst pt - x1 (rb_region (base_of r)), snd pt - y1 (rb_region (base_of r)))%Z.
Definition absolute_coordinates_of (r : presult) (pt : point) : point :=
  absolute_position_of_point (rm_region (sm_region (rb_meta (base_of r)))) pt.

(** result.py:73-84 *)
Definition prediction_forecast_at (r : presult) (pt : point) : res (list fnum) := series_at (rb_forecast (base_of r)) pt.
Definition prediction_error_at (r : presult) (pt : point) : res fnum := value_at (rb_errors (base_of r)) pt.

(** list.insert(1, v): at the end of a shorter list *)
Definition insert1 {A} (v : A) (l : list A) : list A := match l with [] => [v] | a :: t => a :: v :: t end.

(** result.py:417-422 cluster_index_of *)
Definition cluster_index_of (p : crisp) (domain_point : point) : res Z :=
  l <- membership_of_points p [domain_point] ;; getitem l 0.

(** result.py:87-92, 300-306, 424-431, 642-649 result_header *)
Fixpoint result_header (r : presult) : list string :=
  match r with
  | OutOfSample _ => ["Point"; "error"; "forecast_series"]
  | InSample _ _ => ["Point"; "error"; "forecast_series"] ++ ["test_series"]
  | WithPartition d _ _ _ _ => insert1 "cluster_index" (result_header d)
  | FromClassifier d _ _ => insert1 "label" (result_header d)
  end.

(** result.py:94-113 result_tuple_for_point of the base class *)
Definition base_tuple (r : presult) (pt : point) : res (list field) :=
  let domain_point := to_domain_coordinates r pt in
  let coords := absolute_coordinates_of r domain_point in
  error <- prediction_error_at r pt ;;
  forecast <- prediction_forecast_at r pt ;;
  Ok [FPt coords; FNum 3 error; FSer forecast].
(** result.py:308-317, 433-448, 651-662 result_tuple_for_point *)
Fixpoint result_tuple_for_point (r : presult) (pt : point) : res (list field) :=
  match r with
  | OutOfSample _ => base_tuple r pt
  | InSample _ test => t <- base_tuple r pt ;; s <- series_at test pt ;; Ok (t ++ [FSer s])%list
  | WithPartition d _ _ p _ =>
      t <- result_tuple_for_point d pt ;;
      c <- cluster_index_of p (to_domain_coordinates r pt) ;;
      Ok (insert1 (FInt c) t)
  | FromClassifier d _ labels =>
      t <- result_tuple_for_point d pt ;;
      l <- dict_get point_eqb pt labels ;;
      Ok (insert1 (FStr l) t)
  end.

(** result.py:64-68, 409-415, 626-634 text_intro_for_domain_point *)
Definition text_intro (r : presult) (domain_point : point) : res line :=
  match r with
  | InSample _ _ | OutOfSample _ => Ok (LPoint (absolute_coordinates_of r domain_point))
  | WithPartition d _ _ p _ =>
      c <- cluster_index_of p domain_point ;; Ok (LPointCluster (absolute_coordinates_of d domain_point) c)
  | FromClassifier d _ labels =>
      l <- dict_get point_eqb (to_relative_coordinates d domain_point) labels ;;
      Ok (LPointLabel (absolute_coordinates_of d domain_point) l)
  end.
(** lines[0] = v *)
Definition set_first {A} (v : A) (l : list A) : res (list A) :=
  match l with [] => Raise IndexError | _ :: t => Ok (v :: t) end.
(** result.py:265-282, 331-346, 395-407, 613-624 lines_for_point *)
Fixpoint lines_for_point (r : presult) (pt : point) : res (list line) :=
  let domain_point := to_domain_coordinates r pt in
  match r with
  | InSample b test =>
      intro <- text_intro r domain_point ;;
      f <- prediction_forecast_at r pt ;;
      t <- series_at test pt ;;
      e <- prediction_error_at r pt ;;
      Ok [intro; LForecast f; LTest t; LError (sm_error (rb_meta b)) e]
  | OutOfSample b =>
      intro <- text_intro r domain_point ;;
      f <- prediction_forecast_at r pt ;;
      e <- prediction_error_at r pt ;;
      Ok [intro; LForecastFuture f; LError (sm_error (rb_meta b)) e]
  | WithPartition d _ _ _ _ | FromClassifier d _ _ =>
      lines <- lines_for_point d pt ;;
      intro <- text_intro r domain_point ;;
      set_first intro lines
  end.

(** clustering/regular.py:16-20, clustering/kmedoids.py:28-34 as_dict *)
Definition as_dict (c : cmeta) : list (string * field) :=
  match c with
  | CRegular k => [("type", FStr "regular"); ("k", FInt k)]
  | CKmedoids m => [("type", FStr "kmedoids"); ("k", FInt (km_k m)); ("seed", FInt (km_seed m)); ("mode", FStr (km_mode m))]
  end.

(** result.py:115-120, 450-467, 664-674 summary_header *)
Fixpoint summary_header (r : presult) : list string :=
  match r with
  | InSample _ _ | OutOfSample _ => ["tp"; "mse"]
  | WithPartition d c _ _ _ => map fst (as_dict c) ++ ["clusters"; "dtw_r_m"] ++ summary_header d
  | FromClassifier d _ _ => "suite" :: summary_header d
  end.

Section Summary.
Context (sqrt : fnum -> fnum).

(** result.py:136-146 summary_generalization_mse *)
Definition summary_generalization_mse (r : presult) : res fnum :=
  let f := rb_forecast (base_of r) in
  points <- snd (base_for (t_x f) (t_y f) 0) ;;
  errors <- mapM (prediction_error_at r) points ;;
  Ok (mean_squared errors).

(** distance/dtw.py:113-127 compute_distances_to_a_series, then 25-32 combine *)
Definition distances_combined (dist : dmeasure) (a : list fnum) (others : list (list fnum)) : res fnum :=
  match dist with
  | ByDTW measure => Ok (fsum (map (measure a) others))
  | ByRMSE => Raise AttributeError
  end.

(** result.py:511-582 summary_distances_between_region_and_medoids *)
Definition summary_distances (r : presult) (dist : dmeasure) (p : crisp) (medoids : option (list point)) : res fnum :=
  let b := base_of r in
  relevant_medoids <- find_medoids_of_clusters_intersecting_with p medoids (rb_region b) ;;
  let '(_, test_subset) := split_training_and_test_last (sm_test_len (rb_meta b)) (rb_spt_region b) in
  prediction_test_subset <- t_region_subset test_subset (rb_region b) ;;
  items <- t_items prediction_test_subset ;;
  combined <- mapM (fun medoid => s <- series_at test_subset medoid ;; distances_combined dist s (map snd items)) relevant_medoids ;;
  Ok (root_mean_squared sqrt combined).

(** result.py:122-134, 469-496, 676-681 summary_tuple *)
Fixpoint summary_tuple (r : presult) : res (list field) :=
  match r with
  | InSample _ _ | OutOfSample _ =>
      m <- summary_generalization_mse r ;;
      Ok [FStr (str_int (sm_test_len (rb_meta (base_of r)))); FNum 3 m]
  | WithPartition d c dist p medoids =>
      clusters <- find_indices_of_clusters_intersecting_with p (rb_region (base_of r)) ;;
      dtw_r_m <- summary_distances r dist p medoids ;;
      rest <- summary_tuple d ;;
      Ok (map snd (as_dict c) ++ [FInt (Z.of_nat (length clusters)); FNum 2 dtw_r_m] ++ rest)%list
  | FromClassifier d suite _ =>
      rest <- summary_tuple d ;;
      Ok (FStr suite :: rest)
  end.
End Summary.

(** result.py:214-218, 354-360, 584-588 result_prefix; ResultFromClassifier (591) has the one of the base class *)
Fixpoint result_prefix (r : presult) : string :=
  match r with
  | InSample _ _ => "query-result"
  | OutOfSample _ => "query-result-future"
  | WithPartition d _ _ _ _ => result_prefix d
  | FromClassifier _ _ _ => "query-result"
  end.

(* ------------------------------------------------------------------ builder and files *)

(** result.py:689-712 PredictionQueryResultBuilder.__init__; forecast_len is 0 in in-sample results (252).
    An in-sample result without test region would be built and fail when used; here the builder fails. *)
Definition builder (m : smeta) (forecast_len : Z) (forecast : stregion fnum) (test : option (stregion fnum))
           (errors : sregion fnum) (g : rect) (spt_region : stregion fnum) (is_out_of_sample : bool) : res presult :=
  if is_out_of_sample then Ok (OutOfSample (RBase m forecast_len forecast errors g spt_region))
  else match test with
       | Some test => Ok (InSample (RBase m 0 forecast errors g spt_region) test)
       | None => Raise AttributeError
       end.
(** result.py:714-719 with_partition; only MetadataWithClustering has clustering_metadata *)
Definition with_partition (r : presult) (dist : dmeasure) (p : crisp) (medoids : option (list point)) : res presult :=
  match sm_kind (rb_meta (base_of r)) with
  | SClustering c _ => Ok (WithPartition r c dist p medoids)
  | _ => Raise AttributeError
  end.
(** result.py:721-724 from_classifier *)
Definition from_classifier (r : presult) (suite_repr : string) (labels : list (point * string)) : presult :=
  FromClassifier r suite_repr labels.

(** solver/model.py:45-131 predict, complete: the result of a query *)
Definition solver_result {P M} (kind : model_kind P M) (s : solver M) (m : smeta) (dist : dmeasure) (scaled : bool)
           (spt_region : stregion fnum) (g : rect) (forecast_len : Z) : res presult :=
  q <- solver_predict kind s scaled spt_region (sm_test_len m) g forecast_len ;;
  r <- builder m forecast_len (pr_forecast q) (pr_test q) (pr_errors q) g spt_region (0 <? forecast_len)%Z ;;
  with_partition r dist (so_partition s) (Some (so_medoids s)).

Section Write.
Context (sqrt : fnum -> fnum) (format_float : nat -> fnum -> string) (show_series : list fnum -> string).

(** str(value) as csv.writer applies it; a Point is a namedtuple *)
Definition render (f : field) : string :=
  match f with
  | FPt p => "Point(x=" ++ str_int (fst p) ++ ", y=" ++ str_int (snd p) ++ ")"
  | FNum d v => format_float d v
  | FSer s => show_series s
  | FInt n => str_int n
  | FStr s => s
  end.
Definition writerow (fields : list string) : string := csv_line fields.

(** result.py:196-212 write_prediction_results: the lines of the file *)
Definition prediction_results_csv (r : presult) : res (list string) :=
  let f := rb_forecast (base_of r) in
  points <- snd (base_for (t_x f) (t_y f) 0) ;;
  rows <- mapM (result_tuple_for_point r) points ;;
  Ok (writerow (result_header r) :: map (fun row => writerow (map render row)) rows).

(** result.py:220-236 write_prediction_summary *)
Definition prediction_summary_csv (r : presult) : res (list string) :=
  t <- summary_tuple sqrt r ;;
  Ok [writerow (summary_header r); writerow (map render t)].

(** result.py:162-194 save_as_csv: the two files, (path, lines) *)
Definition save_as_csv (r : presult) (home : string) : res (list (string * list string)) :=
  let b := base_of r in
  results <- prediction_results_csv r ;;
  summary <- prediction_summary_csv r ;;
  Ok [(csv_path (rb_meta b) home (result_prefix r) (rb_region b) (rb_forecast_len b), results);
      (csv_path (rb_meta b) home "query-summary" (rb_region b) (rb_forecast_len b), summary)].
End Write.
