(** What the columns of query results mean, stated without the methods that fill them. *)
From Coq Require Import String.
From Verif Require Import Base.Py Base.Arr Base.Str Base.Float Model.Region Model.Errors Model.Clustering Model.SolverFiles Model.Results
  Spec.Grid Spec.Partition Spec.Rect Spec.Solver.
Local Open Scope string_scope.
Local Notation length := List.length.

(** [says r pt column value]: for the point [pt] of the prediction region, the named column should show [value]. *)
Inductive says : presult -> point -> string -> field -> Prop :=
| says_point r pt :                                  (* where the point lies in the complete raw dataset *)
    let metadata_region := rm_region (sm_region (rb_meta (base_of r))) in
    let prediction_region := rb_region (base_of r) in
    says r pt "Point" (FPt (x1 metadata_region + (x1 prediction_region + fst pt), y1 metadata_region + (y1 prediction_region + snd pt))%Z)
| says_error r pt e : value_at (rb_errors (base_of r)) pt = Ok e -> says r pt "error" (FNum 3 e)
| says_forecast r pt s : series_at (rb_forecast (base_of r)) pt = Ok s -> says r pt "forecast_series" (FSer s)
| says_test b test pt s : series_at test pt = Ok s -> says (InSample b test) pt "test_series" (FSer s)
| says_cluster d c dist p ms pt i : label_at p (in_domain (rb_region (base_of d)) pt) i -> says (WithPartition d c dist p ms) pt "cluster_index" (FInt i)
| says_label d suite labels pt l : In (pt, l) labels -> says (FromClassifier d suite labels) pt "label" (FStr l)
| says_under_partition d c dist p ms pt n v : says d pt n v -> says (WithPartition d c dist p ms) pt n v
| says_under_classifier d suite labels pt n v : says d pt n v -> says (FromClassifier d suite labels) pt n v.

(** The regions of a result fit together: an x by y domain with series [d] (scaled as [sc] says), of which the last
    [tl] samples are for testing; a prediction region in the domain; forecast, errors and test series for each of its
    points; a partition of the domain with one medoid per cluster; a dict of labels with all its points. *)
Definition width (g : rect) : nat := Z.to_nat (x2 g - x1 g).
Definition height (g : rect) : nat := Z.to_nat (y2 g - y1 g).
Definition base_fits (b : rbase) (d : arr3 fnum) (sc : option (arr2 fnum * arr2 fnum)) (tl : nat) : Prop :=
  let g := rb_region b in
  qwf d sc /\ rb_spt_region b = qregion d sc /\ sm_test_len (rb_meta b) = Z.of_nat tl /\ tl <= a3t d /\ rect_in g (a3x d) (a3y d) /\
  t_x (rb_forecast b) = width g /\ t_y (rb_forecast b) = height g /\
  forall pt, in_grid (width g) (height g) pt ->
    (exists s, series_at (rb_forecast b) pt = Ok s) /\ (exists e, value_at (rb_errors b) pt = Ok e).
Fixpoint fits (r : presult) (d : arr3 fnum) (sc : option (arr2 fnum * arr2 fnum)) (tl : nat) : Prop :=
  match r with
  | OutOfSample b => base_fits b d sc tl
  | InSample b test => base_fits b d sc tl /\ forall pt, in_grid (width (rb_region b)) (height (rb_region b)) pt -> exists s, series_at test pt = Ok s
  | WithPartition r c dist p ms =>
      fits r d sc tl /\ valid_partition p (a3x d) (a3y d) /\ exists l, ms = Some l /\ medoids_of p (a3x d) (a3y d) l
  | FromClassifier r suite labels =>
      fits r d sc tl /\ NoDup (map fst labels) /\
      forall pt, in_grid (width (rb_region (base_of r))) (height (rb_region (base_of r))) pt -> exists l, In (pt, l) labels
  end.

(** all partitions of a result are used with DTW *)
Fixpoint uses_dtw (r : presult) : Prop :=
  match r with
  | OutOfSample _ | InSample _ _ => True
  | WithPartition d _ dist _ _ => uses_dtw d /\ exists measure, dist = ByDTW measure
  | FromClassifier d _ _ => uses_dtw d
  end.

(** the last [tl] samples at a point *)
Definition test_series (R : stregion fnum) (tl : nat) (pt : point) (s : list fnum) : Prop :=
  exists whole, series_at R pt = Ok whole /\ s = skipn (length whole - tl) whole.
(** the clusters with a point in the prediction region, each once *)
Definition clusters_in (p : crisp) (g : rect) (cs : list Z) : Prop :=
  NoDup cs /\ forall c, In c cs <-> exists pt, in_grid (width g) (height g) pt /\ label_at p (in_domain g pt) c.
(** root mean square, ignoring NaN *)
Definition rms (sqrt : fnum -> fnum) (l : list fnum) : fnum := sqrt (fnanmean (map (fun e => fmul e e) l)).

(** [sums sqrt r tl column value]: the named column of the summary should show [value]. *)
Inductive sums (sqrt : fnum -> fnum) : presult -> nat -> string -> field -> Prop :=
| sums_tp r tl : sums sqrt r tl "tp" (FStr (str_int (Z.of_nat tl)))
| sums_mse r tl es :                                (* mean of the squared errors of all points, ignoring NaN *)
    Forall2 (fun pt e => value_at (rb_errors (base_of r)) pt = Ok e) (grid (width (rb_region (base_of r))) (height (rb_region (base_of r)))) es ->
    sums sqrt r tl "mse" (FNum 3 (fnanmean (map (fun e => fmul e e) es)))
| sums_type_regular d k dist p ms tl : sums sqrt (WithPartition d (CRegular k) dist p ms) tl "type" (FStr "regular")
| sums_type_kmedoids d m dist p ms tl : sums sqrt (WithPartition d (CKmedoids m) dist p ms) tl "type" (FStr "kmedoids")
| sums_k_regular d k dist p ms tl : sums sqrt (WithPartition d (CRegular k) dist p ms) tl "k" (FInt k)
| sums_k_kmedoids d m dist p ms tl : sums sqrt (WithPartition d (CKmedoids m) dist p ms) tl "k" (FInt (km_k m))
| sums_seed d m dist p ms tl : sums sqrt (WithPartition d (CKmedoids m) dist p ms) tl "seed" (FInt (km_seed m))
| sums_mode d m dist p ms tl : sums sqrt (WithPartition d (CKmedoids m) dist p ms) tl "mode" (FStr (km_mode m))
| sums_clusters d c dist p ms tl cs : clusters_in p (rb_region (base_of d)) cs ->
    sums sqrt (WithPartition d c dist p ms) tl "clusters" (FInt (Z.of_nat (length cs)))
| sums_dtw_r_m d c measure p l tl cs ts ds :
    let b := base_of d in
    clusters_in p (rb_region b) cs ->
    Forall2 (fun pt t => test_series (rb_spt_region b) tl (in_domain (rb_region b) pt) t) (grid (width (rb_region b)) (height (rb_region b))) ts ->
    Forall2 (fun i s => exists medoid m, nth_error l (Z.to_nat i) = Some medoid /\ test_series (rb_spt_region b) tl medoid m /\
                        s = fsum (map (measure m) ts)) cs ds ->
    sums sqrt (WithPartition d c (ByDTW measure) p (Some l)) tl "dtw_r_m" (FNum 2 (rms sqrt ds))
| sums_suite d suite labels tl : sums sqrt (FromClassifier d suite labels) tl "suite" (FStr suite)
| sums_under_partition d c dist p ms tl n v : sums sqrt d tl n v -> sums sqrt (WithPartition d c dist p ms) tl n v
| sums_under_classifier d suite labels tl n v : sums sqrt d tl n v -> sums sqrt (FromClassifier d suite labels) tl n v.

(** the position in the complete raw dataset of a point of the prediction region *)
Definition in_dataset (r : presult) (pt : point) : point :=
  let region := rm_region (sm_region (rb_meta (base_of r))) in
  let g := rb_region (base_of r) in
  (x1 region + (x1 g + fst pt), y1 region + (y1 g + snd pt))%Z.
(** what should be printed about a point: first the point, with its cluster or label if known ... *)
Inductive first_line (pt : point) : presult -> line -> Prop :=
| first_in b test : first_line pt (InSample b test) (LPoint (in_dataset (InSample b test) pt))
| first_out b : first_line pt (OutOfSample b) (LPoint (in_dataset (OutOfSample b) pt))
| first_cluster d c dist p ms i : label_at p (in_domain (rb_region (base_of d)) pt) i ->
    first_line pt (WithPartition d c dist p ms) (LPointCluster (in_dataset d pt) i)
| first_label d suite labels l : In (pt, l) labels ->
    first_line pt (FromClassifier d suite labels) (LPointLabel (in_dataset d pt) l).
(** ... then forecast, observed test series (if in-sample) and error *)
Inductive other_lines (pt : point) : presult -> list line -> Prop :=
| others_in b test f t e :
    series_at (rb_forecast b) pt = Ok f -> series_at test pt = Ok t -> value_at (rb_errors b) pt = Ok e ->
    other_lines pt (InSample b test) [LForecast f; LTest t; LError (sm_error (rb_meta b)) e]
| others_out b f e :
    series_at (rb_forecast b) pt = Ok f -> value_at (rb_errors b) pt = Ok e ->
    other_lines pt (OutOfSample b) [LForecastFuture f; LError (sm_error (rb_meta b)) e]
| others_partition d c dist p ms ls : other_lines pt d ls -> other_lines pt (WithPartition d c dist p ms) ls
| others_classifier d suite labels ls : other_lines pt d ls -> other_lines pt (FromClassifier d suite labels) ls.
