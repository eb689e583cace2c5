(** Histograms of the distances to a centroid: spta/distance/variance.py, with the centroids of regions and clusters
    (spta/region/temporal.py, partition.py).  A figure is represented by the calls that draw on it. *)
From Coq Require Import String.
From Verif Require Import Base.Py Base.Arr Base.Float Base.Str Model.Region Model.Distance Model.Maths Model.Results Model.TrainInput.
Local Notation length := List.length.

(* ---------- numpy ---------- *)

(** np.max of a one-dimensional array: a NaN is kept; empty raises ValueError *)
Definition maximum (a b : fnum) : fnum := if is_nan a then NaN else if is_nan b then NaN else fmax2 a b.
Definition np_max (l : list fnum) : res fnum :=
  match l with [] => Raise ValueError | x :: xs => Ok (fold_left maximum xs x) end.

(** np.sort: NaN last *)
Definition sort_before (a b : fnum) : bool := is_nan b || (negb (is_nan a) && fle a b).
Fixpoint f_insert (v : fnum) (l : list fnum) : list fnum :=
  match l with [] => [v] | w :: ws => if sort_before v w then v :: l else w :: f_insert v ws end.
Definition np_sort (l : list fnum) : list fnum := fold_right f_insert [] l.

(** np.partition(l, 1)[1]: the element that sorting puts at index 1; kth out of bounds raises ValueError *)
Definition partition_at_1 (l : list fnum) : res fnum :=
  match np_sort l with _ :: b :: _ => Ok b | _ => Raise ValueError end.

(** np.median: NaN for an empty array or one with a NaN, else the middle element or the mean of the middle two *)
Definition np_median (l : list fnum) : fnum :=
  let s := np_sort l in
  let h := (length l / 2)%nat in
  if existsb is_nan l then NaN
  else if Nat.odd (length l) then nth h s NaN
  else match l with [] => NaN | _ => fmean [nth (h - 1) s NaN; nth h s NaN] end.

(** np.std, with np.sqrt *)
Definition np_std (sqrt : fnum -> fnum) (l : list fnum) : fnum :=
  let m := fmean l in sqrt (fmean (map (fun x => fmul (fsub x m) (fsub x m)) l)).

(* ---------- regions with a centroid ---------- *)

(** a region as the histograms see it: str(region), the region, its own attribute centroid, and what the decorated
    region (if there is one) answers for its centroid *)
Record hregion := HRegion { h_name : string; h_region : stregion fnum; h_own : option point; h_inherited : option point }.

(** temporal.py:115-119 and, for decorators, 240-246 has_centroid *)
Definition has_centroid (h : hregion) : bool :=
  match h_own h with
  | Some _ => true
  | None => match h_region h with TPlain _ => false | _ => match h_inherited h with Some _ => true | None => false end end
  end.

(** temporal.py:101-113 and, for decorators, 248-254 get_centroid.  Computing the centroid calls
    find_centroid_and_cost, a method that does not exist. *)
Definition get_centroid (h : hregion) (distance_measure_given : bool) : res point :=
  match h_own h with
  | Some c => Ok c
  | None =>
      let missing := if distance_measure_given then Raise AttributeError else Raise ValueError in
      match h_region h with
      | TPlain _ => missing
      | _ => match h_inherited h with Some c => Ok c | None => missing end
      end
  end.

(** partition.py:159-198 create_all_spt_clusters with its centroids: indices or medoids (an empty list counts as
    none) *)
Definition clusters_with_centroids (p : crisp) (r : stregion fnum) (region_centroid : option point)
           (centroid_indices : option (list Z)) (medoids : option (list point)) : res (list hregion) :=
  _ <- py_assert (match centroid_indices, medoids with Some _, Some _ => false | _, _ => true end) ;;
  mapM (fun i =>
          c <- create_spt_cluster p r i ;;
          from_index <- match centroid_indices with
                        | Some ((_ :: _) as l) =>
                            index <- getitem l i ;;
                            pt <- decode_index (a2y (labels p)) index ;; Ok (Some pt)
                        | _ => Ok None
                        end ;;
          own <- match medoids with
                 | Some ((_ :: _) as l) => m <- getitem l i ;; Ok (Some m)
                 | _ => Ok from_index
                 end ;;
          Ok (HRegion ("cluster" ++ str_int i)%string c own region_centroid))
       (zrange 0 (pk p)).

(* ---------- one histogram ---------- *)

(** calls on a subplot *)
Inductive draw_call :=
| DrawHist (values : list fnum) (label : string)
| DrawXLim (hi : fnum)
| DrawText (lines : list (string * field)).

(** truth of a float *)
Definition f_true (v : fnum) : bool := negb (feqb v (Fin 0)).

Section Histogram.
(** the distance measure; list(set), the successive calls of np.random.choice, np.sqrt *)
Context (env : denv) (o : dobj) (set_order : list Z -> list Z) (choice : nat -> list Z -> Z -> res (list Z)) (sqrt : fnum -> fnum).

(** variance.py:52-58, 60-65 distances_to_point of the plain histogram, with a distance matrix in place (l.44) *)
Definition plain_distances (h : hregion) (pt : point) : res (list fnum) :=
  indices <- all_point_indices (h_region h) ;;
  fst (distances_to_point env (h_region h) None pt indices true true o).

(** variance.py:67-73 max_distance *)
Definition max_distance (distances : list fnum) (max_override : option fnum) : res fnum :=
  m <- np_max distances ;;
  np_max [m; match max_override with Some v => v | None => NInf end].

(** variance.py:75-99 statistics, as the lines of text with their values; [n] is recomputed from the region *)
Definition statistics (h : hregion) (distances : list fnum) : res (list (string * field)) :=
  min_distance_not_zero <- partition_at_1 distances ;;
  max_distance <- np_max distances ;;
  indices <- all_point_indices (h_region h) ;;
  Ok [(""%string, FStr (h_name h)); ("n = "%string, FInt (Z.of_nat (length indices)));
      ("min = "%string, FNum 2 min_distance_not_zero); ("max =  "%string, FNum 2 max_distance);
      ("mean = "%string, FNum 2 (fmean distances)); ("s = "%string, FNum 2 (np_std sqrt distances));
      ("M = "%string, FNum 2 (np_median distances))].

(** variance.py:101-168 plot: what is drawn on the subplot *)
Definition plot (h : hregion) (distances : list fnum) (with_statistics : bool) (max_override : option fnum) : res (list draw_call) :=
  let limit := match max_override with Some v => if f_true v then [DrawXLim v] else [] | None => [] end in
  text <- (if with_statistics then l <- statistics h distances ;; Ok [DrawText l] else Ok []) ;;
  Ok ([DrawHist distances (h_name h)] ++ limit ++ text).

(** variance.py:170-190 histogram_to_centroid *)
Definition histogram_to_centroid (h : hregion) : res (list draw_call) :=
  _ <- py_assert (has_centroid h) ;;
  _ <- py_assert (match d_matrix o with Some _ => true | None => false end) ;;
  c <- get_centroid h false ;;
  distances <- plain_distances h c ;;
  max_override <- max_distance distances None ;;
  plot h distances true (Some max_override).

(* ---------- with random points of other clusters ---------- *)

(** variance.py:213-241 (and 363-391) point_indices: the indices and the attribute num_points afterwards.  The
    parameter [n] is the number of draws made before.  An empty list of allowed values makes np.random.choice return an
    array of floats, which cannot be an index (IndexError in distances_to_point). *)
Definition random_indices (n : nat) (r : stregion fnum) (num_points : Z) : res (list nat * Z) :=
  indices_of_cluster <- all_point_indices r ;;
  let size := (Z.of_nat (t_x r) * Z.of_nat (t_y r))%Z in
  let remaining := (size - Z.of_nat (length indices_of_cluster))%Z in
  let num_points := if (num_points =? 0)%Z then Z.of_nat (length indices_of_cluster) else num_points in
  let num_points := if (remaining <? num_points)%Z then remaining else num_points in
  chosen <- random_integers_with_blacklist set_order (choice n) num_points 0 (size - 1) (map Z.of_nat indices_of_cluster) ;;
  if (remaining =? 0)%Z then Raise IndexError else Ok (map Z.to_nat chosen, num_points).

(** DistanceHistogram, or DistanceHistogramWithRandomPointsOtherClusters around one (variance.py:193-211) *)
Inductive histogram := Plain | WithRandom (num_points : Z).
(** distances of the cluster, and of the random points *)
Definition hdistances : Type := (list fnum * option (list fnum))%type.

(** variance.py:243-254 distances_to_point; the state is the histogram and the number of draws made *)
Definition hist_distances (h : hregion) (g : histogram) (n : nat) (pt : point) : res (hdistances * histogram * nat) :=
  match g with
  | Plain => d <- plain_distances h pt ;; Ok (d, None, Plain, n)
  | WithRandom num_points =>
      cluster_distances <- plain_distances h pt ;;
      '(indices, num_points) <- random_indices n (h_region h) num_points ;;
      random_distances <- fst (distances_to_point env (h_region h) None pt indices true true o) ;;
      Ok (cluster_distances, Some random_distances, WithRandom num_points, S n)
  end.

(** variance.py:67-73, 256-267 max_distance *)
Definition hist_max (d : hdistances) (max_override : option fnum) : res fnum :=
  match d with
  | (cluster_distances, None) => max_distance cluster_distances max_override
  | (cluster_distances, Some random_distances) =>
      a <- np_max cluster_distances ;;
      b <- np_max random_distances ;;
      np_max [a; b; match max_override with Some v => v | None => NInf end]
  end.

(** variance.py:269-289 statistics *)
Definition hist_statistics (h : hregion) (d : hdistances) : res (list (string * field)) :=
  match d with
  | (cluster_distances, None) => statistics h cluster_distances
  | (cluster_distances, Some random_distances) =>
      text <- statistics h cluster_distances ;;
      m <- np_max cluster_distances ;;
      Ok (text ++ [("#rand = "%string, FInt (Z.of_nat (length random_distances)));
                   ("&rand = "%string, FInt (Z.of_nat (length (filter (fun v => flt v m) random_distances))))])
  end.

(** variance.py:101-168, 291-337 plot on a given subplot *)
Definition hist_plot (h : hregion) (d : hdistances) (with_statistics : bool) (max_override : fnum) : res (list draw_call) :=
  match d with
  | (cluster_distances, None) => plot h cluster_distances with_statistics (Some max_override)
  | (cluster_distances, Some random_distances) =>
      first <- plot h cluster_distances false None ;;
      text <- (if with_statistics then l <- hist_statistics h d ;; Ok [DrawText l] else Ok []) ;;
      let limit := if f_true max_override then [DrawXLim max_override] else [] in
      Ok (first ++ [DrawHist random_distances "random"] ++ text ++ limit)
  end.

(* ---------- one histogram per cluster ---------- *)

(** variance.py:429-471 __init__: the histograms of the clusters *)
Definition make_histograms (clusters : list hregion) (random_points : option Z) : res (list (hregion * histogram)) :=
  _ <- mapM (fun c => py_assert (has_centroid c)) clusters ;;
  mapM (fun c =>
          _ <- py_assert (match d_matrix o with Some _ => true | None => false end) ;;
          Ok (c, match random_points with None => Plain | Some n => WithRandom n end))
       clusters.

(** [cluster.centroid] as the argument of distances_to_point: None has no attribute x *)
Definition own_centroid (h : hregion) : res point := match h_own h with Some c => Ok c | None => Raise AttributeError end.

(** variance.py:497-524 max_distance over all clusters, with the state of the histograms and the draws *)
Definition overall_max (hs : list (hregion * histogram)) (n : nat) : res (fnum * list (hregion * histogram) * nat) :=
  foldM (fun '(m, done, n) '(h, g) =>
           c <- own_centroid h ;;
           '(d, g', n') <- hist_distances h g n c ;;
           m' <- hist_max d (Some m) ;;
           Ok (m', (done ++ [(h, g')])%list, n'))
        hs (NInf, [], n).

(** variance.py:563-577 and plt.subplots: the panel (row, column) of cluster [i] in a grid of div_x by div_y panels.
    One panel is not in an array; one row or one column makes a one-dimensional array. *)
Definition panel_of (div_x div_y : Z) (i : nat) : res (Z * Z) :=
  let index_x := Z.quot (Z.of_nat i) div_y in
  let index_y := (Z.of_nat i mod div_y)%Z in
  let inside l v := (0 <=? v)%Z && (v <? l)%Z in
  if (div_x =? 1)%Z && (div_y =? 1)%Z then Raise TypeError
  else if (div_x =? 1)%Z then (if inside div_y index_y then Ok (0, index_y)%Z else Raise IndexError)
  else if (div_y =? 1)%Z then (if inside div_x index_x then Ok (index_x, 0)%Z else Raise IndexError)
  else (if inside div_x index_x && inside div_y index_y then Ok (index_x, index_y) else Raise IndexError).

(** variance.py:550-560 the name of the file *)
Definition figure_name (plot_dir : option string) (algorithm_repr : string) (random_points : option Z) : option string :=
  match plot_dir with
  | None => None
  | Some dir =>
      let partial := ("variance-histograms__" ++ algorithm_repr)%string in
      let partial := match random_points with None => partial | Some n => (partial ++ "__random" ++ str_int n)%string end in
      Some (dir ++ "/" ++ partial ++ ".pdf")%string
  end.

(** variance.py:529-604 plot: the panels with what is drawn on each, in order *)
Definition plot_clusters (hs : list (hregion * histogram)) (n : nat) (with_statistics : bool) : res (list ((Z * Z) * list draw_call)) :=
  first <- getitem hs 0 ;;
  '(div_x, div_y) <- two_balanced_divisors_order_x_y (Z.of_nat (length hs)) (Z.of_nat (t_x (h_region (fst first)))) (Z.of_nat (t_y (h_region (fst first)))) ;;
  '(max_override, hs, n) <- overall_max hs n ;;
  st <- foldM (fun '(panels, n) '(i, (h, g)) =>
                 panel <- panel_of div_x div_y i ;;
                 c <- own_centroid h ;;
                 '(d, _, n') <- hist_distances h g n c ;;
                 calls <- hist_plot h d with_statistics max_override ;;
                 Ok ((panels ++ [(panel, calls)])%list, n'))
              (enumerate hs) ([], n) ;;
  Ok (fst st).

(** variance.py:606-617 cluster_histograms: the panels and the file *)
Definition cluster_histograms (clusters : list hregion) (algorithm_repr : string) (random_points : option Z) (with_statistics : bool)
           (plot_dir : option string) : res (list ((Z * Z) * list draw_call) * option string) :=
  hs <- make_histograms clusters random_points ;;
  panels <- plot_clusters hs 0 with_statistics ;;
  Ok (panels, figure_name plot_dir algorithm_repr random_points).
End Histogram.
