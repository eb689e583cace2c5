(** What the pictures show: spta/util/plot.py, the silhouette analysis of spta/kmedoids/silhouette.py and the pictures of
    experiments/region/distance.py.  A picture is represented by the calls that draw on it; [color] is a colour and [cmap]
    is cm.nipy_spectral.  Drawing itself (matplotlib) is outside the model. *)
From Coq Require Import String QArith.
From Verif Require Import Base.Py Base.Arr Base.Float Base.Str Model.Region Model.KMedoids Model.Variance.
Local Notation length := List.length.
Local Close Scope Q_scope.
Local Open Scope nat_scope.

Definition fint (z : Z) : fnum := Fin (inject_Z z).

(** np.max of an array of ints; empty raises ValueError *)
Definition z_max (l : list Z) : res Z :=
  match l with [] => Raise ValueError | z :: zs => Ok (fold_left Z.max zs z) end.

Section Plots.
Context {color : Type} (cmap : fnum -> color) (is_black : color -> bool).

(** calls on a subplot: a picture whose pixel (row, column) has its centre at the horizontal coordinate [column] and the
    vertical coordinate [row]; a cross, black or white, at a horizontal and a vertical coordinate; the red frame of a
    rectangle with a corner, a width and a height *)
Inductive plot_call :=
| Imshow (pixels : arr2 color)
| Heatmap (pixels : arr2 fnum)
| Mark (horizontal vertical : Z) (white : bool)
| Frame (left top : Q) (width height : Z).

(** plot.py:67-78 the colour of each label: the labels are divided by the largest label plus one *)
Definition label_colors (r : arr2 Z) : res (arr2 color) :=
  m <- z_max (a2d r) ;;
  let k := (m + 1)%Z in
  Ok (mk2 (a2x r) (a2y r) (map (fun l => cmap (fdiv (fint l) (fint k))) (a2d r))).

(** plot.py:85-98 the marks *)
Definition mark_calls (pixels : arr2 color) (points : list point) : res (list plot_call) :=
  mapM (fun p => c <- get2 pixels (fst p) (snd p) ;; Ok (Mark (snd p) (fst p) (is_black c))) points.

(** plot.py:46-110 plot_discrete_spatial_region with clusters=True, on a subplot or on a new figure; the title is left out.
    The value returned is True if a figure is returned (l.52-55, 110) *)
Definition plot_labels (r : arr2 Z) (has_subplot : bool) (mark_points : option (list point)) : res (bool * list plot_call) :=
  pixels <- label_colors r ;;
  marks <- match mark_points with None => Ok [] | Some ps => mark_calls pixels ps end ;;
  Ok (negb has_subplot, Imshow pixels :: marks).

(** plot.py:46-110 with clusters=False *)
Definition plot_values (r : arr2 fnum) (has_subplot : bool) : bool * list plot_call := (negb has_subplot, [Heatmap r]).

(** plot.py:113-123 plot_2d_clusters *)
Definition plot_2d_clusters (labels : list Z) (x_len y_len : nat) (has_subplot : bool) : res (bool * list plot_call) :=
  r <- create_from_1d labels x_len y_len ;;
  plot_labels (s_data r) has_subplot None.

(** plot.py:126-156 plot_partition; a Figure has no method add_patch *)
Definition plot_partition (r : arr2 Z) (has_subplot : bool) (rectangle_region : option rect) (mark_points : option (list point))
  : res (bool * list plot_call) :=
  '(fig, calls) <- plot_labels r has_subplot mark_points ;;
  match rectangle_region with
  | None => Ok (fig, calls)
  | Some g =>
      if has_subplot
      then Ok (fig, calls ++ [Frame (inject_Z (y1 g) - (1 # 2)) (inject_Z (x1 g) - (1 # 2)) (y2 g - y1 g) (x2 g - x1 g)])
      else Raise AttributeError
  end.

(* ---------- the silhouette plot ---------- *)

(** calls on the silhouette plot: the limits of the vertical axis; the values of a cluster drawn at successive heights from
    [y_lower] on, in a colour; the number of a cluster at a height; the line of the average *)
Inductive sil_call :=
| SetYLim (lo hi : nat)
| Fill (y_lower : nat) (values : list fnum) (c : color)
| Text (height : Q) (label : nat)
| VLine (x : fnum).

(** plot.py:203-206 values[labels == i], sorted; a mask of another length raises IndexError *)
Definition cluster_values (values : list fnum) (labels : list Z) (i : nat) : res (list fnum) :=
  if length values =? length labels
  then Ok (np_sort (map snd (filter (fun '(l, _) => (l =? Z.of_nat i)%Z) (combine labels values))))
  else Raise IndexError.

(** plot.py:199-219 the clusters *)
Definition draw_clusters (values : list fnum) (labels : list Z) (k : nat) : res (nat * list sil_call) :=
  foldM (fun '(y_lower, calls) i =>
           vs <- cluster_values values labels i ;;
           let y_upper := y_lower + length vs in
           let c := cmap (fdiv (fof_nat i) (fof_nat k)) in
           Ok (y_upper + 10,
               calls ++ [Fill y_lower vs c;
                         Text (inject_Z (Z.of_nat y_lower) + (1 # 2) * inject_Z (Z.of_nat (length vs)))%Q i]))
        (seq 0 k) (10, []).

(** plot.py:159-235 plot_clustering_silhouette; [score] and [samples] are silhouette_score and silhouette_samples of
    scikit-learn on the distance matrix, whose number of rows is [n]; titles, ticks and the horizontal axis are left out *)
Definition plot_clustering_silhouette (score : list Z -> res fnum) (samples : list Z -> res (list fnum)) (n : nat) (labels : list Z)
  : res (fnum * list sil_call) :=
  let k := length (nodup Z.eq_dec labels) in
  avg <- score labels ;;
  values <- samples labels ;;
  '(_, calls) <- draw_clusters values labels k ;;
  Ok (avg, SetYLim 0 (n + (k + 1) * 10) :: calls ++ [VLine avg]).

(* ---------- the analysis of kmedoids/silhouette.py ---------- *)

(** silhouette.py:20-24 SilhouetteMetadata, without the distance measure *)
Record smeta := SMeta { sm_ks : list Z; sm_seeds : list Z; sm_mode : mode; sm_initial : option (list Z); sm_max_iter : Z;
                        sm_tol : fnum; sm_verbose : bool; sm_show : bool; sm_save : option string }.

(** silhouette.py:292-310 save_graphs after silhouette_default_metadata; an empty plot_name is falsy *)
Definition default_save_graphs : string := "plots/silhouette".
Definition save_graphs_with (save_graphs : option string) (plot_name : option string) : option string :=
  match plot_name with
  | Some name =>
      if negb (String.eqb name "") && match save_graphs with Some s => String.eqb s default_save_graphs | None => false end
      then Some ("plots/" ++ name)%string else save_graphs
  | None => save_graphs
  end.

Section Analysis.
(** numpy's choice after seed(s); silhouette_score and silhouette_samples given the distance matrix *)
Context (choice : Z -> nat -> Z -> res (list Z)).
Context (score : arr2 fnum -> list Z -> res fnum) (samples : arr2 fnum -> list Z -> res (list fnum)).

(** silhouette.py:273-289 and 218-229: k-medoids for one k and one seed *)
Definition single_kmedoids (X : dataset) (m : arr2 fnum) (k seed : Z) (md : smeta) : res kresult :=
  let initial := match sm_initial md with None => None | Some l => Some (py_slice 0 k l) end in
  run_kmedoids (choice seed) X k (DMatrix m) initial (sm_mode md) (sm_max_iter md) (sm_tol md) (sm_verbose md).

(** silhouette.py:266 *)
Definition graph_file (save : string) (k seed : Z) : string := (save ++ "_k" ++ str_int k ++ "_seed" ++ str_int seed ++ ".eps")%string.

(** silhouette.py:232-270 single_silhouette: the average, and the file written *)
Definition single_silhouette (k seed : Z) (labels : list nat) (m : arr2 fnum) (md : smeta) (x_len y_len : nat) : res (fnum * list string) :=
  let labels := map Z.of_nat labels in
  _ <- (if sm_show md then (_ <- plot_2d_clusters labels x_len y_len true ;; Ok tt) else Ok tt) ;;
  '(avg, _) <- plot_clustering_silhouette (score m) (samples m) (a2x m) labels ;;
  Ok (avg, match sm_save md with Some save => [graph_file save k seed] | None => [] end).

(** the variables of the loops, silhouette.py:171-175, and the files written so far *)
Record sbest := SBest { b_avg : fnum; b_k : Z; b_seed : option Z; b_medoids : option (list Z); b_labels : option (list nat) }.
Definition no_best : sbest := SBest (Fin (-1)) 0 None None None.

(** silhouette.py:201-213 one pass of the inner loop *)
Definition silhouette_pass (X : dataset) (m : arr2 fnum) (md : smeta) (x_len y_len : nat) (seed : Z) (st : sbest * list string) (k : Z)
  : res (sbest * list string) :=
  let '(b, files) := st in
  r <- single_kmedoids X m k seed md ;;
  '(avg, fs) <- single_silhouette k seed (c_labels (r_cost r)) m md x_len y_len ;;
  Ok (if flt (b_avg b) avg then SBest avg k (Some seed) (Some (r_medoids r)) (Some (c_labels (r_cost r))) else b, files ++ fs).

(** silhouette.py:163-215 do_silhouette_analysis for a region of x_len by y_len points with the series X; [matrix] is the
    attribute distance_matrix of the distance measure and [compute] is compute_distance_matrix, which stores its result
    there (distance/dtw.py) *)
Definition do_silhouette_analysis (X : dataset) (matrix : option (arr2 fnum)) (compute : dataset -> res (arr2 fnum)) (md : smeta)
           (x_len y_len : nat) : res (sbest * list string) :=
  m <- match matrix with Some m => Ok m | None => compute X end ;;
  foldM (fun st seed => foldM (silhouette_pass X m md x_len y_len seed) (sm_ks md) st) (sm_seeds md) (no_best, []).
End Analysis.

(* ---------- distances to the first point and to the centre ---------- *)

(** experiments/region/distance.py:104-107 (and silhouette.py:142-145); int(a / 2) of a non-negative int is exact below
    2^53 *)
Definition center_index (x_len y_len : nat) : nat :=
  if x_len mod 2 =? 0 then x_len * y_len / 2 + y_len / 2 else x_len * y_len / 2.

(** experiments/region/distance.py:79-114 show_distances (silhouette.py:111-153 is the same): two pictures *)
Definition show_distances (x_len y_len : nat) (m : arr2 fnum) : res (list (list plot_call)) :=
  row0 <- row2 m 0 ;;
  first <- reshape2 row0 x_len y_len ;;
  rowc <- row2 m (Z.of_nat (center_index x_len y_len)) ;;
  center <- reshape2 rowc x_len y_len ;;
  Ok [snd (plot_values first false); snd (plot_values center false)].
End Plots.

(* ---------- series by colour ---------- *)

(** plot.py:12 *)
Definition palette : list string := ["b"; "g"; "r"; "c"; "m"; "y"; "k"]%string.

(** plot.py:29-43 plot_series_group_by_color: the series drawn, each with its colour; drawing a series of another length
    than series_len raises ValueError *)
Definition plot_series_group_by_color {A} (group : list (list A)) (series_len : nat) (colors : list Z) : res (list (list A * string)) :=
  if length palette <? length (nodup Z.eq_dec colors) then Raise ValueError
  else mapM (fun '(index, series) =>
               c <- getitem colors (Z.of_nat index) ;;
               name <- getitem palette c ;;
               if length series =? series_len then Ok (series, name) else Raise ValueError)
            (enumerate group).
