(** experiments/clustering/silhouette.py with experiments/metadata/silhouette.py and spta/kmedoids/silhouette.py: the program with
    the commands save, distances, kmedoids and show_distances.

    The files are those of Model/DistanceProgram.v (the dataset, its cache and the saved regions; the distance matrices).  Every
    run is a process of its own, so the distance measure that is a default argument (silhouette.py:292) is new in each run.
    Pictures are part of the result; those written before a failure are left out, like logging. *)
From Coq Require Import String.
From Verif Require Import Base.Py Base.Dict Base.Arr Base.Str Base.Float Model.Region Model.KMedoids Model.Distance Model.Clustering Model.Dataset Model.Plots
  Model.Algorithms Model.Programs Model.DistanceProgram Model.SavedRegion.
Local Open Scope string_scope.
Local Notation length := List.length.

(** kmedoids/silhouette.py:292-310 silhouette_default_metadata(k_values, seed_values, plot_name=name) *)
Definition silhouette_default_metadata (k_values seed_values : list Z) (plot_name : string) : smeta :=
  SMeta k_values seed_values Lite None 1000 (Fin (1 # 1000)) true true (save_graphs_with (Some default_save_graphs) (Some plot_name)).

(** experiments/metadata/silhouette.py:7-35 silhouette_metadata_by_name *)
Definition silhouettes_metadata : list (string * smeta) :=
  [ ("brian", silhouette_default_metadata (zrange 2 6) (zrange 0 3) "brian");
    ("midregion", silhouette_default_metadata (zrange 2 8) (zrange 0 3) "midregion");
    ("nordeste_small", silhouette_default_metadata (zrange 2 8) (zrange 0 3) "nordeste_small");
    ("sp_small", silhouette_default_metadata [2; 3; 4]%Z [0]%Z "sp_small");
    ("sp_rj", silhouette_default_metadata [2; 3; 4]%Z [0]%Z "sp_rj");
    ("whole_brazil", silhouette_default_metadata (zrange 12 13) (zrange 0 4) "whole_brazil") ].
Definition silhouette_metadata_by_name (name : string) : res smeta := dict_get String.eqb name silhouettes_metadata.

Section Program.
Context {color : Type} (cmap : fnum -> color) (is_black : color -> bool) (choice : Z -> nat -> Z -> res (list Z)).
Context (score : arr2 fnum -> list Z -> res fnum) (samples : arr2 fnum -> list Z -> res (list fnum)).
Context (measure : list fnum -> list fnum -> fnum) (norm : Z -> Z -> fnum) (junk garbage : fnum).

(** what a command shows: nothing, the best analysis with the files of its graphs, or the pictures of distances *)
Inductive shown_result :=
| Nothing
| Best (b : sbest) (graphs : list string)
| Pictures (l : list (string * list (@plot_call color))).

(** kmedoids/silhouette.py:51-59 save_sptr *)
Definition save_sptr (w : dworld) (r : rmeta) : dworld * res shown_result :=
  match m_create_instance garbage (dw_data w) r with
  | (fs, Raise e) => (DWorld fs (dw_mats w), Raise e)
  | (fs, Ok sptr) =>
      let '(fs, res) := save fs sptr in
      (DWorld fs (dw_mats w), _ <- res ;; Ok Nothing)
  end.

(** kmedoids/silhouette.py:61-72 calculate_distance_matrix *)
Definition calculate_distance_matrix (w : dworld) (r : rmeta) : dworld * res shown_result :=
  match load_saved (dw_data w) r with
  | Raise e => (w, Raise e)
  | Ok sptr =>
      match fst (compute_distance_matrix (env_with measure norm junk (dw_mats w)) (Data3 (erase sptr)) (fresh PlainDTW)) with
      | Raise e => (w, Raise e)
      | Ok M => (DWorld (dw_data w) (save_mat (dw_mats w) (distances_filename r) M), Ok Nothing)
      end
  end.

(** kmedoids/silhouette.py:163-215 do_silhouette_analysis with a distance measure that has the matrix [matrix] or none: the
    matrix that the measure has afterwards, and the result.  Metadata made by two calls of silhouette_default_metadata without
    a distance measure has the same measure, the default argument of l.292. *)
Definition analyse (matrix : option (arr2 fnum)) (X : dataset) (compute : dataset -> res (arr2 fnum)) (md : smeta) (x_len y_len : nat)
  : option (arr2 fnum) * res (sbest * list string) :=
  (match matrix with Some m => Some m | None => match compute X with Ok m => Some m | Raise _ => None end end,
   do_silhouette_analysis cmap is_black choice score samples X matrix compute md x_len y_len).

(** kmedoids/silhouette.py:98-109 the graphs of the best result; labels None cannot be reshaped, since the region has several
    points (spatial.py:195-201, region/__init__.py:10-11) *)
Definition show_best (b : sbest) (m : arr2 fnum) (x_len y_len : nat) : res unit :=
  match b_labels b with
  | None => Raise ValueError
  | Some labels =>
      _ <- plot_2d_clusters cmap is_black (map Z.of_nat labels) x_len y_len true ;;
      _ <- plot_clustering_silhouette cmap (score m) (samples m) (a2x m) (map Z.of_nat labels) ;;
      Ok tt
  end.

(** kmedoids/silhouette.py:74-109 silhouette_analysis; the analysis computes the matrix if none was loaded *)
Definition silhouette_analysis (w : dworld) (r : rmeta) (md : smeta) : res shown_result :=
  sptr <- load_saved (dw_data w) r ;;
  let spt := erase sptr in
  let '(loaded, o) := load_distance_matrix_2d (env_with measure norm junk (dw_mats w)) (distances_filename r) (rm_region r) (fresh PlainDTW) in
  _ <- loaded ;;
  X <- as_list spt ;;
  let compute (_ : dataset) := M <- matrix_of_region measure junk spt ;; Ok (arr2_of_mat M) in
  let matrix := option_map arr2_of_mat (d_matrix o) in
  '(b, graphs) <- do_silhouette_analysis cmap is_black choice score samples X matrix compute md (t_x spt) (t_y spt) ;;
  m <- match matrix with Some m => Ok m | None => compute X end ;;
  _ <- show_best b m (t_x spt) (t_y spt) ;;
  Ok (Best b graphs).

(** kmedoids/silhouette.py:111-153 show_distances; without a distance file the matrix is None, which has no first row *)
Definition show_saved_distances (w : dworld) (r : rmeta) : res shown_result :=
  sptr <- load_saved (dw_data w) r ;;
  loaded <- fst (load_distance_matrix_2d (env_with measure norm junk (dw_mats w)) (distances_filename r) (rm_region r) (fresh PlainDTW)) ;;
  match loaded with
  | None => Raise TypeError
  | Some M => pictures <- show_distances (t_x (erase sptr)) (t_y (erase sptr)) (arr2_of_mat M) ;; Ok (Pictures (combine (picture_files r) pictures))
  end.

(** kmedoids/silhouette.py:155-156 execute_command with the commands of l.42-47 *)
Definition execute_command (w : dworld) (r : rmeta) (md : smeta) (command : string) : dworld * res shown_result :=
  if (command =? "save")%string then save_sptr w r
  else if (command =? "distances")%string then calculate_distance_matrix w r
  else if (command =? "kmedoids")%string then (w, silhouette_analysis w r md)
  else if (command =? "show_distances")%string then (w, show_saved_distances w r)
  else (w, Raise KeyError).

(** experiments/clustering/silhouette.py:29-39 do_silhouette *)
Definition do_silhouette (w : dworld) (region command : string) : dworld * res shown_result :=
  match region_by_name region with
  | Raise e => (w, Raise e)
  | Ok r =>
      match silhouette_metadata_by_name (rm_name r) with
      | Raise e => (w, Raise e)
      | Ok md => execute_command w r md command
      end
  end.
End Program.
