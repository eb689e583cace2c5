(** experiments/clustering/partition_analysis.py with its options --silhouette, --variance, --random and --bins, and the
    silhouette analysis of a suite (spta/clustering/silhouette.py).

    Pictures are kept in the order in which they are saved, each with its file name and what it shows (Model/Plots.v and
    Model/Variance.v); titles are left out.  Directories are made as needed.  Logging is left out. *)
From Coq Require Import String.
From Verif Require Import Base.Py Base.Arr Base.Str Base.Float Model.Region Model.Distance Model.KMedoids Model.Clustering Model.Variance Model.SolverFiles
  Model.Algorithms Model.Programs Model.Dnn Model.PartitionAnalysis Model.Plots.
Local Open Scope string_scope.
Local Notation length := List.length.

(** partition_analysis.py:46-63: --silhouette, --variance, --random (None if it is not given) and --bins *)
Record options := Options { o_silhouette : bool; o_variance : bool; o_random : option string; o_bins : string }.
(** partition_analysis.py:50-60: the options that are not given *)
Definition no_options : options := Options false false None "auto".

(** partition_analysis.py:193-196: the number of random points; an empty string counts as not given *)
Definition random_points_of (o : options) : res (option Z) :=
  match o_random o with
  | None | Some "" => Ok None
  | Some s => n <- py_int s ;; Ok (Some n)
  end.

(** numpy's histogram, called by subplot.hist (variance.py:142, 317) with bins as a string: the names it knows *)
Definition bin_names : list string := ["auto"; "fd"; "doane"; "scott"; "stone"; "rice"; "sturges"; "sqrt"].
Definition is_bin_name (s : string) : bool := existsb (String.eqb s) bin_names.
Definition is_finite (v : fnum) : bool := match v with Fin _ => true | _ => false end.
(** it needs finite values *)
Definition can_draw (calls : list draw_call) : bool :=
  forallb (fun c => match c with DrawHist vs _ => forallb is_finite vs | _ => true end) calls.

Section Options.
Context {M color : Type} (cmap : fnum -> color) (is_black : color -> bool).
Context (choice : Z -> nat -> Z -> res (list Z)) (env : denv) (create_instance : rmeta -> res (stregion fnum))
        (format_coverage : Q -> string) (format_float : nat -> fnum -> string).
(** silhouette_score and silhouette_samples of scikit-learn; list(set), the calls of np.random.choice while the histograms
    of a clustering are made, np.sqrt *)
Context (score : mat -> list Z -> res fnum) (samples : mat -> list Z -> res (list fnum))
        (set_order : list Z -> list Z) (draw : cmeta -> nat -> list Z -> Z -> res (list Z)) (sqrt : fnum -> fnum).

(** what a picture shows: the map of the clusters beside the silhouettes, or the histograms in their panels *)
Inductive figure :=
| Silhouette (clusters : list (@plot_call color)) (bars : list (@sil_call color))
| Histograms (panels : list ((Z * Z) * list draw_call)).
(** a picture with its file name *)
Definition drawing : Type := (string * figure)%type.

(* ---------- silhouettes ---------- *)

(** clustering/silhouette.py:91-92 *)
Definition silhouette_filepath (c : cmeta) (r : rmeta) : string :=
  path_join (clustering_output_dir c r "dtw" "outputs") ("silhouette-" ++ c_repr c ++ ".pdf").

(** clustering/silhouette.py:59-97 single_silhouette; reshape keeps the order of the labels and needs as many as there are
    points *)
Definition suite_silhouette (o : dobj) (c : cmeta) (r : rmeta) (spt : stregion fnum) (p : crisp) : res (fnum * drawing) :=
  distance_matrix <- match d_matrix o with Some m => Ok m | None => Raise AssertionError end ;;
  l <- (if (length (a2d (labels p)) =? t_x spt * t_y spt)%nat then Ok (a2d (labels p)) else Raise ValueError) ;;
  '(_, clusters) <- plot_2d_clusters cmap is_black l (t_x spt) (t_y spt) true ;;
  '(silhouette_avg, bars) <- plot_clustering_silhouette cmap (score distance_matrix) (samples distance_matrix) (length (m_rows distance_matrix)) l ;;
  Ok (silhouette_avg, (silhouette_filepath c r, Silhouette clusters bars)).

(** clustering/silhouette.py:32-57 the loop of perform_analysis('outputs', 'pickle'): the files, the pictures, and the best
    average with its clustering *)
Fixpoint suite_silhouettes (w : world M) (r : rmeta) (spt : stregion fnum) (best : fnum * option cmeta) (suite : list cmeta)
  : world M * list drawing * res (fnum * option cmeta) :=
  match suite with
  | [] => (w, [], Ok best)
  | c :: rest =>
      match partition_and_report choice env format_coverage w c r spt with
      | (w', Raise e) => (w', [], Raise e)
      | (w', Ok p) =>
          match suite_silhouette (w_distance w') c r spt (fst p) with
          | Raise e => (w', [], Raise e)
          | Ok (silhouette_avg, d) =>
              let '(w'', ds, result) :=
                suite_silhouettes w' r spt (if flt (fst best) silhouette_avg then (silhouette_avg, Some c) else best) rest in
              (w'', d :: ds, result)
          end
      end
  end.

(** clustering/silhouette.py:12-30: the region is created first; a missing matrix is loaded *)
Definition silhouette_analysis (w : world M) (r : rmeta) (suite : list cmeta) : world M * list drawing * res (fnum * option cmeta) :=
  match create_instance r with
  | Raise e => (w, [], Raise e)
  | Ok spt =>
      match (match d_matrix (w_distance w) with
             | Some _ => (Ok tt, w_distance w)
             | None => let '(result, o) := load_distance_matrix_2d env (distances_filename r) (rm_region r) (w_distance w) in
                       (_ <- result ;; Ok tt, o)
             end) with
      | (Raise e, o) => (World (w_pickles w) (w_texts w) o, [], Raise e)
      | (Ok _, o) => suite_silhouettes (World (w_pickles w) (w_texts w) o) r spt (Fin (-1), None) suite
      end
  end.

(* ---------- histograms ---------- *)

(** partition_analysis.py:190-208: the histograms of a clustering.  The histogram of a name of bins that numpy does not know,
    or of values that are not finite, raises ValueError; nothing that comes after the first histogram raises anything else. *)
Definition variance_analysis (opts : options) (o : dobj) (c : cmeta) (r : rmeta) (clusters : list hregion) : res (list drawing) :=
  random_points <- random_points_of opts ;;
  '(panels, plot_name) <- cluster_histograms env o set_order (draw c) sqrt clusters (c_repr c) random_points true
                            (Some (clustering_output_dir c r "dtw" "outputs")) ;;
  if is_bin_name (o_bins opts) && forallb (fun panel => can_draw (snd panel)) panels
  then Ok match plot_name with Some name => [(name, Histograms panels)] | None => [] end
  else Raise ValueError.

(** partition_analysis.py:141-210 analyze_partition: the row of the clustering and the pictures *)
Definition analyze_partition_with (opts : options) (w : world M) (c : cmeta) (r : rmeta) : world M * list drawing * res (list string) :=
  match create_instance r with
  | Raise e => (w, [], Raise e)
  | Ok spt =>
      match partition_and_report choice env format_coverage w c r spt with
      | (w', Raise e) => (w', [], Raise e)
      | (w', Ok (p, None)) => (w', [], Raise AttributeError)
      | (w', Ok (p, Some medoids)) =>
          match clusters_with_centroids p spt None None (Some medoids) with
          | Raise e => (w', [], Raise e)
          | Ok clusters =>
              let '(result, o) := fold_left (analyze_cluster env r clusters) (zrange 0 (c_k c)) (Ok ("", []), w_distance w') in
              let w'' := World (w_pickles w') (w_texts w') o in
              match result with
              | Raise e => (w'', [], Raise e)
              | Ok (medoids_str, costs) =>
                  let row := [c_repr c; format_float 3 (fsum costs); medoids_str] in
                  if o_variance opts
                  then match variance_analysis opts o c r clusters with
                       | Raise e => (w'', [], Raise e)
                       | Ok ds => (w'', ds, Ok row)
                       end
                  else (w'', [], Ok row)
              end
          end
      end
  end.

(** partition_analysis.py:117-132 *)
Fixpoint analyze_clusterings_with (opts : options) (w : world M) (path : string) (r : rmeta) (suite : list cmeta)
  : world M * list drawing * res unit :=
  match suite with
  | [] => (w, [], Ok tt)
  | c :: rest =>
      match analyze_partition_with opts w c r with
      | (w', ds, Raise e) => (w', ds, Raise e)
      | (w', ds, Ok row) =>
          let '(w'', ds', result) := analyze_clusterings_with opts (append_text w' path (csv_line row)) path r rest in
          (w'', (ds ++ ds')%list, result)
      end
  end.

(** partition_analysis.py:81-138 analyze_suite and 211-228 metadata_from_args *)
Definition analyze_suite_with (opts : options) (w : world M) (region clustering_type suite_id : string) : world M * list drawing * res unit :=
  match (r <- region_by_name region ;; suite <- get_suite clustering_type suite_id ;; Ok (r, suite)) with
  | Raise e => (w, [], Raise e)
  | Ok (r, suite) =>
      match load_distance_matrix_2d env (distances_filename r) (rm_region r) (DObj PlainDTW None false) with
      | (Raise e, o) => (World (w_pickles w) (w_texts w) o, [], Raise e)
      | (Ok _, o) =>
          match (if o_silhouette opts then silhouette_analysis (World (w_pickles w) (w_texts w) o) r suite
                 else (World (w_pickles w) (w_texts w) o, [], Ok (Fin (-1), None))) with
          | (w', ds, Raise e) => (w', ds, Raise e)
          | (w', ds, Ok _) =>
              let path := analysis_csv_filepath (suite_repr clustering_type suite_id) "dtw" "outputs" r in
              let '(w'', ds', result) :=
                analyze_clusterings_with opts (write_text w' path [csv_line ["clustering"; "total_cost"; "medoids"]]) path r suite in
              (w'', (ds ++ ds')%list, result)
          end
      end
  end.
End Options.
