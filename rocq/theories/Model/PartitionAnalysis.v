(** experiments/clustering/partition_analysis.py: the program that clusters a region with every algorithm of a suite and
    writes the costs and medoids to a CSV file, with ClusteringAlgorithm.partition (clustering/__init__.py) writing its report
    and saving the partition.

    The options --silhouette, --variance, --random and --bins are in Model/AnalysisOptions.v;
    --random without --variance has no effect: the check of l.71-72 looks for attributes that are always there.  Directories
    are made as needed.  Logging is left out. *)
From Coq Require Import String.
From Verif Require Import Base.Py Base.Arr Base.Str Base.Float Model.Region Model.Distance Model.KMedoids Model.Clustering Model.Variance Model.SolverFiles
  Model.Algorithms Model.Programs Model.Dnn.
Local Open Scope string_scope.
Local Notation length := List.length.

(** clustering/suite.py:177-191 analysis_csv_filename and analysis_csv_filepath *)
Definition analysis_csv_filename (suite : string) : string := "clustering__" ++ suite ++ ".csv".
Definition analysis_csv_filepath (suite dist_repr home : string) (r : rmeta) : string :=
  suite_csv_dir dist_repr home r ++ "/" ++ analysis_csv_filename suite.

(** clustering/__init__.py:168-181: the path of the report of a clustering *)
Definition report_path (c : cmeta) (r : rmeta) (dist_repr home : string) : string :=
  path_join (clustering_output_dir c r dist_repr home) ("clustering__" ++ c_repr c ++ ".csv").

(** the distances file and the coordinates of the region's metadata (region/metadata.py:66-92) *)
Definition dmeta_of (r : rmeta) : dmeta := DMeta (distances_filename r) (rm_region r).

Section Analysis.
Context {M : Type}.
(** numpy.random.choice, the distance files and the measure, the region of a metadata, '{:.1f}' and '{:0.nf}' *)
Context (choice : Z -> nat -> Z -> res (list Z)) (env : denv) (create_instance : rmeta -> res (stregion fnum))
        (format_coverage : Q -> string) (format_float : nat -> fnum -> string).

(** pickled objects, the lines of text files, and the distance measure shared by the algorithms (factory.py:33-34) *)
Record world := World { w_pickles : fsys M; w_texts : string -> option (list string); w_distance : dobj }.

(** open(path, 'w') and writing; open(path, 'a') and writing one row *)
Definition write_text (w : world) (path : string) (lines : list string) : world :=
  World (w_pickles w) (fun q => if (q =? path)%string then Some lines else w_texts w q) (w_distance w).
Definition append_text (w : world) (path line : string) : world :=
  write_text w path ((match w_texts w path with Some l => l | None => [] end) ++ [line])%list.

(** clustering/__init__.py:163-206 save_to_csv: the header is written first; a row fails only for a partition without points *)
Definition save_to_csv (w : world) (c : cmeta) (r : rmeta) (p : crisp) (home : string) : world * res unit :=
  match clustering_report format_coverage (c_k c) p with
  | Ok lines => (write_text w (report_path c r "dtw" home) lines, Ok tt)
  | Raise e => (write_text w (report_path c r "dtw" home) [csv_line ["cluster"; "points"; "coverage"]], Raise e)
  end.

(** clustering/__init__.py:83-126 partition(spt_region, with_medoids=True, save_csv_at='outputs', pickle_home='pickle') for the
    region of metadata [r] *)
Definition partition_and_report (w : world) (c : cmeta) (r : rmeta) (spt : stregion fnum) : world * res part :=
  match try_load_previous_partition (w_pickles w) c "dtw" r "pickle" with
  | Some p =>
      match save_to_csv w c r (fst p) "outputs" with
      | (w', Ok _) => (w', Ok p)
      | (w', Raise e) => (w', Raise e)
      end
  | None =>
      match clustering_impl choice env c (Some (dmeta_of r)) spt true (w_distance w) with
      | (Raise e, o) => (World (w_pickles w) (w_texts w) o, Raise e)
      | (Ok p, o) =>
          match save_to_csv (World (w_pickles w) (w_texts w) o) c r (fst p) "outputs" with
          | (w', Raise e) => (w', Raise e)
          | (w', Ok _) => (World (fs_put (w_pickles w') (pickle_full_path c r "dtw") (FPartition p)) (w_texts w') (w_distance w'), Ok p)
          end
      end
  end.

(** partition_analysis.py:161-180: one cluster; the state is the distance measure, the string of medoids and the costs.
    combine of DistanceByDTW is np.sum (distance/dtw.py:26-32). *)
Definition analyze_cluster (r : rmeta) (clusters : list hregion) (st : res (string * list fnum) * dobj) (i : Z)
  : res (string * list fnum) * dobj :=
  match st with
  | (Raise e, o) => (Raise e, o)
  | (Ok (medoids_str, costs), o) =>
      match (cluster <- getitem clusters i ;;
             centroid <- match h_own cluster with Some m => Ok m | None => Raise AttributeError end ;;
             indices <- all_point_indices (h_region cluster) ;;
             Ok (cluster, centroid, indices)) with
      | Raise e => (Raise e, o)
      | Ok (cluster, centroid, indices) =>
          match distances_to_point env (h_region cluster) (Some (dmeta_of r)) centroid indices true true o with
          | (Raise e, o') => (Raise e, o')
          | (Ok ds, o') => (Ok (medoids_str ++ medoid_str (absolute_position_of_point (rm_region r) centroid), (costs ++ [fsum ds])%list), o')
          end
      end
  end.

(** partition_analysis.py:141-187 analyze_partition without --variance: the row of the clustering *)
Definition analyze_partition (w : world) (c : cmeta) (r : rmeta) : world * res (list string) :=
  match create_instance r with
  | Raise e => (w, Raise e)
  | Ok spt =>
      match partition_and_report w c r spt with
      | (w', Raise e) => (w', Raise e)
      | (w', Ok (p, None)) => (w', Raise AttributeError)
      | (w', Ok (p, Some medoids)) =>
          match clusters_with_centroids p spt None None (Some medoids) with
          | Raise e => (w', Raise e)
          | Ok clusters =>
              let '(result, o) := fold_left (analyze_cluster r clusters) (zrange 0 (c_k c)) (Ok ("", []), w_distance w') in
              (World (w_pickles w') (w_texts w') o,
               '(medoids_str, costs) <- result ;;
               Ok [c_repr c; format_float 3 (fsum costs); medoids_str])
          end
      end
  end.

(** partition_analysis.py:117-132: the clusterings of the suite in turn, each followed by appending its row *)
Fixpoint analyze_clusterings (w : world) (path : string) (r : rmeta) (suite : list cmeta) : world * res unit :=
  match suite with
  | [] => (w, Ok tt)
  | c :: rest =>
      match analyze_partition w c r with
      | (w', Raise e) => (w', Raise e)
      | (w', Ok row) => analyze_clusterings (append_text w' path (csv_line row)) path r rest
      end
  end.

(** partition_analysis.py:81-138 analyze_suite and 211-228 metadata_from_args: region, type of clustering and suite *)
Definition analyze_suite (w : world) (region clustering_type suite_id : string) : world * res unit :=
  match (r <- region_by_name region ;; suite <- get_suite clustering_type suite_id ;; Ok (r, suite)) with
  | Raise e => (w, Raise e)
  | Ok (r, suite) =>
      match load_distance_matrix_2d env (distances_filename r) (rm_region r) (DObj PlainDTW None false) with
      | (Raise e, o) => (World (w_pickles w) (w_texts w) o, Raise e)
      | (Ok _, o) =>
          let path := analysis_csv_filepath (suite_repr clustering_type suite_id) "dtw" "outputs" r in
          analyze_clusterings (write_text (World (w_pickles w) (w_texts w) o) path [csv_line ["clustering"; "total_cost"; "medoids"]]) path r suite
      end
  end.
End Analysis.
Arguments world : clear implicits.
