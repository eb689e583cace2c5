(** spta/clustering/dbscan.py: the DBSCAN clustering of a region, its metadata and the program at the end of the file.

    sklearn's DBSCAN(eps=0.7, min_samples=5, metric='precomputed').fit is a function [dbscan] from the matrix to one label per
    sample.  Of what is printed only the two counts are kept; logging and the drawing of the partition are left out. *)
From Coq Require Import String.
From Verif Require Import Base.Py Base.Arr Base.Str Base.Float Model.Region Model.Distance Model.Clustering Model.SolverFiles Model.PartitionAnalysis.
Local Open Scope string_scope.
Local Notation length := List.length.

(* ------------------------------------------------------------------ metadata *)

(** dbscan.py:11-19 DbscanClusteringMetadata: its k, 0 unless given *)
Definition dbscan_default_k : Z := 0.

(** clustering/__init__.py:55-56 __repr__ with the name 'dbscan' *)
Definition dbscan_repr (k : Z) : string := "dbscan" ++ "_k" ++ str_int k.

(** dbscan.py:27-39 from_repr: the k of the instance *)
Definition dbscan_from_repr (s : string) : res Z :=
  let parts := split "_" s in
  p0 <- getitem parts 0 ;;
  _ <- py_assert (p0 =? "dbscan")%string ;;
  p1 <- getitem parts 1 ;;
  py_int (str_from 1 p1).

(** dbscan.py:42-51 dbscan_metadata_generator: the metadatas of ClusteringSuite('change_me', 'dbscan', k=k_values) *)
Definition dbscan_suite (ks : list Z) (ps : kparams) : res (list cmeta) := suite_metadatas "dbscan" ks NoSeeds ps.

(* ------------------------------------------------------------------ the clustering *)

(** [len(set(labels))] *)
Fixpoint distinct (l : list Z) : list Z :=
  match l with
  | [] => []
  | a :: t => if existsb (Z.eqb a) t then distinct t else a :: distinct t
  end.

(** what partition_impl prints (dbscan.py:77-85): the number of clusters and the number of noise points *)
Record counts := Counts { n_clusters : nat; n_noise : nat }.

(** clustering/__init__.py:34-47 output_dir and pickle_dir, 168-181 save_to_csv and 250-259 pickle_full_path for dbscan with [k] *)
Definition dbscan_pickle_path (k : Z) (r : rmeta) (dist_repr : string) : string :=
  path_join (path_join (region_pickle_dir r "pickle") (path_join dist_repr (dbscan_repr k))) ("partition_" ++ dbscan_repr k ++ ".pkl").
Definition dbscan_report_path (k : Z) (r : rmeta) (dist_repr home : string) : string :=
  path_join (path_join (region_output_dir r home) (path_join dist_repr (dbscan_repr k))) ("clustering__" ++ dbscan_repr k ++ ".csv").

(** what is clustered: a spatio-temporal region with its metadata, if any, or a spatial region (partition_2d) *)
Inductive target := TSpt (r : stregion fnum) (md : option rmeta) | TSpatial (s : sregion fnum).

Section Dbscan.
Context {M : Type}.
Context (dbscan : mat -> res (list Z)) (env : denv) (format_coverage : Q -> string).

(** dbscan.py:63-104 DbscanClusteringAlgorithm.partition_impl.  [global] is the variable distance_dtw of the module: it is only
    set by the program at the end of the file, and its matrix is used instead of the one of the algorithm's distance measure.
    Without a matrix, fit gets None.  [with_medoids] is not used.  The shape of a spatial region cannot be unpacked in three. *)
Definition dbscan_partition_impl (global : option dobj) (t : target) (with_medoids : bool) : res (crisp * counts) :=
  match global with
  | None => Raise NameError
  | Some g =>
      m <- match d_matrix g with Some m => Ok m | None => Raise ValueError end ;;
      labels <- dbscan m ;;
      let printed := Counts (length (distinct labels)) (length (filter (Z.eqb (-1)) labels)) in
      '(x_len, y_len) <- match t with TSpt r _ => Ok (t_x r, t_y r) | TSpatial _ => Raise ValueError end ;;
      p <- from_membership_array (map (Z.add 1) labels) x_len y_len ;;
      Ok (p, printed)
  end.

(** the pickled objects and the text files *)
Record files := Files { f_pickles : fsys M; f_texts : string -> option (list string) }.

(** clustering/__init__.py:163-206 save_to_csv; [k] is the k of the metadata *)
Definition dbscan_save_to_csv (fs : files) (k : Z) (r : rmeta) (dist_repr : string) (p : crisp) (home : string) : files * res unit :=
  let path := dbscan_report_path k r dist_repr home in
  let write lines := Files (f_pickles fs) (fun q => if (q =? path)%string then Some lines else f_texts fs q) in
  match clustering_report format_coverage k p with
  | Ok lines => (write lines, Ok tt)
  | Raise e => (write [csv_line ["cluster"; "points"; "coverage"]], Raise e)
  end.

(** clustering/__init__.py:83-126 partition: the saved partition, or partition_impl after trying to load the matrix of the
    algorithm's distance measure [o] ([shared]: the global variable is the same object); then the report, then saving.  A
    spatial region has no attribute region_metadata.  A partition that was saved without medoids has none. *)
Definition dbscan_partition (global : option dobj) (shared : bool) (k : Z) (o : dobj) (dist_repr : string) (fs : files) (t : target)
           (with_medoids : bool) (save_csv_at pickle_home : option string) : files * dobj * res (part * option counts) :=
  match t with
  | TSpatial _ => (fs, o, Raise AttributeError)
  | TSpt r md =>
      let loaded := match pickle_home, md with
                    | Some _, Some m => match load_file (f_pickles fs) (dbscan_pickle_path k m dist_repr) as_partition with Ok p => Some p | Raise _ => None end
                    | _, _ => None
                    end in
      let finish (fs : files) (o : dobj) (p : part) (printed : option counts) :=
        let '(fs, reported) := match save_csv_at, md with
                               | None, _ => (fs, Ok tt)
                               | Some _, None => (fs, Raise AttributeError)
                               | Some home, Some m => dbscan_save_to_csv fs k m dist_repr (fst p) home
                               end in
        match reported with
        | Raise e => (fs, o, Raise e)
        | Ok _ =>
            match pickle_home, printed, md with
            | Some _, Some _, None => (fs, o, Raise AttributeError)
            | Some _, Some _, Some m => (Files (fs_put (f_pickles fs) (dbscan_pickle_path k m dist_repr) (FPartition p)) (f_texts fs), o, Ok (p, printed))
            | _, _, _ => (fs, o, Ok (p, printed))
            end
        end in
      match loaded with
      | Some p => finish fs o p None
      | None =>
          match try_load_distance_matrix env (option_map dmeta_of md) o with
          | (Raise e, o) => (fs, o, Raise e)
          | (Ok _, o) =>
              match dbscan_partition_impl (if shared then Some o else global) t with_medoids with
              | Raise e => (fs, o, Raise e)
              | Ok (p, printed) => finish fs o (p, None) (Some printed)
              end
          end
      end
  end.

(** dbscan.py:56-61 partition_2d *)
Definition dbscan_partition_2d (global : option dobj) (shared : bool) (k : Z) (o : dobj) (dist_repr : string) (fs : files) (s : sregion fnum) :=
  dbscan_partition global shared k o dist_repr fs (TSpatial s) false None None.

(** dbscan.py:107-136: the program; the distance measure of the algorithm is the global variable *)
Definition dbscan_region : rmeta := RMeta "whole_brazil" (Rect 20 100 15 95) 2015 2015 1 true "raw".
Definition dbscan_program (create_instance : rmeta -> res (stregion fnum)) (fs : files) : files * res (part * option counts) :=
  match create_instance dbscan_region with
  | Raise e => (fs, Raise e)
  | Ok spt =>
      match load_distance_matrix_2d env (distances_filename dbscan_region) (rm_region dbscan_region) (DObj PlainDTW None false) with
      | (Raise e, _) => (fs, Raise e)
      | (Ok _, o) =>
          let '(fs, _, result) := dbscan_partition None true dbscan_default_k o "dtw" fs (TSpt spt (Some dbscan_region)) true None None in
          (fs, result)
      end
  end.
End Dbscan.
