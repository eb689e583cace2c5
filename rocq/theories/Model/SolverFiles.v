(** Names of the files of a solver (spta/solver/metadata.py, spta/arima/__init__.py, the reprs of spta/model/knn.py and
    mean.py), the cache of partitions (spta/clustering/__init__.py, spta/region/partition.py) and the persistence of
    solvers (spta/solver/model.py SolverPickler).

    The file system maps paths to pickled objects.  Directories, permissions, partial writes and file-like objects of
    other programs are not modelled; [FCorrupt] is a file that pickle.load refuses.  Pickling keeps a value as it is.
    Logging is left out. *)
From Coq Require Import ZArith.
From Verif Require Import Base.Py Base.Arr Base.Str Base.Float Model.Region Model.Clustering Model.Models Model.Series Model.Solver.
Local Open Scope string_scope.

(* ------------------------------------------------------------------ names *)

(** '{}'.format(None or an int), '{}'.format(a bool) *)
Definition str_opt (o : option Z) : string := match o with None => "None" | Some n => str_int n end.
Definition str_bool (b : bool) : string := if b then "True" else "False".

(** model/mean.py:8-23 MeanOfPastParams; model/knn.py:15-32 KNNParams (the repr of its distance measure);
    arima/__init__.py:6-22 AutoArimaParams.  [past] is an int. *)
Inductive mparams :=
| PMean (past : Z)
| PKnn (k : Z) (distance_repr : string)
| PAutoArima (start_p start_q max_p max_q : Z) (d : option Z) (stepwise : bool).

(** model/mean.py:14-20, model/knn.py:21-29, arima/__init__.py:12-19 __repr__ *)
Definition params_repr (p : mparams) : string :=
  match p with
  | PMean past => "mean-past" ++ str_int past
  | PKnn k _ => "knn-k" ++ str_int k ++ "-dtw"
  | PAutoArima sp sq mp mq d st =>
      "auto-arima-start_p" ++ str_int sp ++ "-start_q" ++ str_int sq ++ "-max_p" ++ str_int mp ++
      "-max_q" ++ str_int mq ++ "-d" ++ str_opt d ++ "-stepwise" ++ str_bool st
  end.

(** arima/__init__.py:42-49 arima_params_gen *)
Definition arima_params_gen (ps ds qs : list Z) : list pdq :=
  flat_map (fun p => flat_map (fun d => map (fun q => (p, d, q)) qs) ds) ps.

(** solver/metadata.py:9-13 SolverMetadataBasic, alone, or decorated by MetadataWithClustering (86-97) or
    MetadataForClusteringSuite (150-161); the distance measure and the suite directory appear in names only *)
Inductive skind := SBasic | SClustering (c : cmeta) (dist_repr : string) | SSuite (suite_dir : string -> rmeta -> string).
Record smeta := SMeta { sm_region : rmeta; sm_params : mparams; sm_test_len : Z; sm_error : string; sm_kind : skind }.

(** region/metadata.py:168-172, clustering/__init__.py:34-40 output_dir *)
Definition region_output_dir (r : rmeta) (home : string) : string := path_join home (rmeta_repr r).
Definition clustering_output_dir (c : cmeta) (r : rmeta) (dist_repr home : string) : string :=
  path_join (region_output_dir r home) (clustering_subdir c dist_repr).

(** solver/metadata.py:15-21, 99-109, 163-172 output_dir *)
Definition solver_output_dir (m : smeta) (home : string) : string :=
  path_join (match sm_kind m with
             | SBasic => region_output_dir (sm_region m) home
             | SClustering c d => clustering_output_dir c (sm_region m) d home
             | SSuite dir => dir home (sm_region m)
             end)
            (params_repr (sm_params m)).

(** solver/metadata.py:67-74 prediction_region_as_str *)
Definition prediction_region_as_str (g : rect) : string :=
  "region-" ++ str_int (x1 g) ++ "-" ++ str_int (x2 g) ++ "-" ++ str_int (y1 g) ++ "-" ++ str_int (y2 g).

(** solver/metadata.py:23-30 csv_dir *)
Definition csv_dir (m : smeta) (home : string) (g : rect) : string :=
  path_join (solver_output_dir m home) (prediction_region_as_str g).

(** solver/metadata.py:32-40 and 111-130 csv_filename *)
Definition csv_filename (m : smeta) (name_prefix : string) (g : rect) (forecast_len : Z) : string :=
  match sm_kind m with
  | SClustering c _ =>
      let forecast_len_str := if (0 <? forecast_len)%Z then str_int forecast_len else "_is" in
      name_prefix ++ "-" ++ c_repr c ++ "__" ++ prediction_region_as_str g ++ "__tp" ++ str_int (sm_test_len m) ++
      "__tf" ++ forecast_len_str ++ "__" ++ sm_error m ++ ".csv"
  | _ =>
      name_prefix ++ "__" ++ prediction_region_as_str g ++ "__tp" ++ str_int (sm_test_len m) ++
      "__tf" ++ str_int forecast_len ++ "__" ++ sm_error m ++ ".csv"
  end.

(** solver/result.py:196-202, 220-225: the path of a CSV file *)
Definition csv_path (m : smeta) (home name_prefix : string) (g : rect) (forecast_len : Z) : string :=
  path_join (csv_dir m home g) (csv_filename m name_prefix g forecast_len).

(** solver/metadata.py:45-65 trained_model_region_filename *)
Definition trained_model_region_filename (m : smeta) (name_prefix : string) (with_test_samples : bool) : string :=
  let test_len_str := if with_test_samples then "tp" ++ str_int (sm_test_len m) else "whole" in
  name_prefix ++ "__" ++ params_repr (sm_params m) ++ "__" ++ test_len_str ++ ".pkl".

(** solver/metadata.py:139-142 MetadataWithClustering.__repr__ (the other kinds: not used as keys) *)
Definition clustering_solver_repr (m : smeta) (c : cmeta) (dist_repr : string) : string :=
  rmeta_repr (sm_region m) ++ "__" ++ c_repr c ++ "__" ++ dist_repr ++ "__" ++ params_repr (sm_params m) ++ "__" ++ sm_error m.

(** What SolverPickler (solver/model.py:242-253) is created for: metadata with clustering *)
Record skey := SKey { k_region : rmeta; k_clustering : cmeta; k_dist : string; k_params : mparams; k_test_len : Z; k_error : string }.
Definition meta_of (k : skey) : smeta :=
  SMeta (k_region k) (k_params k) (k_test_len k) (k_error k) (SClustering (k_clustering k) (k_dist k)).

(** solver/metadata.py:132-133 pickle_dir *)
Definition solver_pickle_dir (k : skey) : string := clustering_pickle_dir (k_clustering k) (k_region k) (k_dist k) "pickle".
(** solver/model.py:360-367 *)
Definition model_training_pickle_path (k : skey) : string :=
  path_join (solver_pickle_dir k) (trained_model_region_filename (meta_of k) "models-at-medoids" true).
(** solver/model.py:369-378 *)
Definition model_whole_pickle_path (k : skey) : string :=
  path_join (solver_pickle_dir k) (trained_model_region_filename (meta_of k) "models-at-medoids" false).
(** solver/model.py:380-390 *)
Definition generalization_errors_pickle_path (k : skey) : string :=
  path_join (solver_pickle_dir k)
    ("errors__" ++ params_repr (k_params k) ++ "__tp" ++ str_int (k_test_len k) ++ "__" ++ k_error k ++ ".pkl").
(** clustering/__init__.py:250-259 *)
Definition partition_pickle_path (k : skey) : string := pickle_full_path (k_clustering k) (k_region k) (k_dist k).

(* ------------------------------------------------------------------ the file system *)

(** a partition object with its attribute [medoids] (None: not set) *)
Definition part : Type := (crisp * option (list point))%type.

Section Files.
Context {M : Type}.

Inductive file := FPartition (p : part) | FModels (models : arr2 (cell M)) | FErrors (errors : sregion fnum) | FCorrupt.
Definition fsys := string -> option file.

(** open(path, 'wb') and pickle.dump *)
Definition fs_put (fs : fsys) (path : string) (f : file) : fsys := fun q => if (q =? path)%string then Some f else fs q.
(** os.remove(path) *)
Definition fs_remove (fs : fsys) (path : string) : fsys := fun q => if (q =? path)%string then None else fs q.

(** open(path, 'rb') and pickle.load.  A pickled object of another class than expected (impossible under these paths,
    see C79_files_are_distinct) would be returned by Python and fail later; here it is a TypeError. *)
Definition load_file {T} (fs : fsys) (path : string) (expect : file -> option T) : res T :=
  match fs path with
  | None => Raise IOError
  | Some FCorrupt => Raise UnpicklingError
  | Some f => match expect f with Some v => Ok v | None => Raise TypeError end
  end.
Definition as_partition (f : file) : option part := match f with FPartition p => Some p | _ => None end.
Definition as_models (f : file) : option (arr2 (cell M)) := match f with FModels m => Some m | _ => None end.
Definition as_errors (f : file) : option (sregion fnum) := match f with FErrors e => Some e | _ => None end.

(* ------------------------------------------------------------------ partitions *)

(** clustering/__init__.py:236-248 load_previous_partition, region/partition.py:214-226 try_from_pickle *)
Definition load_previous_partition (fs : fsys) (c : cmeta) (dist_repr : string) (r : rmeta) (pickle_home : string) : res part :=
  load_file fs (pickle_full_path c r dist_repr) as_partition.

(** clustering/__init__.py:218-234 try_load_previous_partition: any Exception gives None *)
Definition try_load_previous_partition (fs : fsys) (c : cmeta) (dist_repr : string) (r : rmeta) (pickle_home : string)
  : option part :=
  match load_previous_partition fs c dist_repr r pickle_home with Ok p => Some p | Raise _ => None end.

(** clustering/__init__.py:208-216 save_partition, region/partition.py:200-212 to_pickle; without region metadata
    [region_metadata.pickle_dir] fails *)
Definition save_partition (fs : fsys) (c : cmeta) (dist_repr : string) (r : option rmeta) (p : part) (pickle_home : string)
  : res fsys :=
  match r with
  | None => Raise AttributeError
  | Some r => Ok (fs_put fs (pickle_full_path c r dist_repr) (FPartition p))
  end.

(** clustering/__init__.py:83-126 partition, for a region whose region_metadata is [r]; [impl] is
    partition_impl(spt_region, with_medoids), with the distance matrix loaded before it.  Returns the file system
    after the call, and the partition with a flag telling whether [impl] was called.  (save_csv_at: see
    [clustering_report].) *)
Definition partition_call (fs : fsys) (c : cmeta) (dist_repr : string) (r : option rmeta) (impl : bool -> res part)
           (with_medoids : bool) (pickle_home : option string) : fsys * res (part * bool) :=
  let loaded :=
    match pickle_home, r with
    | Some home, Some r => try_load_previous_partition fs c dist_repr r home
    | _, _ => None
    end in
  match loaded with
  | Some p => (fs, Ok (p, false))
  | None =>
      match impl with_medoids with
      | Raise e => (fs, Raise e)
      | Ok p =>
          match pickle_home with
          | None => (fs, Ok (p, true))
          | Some home =>
              match save_partition fs c dist_repr r p home with
              | Raise e => (fs, Raise e)
              | Ok fs' => (fs', Ok (p, true))
              end
          end
      end
  end.

(* ------------------------------------------------------------------ solvers *)

(** solver/model.py:255-287 save_solver: the three files, in this order *)
Definition save_solver (fs : fsys) (k : skey) (s : solver M) : fsys :=
  let fs := fs_put fs (model_training_pickle_path k) (FModels (so_training s)) in
  let fs := fs_put fs (model_whole_pickle_path k) (FModels (so_whole s)) in
  fs_put fs (generalization_errors_pickle_path k) (FErrors (so_errors s)).

(** the process ends after [n] of the three files have been written (a file itself is written completely or not at
    all) *)
Definition save_solver_crash (fs : fsys) (k : skey) (s : solver M) (n : nat) : fsys :=
  let fs1 := fs_put fs (model_training_pickle_path k) (FModels (so_training s)) in
  let fs2 := fs_put fs1 (model_whole_pickle_path k) (FModels (so_whole s)) in
  match n with 0 => fs | 1 => fs1 | 2 => fs2 | _ => save_solver fs k s end.

(** solver/model.py:323-350 load_partition; [impl] computes the partition of region_metadata.create_instance() *)
Definition load_partition (fs : fsys) (k : skey) (impl : bool -> res part) : fsys * res part :=
  match try_load_previous_partition fs (k_clustering k) (k_dist k) (k_region k) "pickle" with
  | Some p => (fs, Ok p)
  | None =>
      match partition_call fs (k_clustering k) (k_dist k) (Some (k_region k)) impl true (Some "pickle") with
      | (fs', Ok (p, _)) => (fs', Ok p)
      | (fs', Raise e) => (fs', Raise e)
      end
  end.

(** solver/model.py:289-321 load_solver; the solver uses the medoids of the partition only in prediction summaries:
    a partition without medoids is kept as it is ([None]) *)
Record loaded_solver := LSolver { ls_partition : part; ls_training : arr2 (cell M); ls_whole : arr2 (cell M);
                                  ls_errors : sregion fnum }.
Definition load_solver (fs : fsys) (k : skey) (impl : bool -> res part) : fsys * res loaded_solver :=
  let '(fs', p) := load_partition fs k impl in
  (fs', p <- p ;;
        training <- load_file fs' (model_training_pickle_path k) as_models ;;
        whole <- load_file fs' (model_whole_pickle_path k) as_models ;;
        errors <- load_file fs' (generalization_errors_pickle_path k) as_errors ;;
        Ok (LSolver p training whole errors)).

End Files.
Arguments file M : clear implicits.
Arguments fsys M : clear implicits.
Arguments loaded_solver M : clear implicits.

(* ------------------------------------------------------------------ the clustering report *)

(** clustering/__init__.py:169-206 save_to_csv: header and rows of [str(i)], [str(points)], coverage (formatted with
    '{:.1f}' by the caller [fmt]).  [points * 100.0 / 0] is a ZeroDivisionError: Python floats. *)
Definition report_row (p : crisp) (i : Z) : res (Z * Z * Q) :=
  let total := (Z.of_nat (a2x (labels p)) * Z.of_nat (a2y (labels p)))%Z in
  let points := Z.of_nat (cluster_len p i) in
  if (total =? 0)%Z then Raise ZeroDivisionError
  else Ok (i, points, (inject_Z points * 100 / inject_Z total)%Q).
Definition clustering_report_rows (k : Z) (p : crisp) : res (list (Z * Z * Q)) := mapM (report_row p) (zrange 0 k).
Definition clustering_report (fmt : Q -> string) (k : Z) (p : crisp) : res (list string) :=
  rows <- clustering_report_rows k p ;;
  Ok (csv_line ["cluster"; "points"; "coverage"] ::
      map (fun '(i, n, v) => csv_line [str_int i; str_int n; fmt v]) rows).
