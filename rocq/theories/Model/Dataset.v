(** The dataset and its cache files: spta/dataset/temp_brazil.py, and the creation of regions from it,
    spta/region/metadata.py.

    Files are looked up by their path; two paths are the same file when they are the same string, and the directory
    raw/ exists.  np.save followed by np.load gives the same array.  Logging is left out, except for the mistake in
    l.101 (['...'.dataset_filename] raises AttributeError), which the handler of l.103 swallows. *)
From Coq Require Import String.
From Verif Require Import Base.Py Base.Arr Base.Str Base.Float Model.Region Model.Scaling Model.Series Model.Clustering.
Local Open Scope string_scope.

(** the raw HDF5 dataset (its field "real"), a numpy file, or a file that neither library can read, e.g. after a
    crash while writing *)
Inductive dfile := Hdf5 (real : arr3 fnum) | Npy (a : arr3 fnum) | Unreadable.
Definition dfs := string -> option dfile.
Definition dfs_put (fs : dfs) (path : string) (f : option dfile) : dfs := fun q => if String.eqb q path then f else fs q.

(** temp_brazil.py:12-19 *)
Definition RAW_DATASET : string := "raw/TEMPERATURE_1979-2015.hdf".
Definition DATASET_NAME : string := "SouthAmerica".
Definition DATASET_YEAR_START : Z := 1979.
Definition DATASET_YEAR_END : Z := 2015.
Definition DATASET_SAMPLES_PER_DAY : Z := 4.
Definition FORMAT_BY_YEAR (name : string) (year_start year_end spd : Z) : string :=
  "raw/" ++ name ++ "_" ++ str_int year_start ++ "_" ++ str_int year_end ++ "_" ++ str_int spd ++ "spd.npy".

(** temp_brazil.py:22-42 read_hdf5_dataset; h5py raises OSError for a file of another kind *)
Definition read_hdf5_dataset (fs : dfs) (series_start series_end : Z) (dataset_source : string) : res (arr3 fnum) :=
  match fs dataset_source with
  | None => Raise ValueError
  | Some (Hdf5 real) => Ok (slice3 real (Some (series_start, series_end)) None None)
  | Some _ => Raise IOError
  end.

(** temp_brazil.py:45-60 read_hdf5_dataset_by_year *)
Definition read_hdf5_dataset_by_year (fs : dfs) (year_start year_end : Z) (dataset_source : string) : res (arr3 fnum) :=
  if ((year_end <? year_start) || (year_start <? DATASET_YEAR_START) || (DATASET_YEAR_END <? year_end))%Z%bool then Raise ValueError
  else
    '(series_start, series_end) <- years_to_series_interval year_start year_end DATASET_YEAR_START DATASET_SAMPLES_PER_DAY ;;
    read_hdf5_dataset fs series_start series_end dataset_source.

(** temp_brazil.py:88-107 try_load_dataset_interval: None if the file is missing or cannot be loaded *)
Definition try_load_dataset_interval (fs : dfs) (name : string) (year_start year_end spd : Z) : option (arr3 fnum) :=
  match fs (FORMAT_BY_YEAR name year_start year_end spd) with
  | Some (Npy a) => Some a
  | _ => None
  end.

(** temp_brazil.py:63-85 save_dataset_interval *)
Definition save_dataset_interval (fs : dfs) (a : arr3 fnum) (name : string) (year_start year_end spd : Z) : dfs :=
  dfs_put fs (FORMAT_BY_YEAR name year_start year_end spd) (Some (Npy a)).

(** temp_brazil.py:110-141 retrieve_dataset_interval; [garbage] is the content of np.empty in the averaging *)
Definition retrieve_dataset_interval (garbage : fnum) (fs : dfs) (year_start year_end spd : Z) (name : string)
  : dfs * res (arr3 fnum) :=
  if negb ((spd =? 1) || (spd =? 4))%Z%bool then (fs, Raise AssertionError)
  else
    match try_load_dataset_interval fs name year_start year_end spd with
    | Some a => (fs, Ok a)
    | None =>
        match (dataset_interval_4spd <- read_hdf5_dataset_by_year fs year_start year_end RAW_DATASET ;;
               if (spd =? 1)%Z then average_4spd_to_1spd garbage dataset_interval_4spd else Ok dataset_interval_4spd) with
        | Raise e => (fs, Raise e)
        | Ok a => (save_dataset_interval fs a name year_start year_end spd, Ok a)
        end
    end.

(** region/metadata.py:137-166 create_instance (the attribute region_metadata is left out) *)
Definition create_instance (garbage : fnum) (fs : dfs) (m : rmeta) : dfs * res (stregion fnum) :=
  if negb ((rm_spd m =? 1) || (rm_spd m =? 4))%Z%bool then (fs, Raise AssertionError)
  else
    let '(fs, numpy_dataset) := retrieve_dataset_interval garbage fs (rm_start m) (rm_end m) (rm_spd m) DATASET_NAME in
    (fs, numpy_dataset <- numpy_dataset ;;
         spt_region <- t_region_subset (TPlain numpy_dataset) (rm_region m) ;;
         if rm_scaled m then scale_apply_to (t_x spt_region) (t_y spt_region) spt_region (t_len spt_region)
         else Ok spt_region).
