(** experiments/region/distance.py: the program that computes the distance matrix of a predefined region, in one process or in
    parallel, writes it to the file from which the other programs load it, and draws two pictures.

    The dataset and its cache are the files of Model/Dataset.v; the distance files are kept in a map of their own, because no
    dataset or cache file of this program has the name of a distance file.  Logging is left out. *)
From Coq Require Import String.
From Verif Require Import Base.Py Base.Arr Base.Str Base.Float Model.Region Model.Pool Model.Distance Model.Clustering Model.Dataset Model.Plots
  Model.Algorithms Model.Programs.
Local Open Scope string_scope.
Local Notation length := List.length.

(** the files of the dataset, and the matrices saved with np.save *)
Record dworld := DWorld { dw_data : dfs; dw_mats : string -> option mat }.

(** np.save(path, M) and np.load(path) of matrices *)
Definition save_mat (mats : string -> option mat) (path : string) (M : mat) : string -> option mat :=
  fun q => if (q =? path)%string then Some M else mats q.
Definition load_mat (mats : string -> option mat) (path : string) : res mat :=
  match mats path with Some M => Ok M | None => Raise IOError end.
(** what a distance measure depends on, with these files (see [denv]) *)
Definition env_with (measure : list fnum -> list fnum -> fnum) (norm : Z -> Z -> fnum) (junk : fnum) (mats : string -> option mat) : denv :=
  DEnv (load_mat mats) measure norm junk.

(** experiments/region/distance.py:56-58: the number of workers; None and the empty string are falsy *)
Definition parallel_workers (parallel : option string) : res Z :=
  match parallel with
  | None => Ok 0%Z
  | Some s => if (s =? "")%string then Ok 0%Z else py_int s
  end.

Section Program.
Context {color : Type}.
(** the distance measure, np.empty's content, the final state of a pool with that many processes working on the region *)
Context (measure : list fnum -> list fnum -> fnum) (junk garbage : fnum) (pool : nat -> stregion fnum -> pstate nat).

(** experiments/region/distance.py:60-68: zero workers are falsy; multiprocessing.Pool refuses a negative number *)
Definition distances_of (workers : Z) (spt : stregion fnum) : res mat :=
  if (workers =? 0)%Z then matrix_of_region measure junk spt
  else if (workers <? 0)%Z then Raise ValueError
  else matrix_parallel spt (pool (Z.to_nat workers) spt).

(** experiments/region/distance.py:99, 112: the files of the pictures *)
Definition picture_files (r : rmeta) : list string :=
  ["plots/distances_0_0_" ++ rm_name r ++ ".eps"; "plots/distances_center_" ++ rm_name r ++ ".eps"].

(** experiments/region/distance.py:45-76 calculate_distances_with_args with args.distance = 'dtw': the pictures are the result *)
Definition calculate_distances (w : dworld) (region : string) (parallel : option string) (plots : bool)
  : dworld * res (list (string * list (@plot_call color))) :=
  match region_by_name region with
  | Raise e => (w, Raise e)
  | Ok r =>
      match create_instance garbage (dw_data w) r with
      | (fs, Raise e) => (DWorld fs (dw_mats w), Raise e)
      | (fs, Ok spt) =>
          match (n <- parallel_workers parallel ;; distances_of n spt) with
          | Raise e => (DWorld fs (dw_mats w), Raise e)
          | Ok M =>
              (DWorld fs (save_mat (dw_mats w) (distances_filename r) M),
               if plots then pictures <- show_distances (t_x spt) (t_y spt) (arr2_of_mat M) ;; Ok (combine (picture_files r) pictures)
               else Ok [])
          end
      end
  end.
End Program.
