(** What the dataset of an interval of years is, and histories of requests. *)
From Coq Require Import String.
From Verif Require Import Base.Py Base.Arr Base.Float Model.Region Model.Dataset Spec.Grid Spec.Calendar.
Local Notation length := List.length.

(** the years of the raw dataset; its samples, four per day *)
Definition valid_years (a b : Z) : Prop := (1979 <= a /\ a <= b /\ b <= 2015)%Z.
Definition raw_dataset (raw : arr3 fnum) : Prop := wf3 raw /\ a3t raw = 4 * Z.to_nat (days_in_years 1979 37).

(** [d] is the dataset of the years [a] to [b] with [spd] samples per day: at each point it has the samples of these
    years, all of them or the mean of the four samples of each day *)
Definition interval_of (raw : arr3 fnum) (a b spd : Z) (d : arr3 fnum) : Prop :=
  let before := Z.to_nat (days_in_years 1979 (Z.to_nat (a - 1979))) in
  let days := Z.to_nat (days_in_years a (Z.to_nat (b + 1 - a))) in
  wf3 d /\ a3t d = Z.to_nat spd * days /\ a3x d = a3x raw /\ a3y d = a3y raw /\
  forall pt, in_grid (a3x raw) (a3y raw) pt ->
    exists s s', series3 raw (fst pt) (snd pt) = Ok s /\ series3 d (fst pt) (snd pt) = Ok s' /\
      (spd = 4%Z -> s' = firstn (4 * days) (skipn (4 * before) s)) /\
      (spd = 1%Z -> length s' = days /\ forall k, k < days -> nth_error s' k = Some (fmean (firstn 4 (skipn (4 * (before + k)) s)))).

(** What may happen to the files: requests, requests interrupted while the cache file is written, cache files deleted
    or damaged, and anything done to files that are neither the dataset nor cache files. *)
Inductive dop :=
| DRequest (garbage : fnum) (a b spd : Z) (name : string)
| DCrash (garbage : fnum) (a b spd : Z) (name : string)
| DDelete (path : string)
| DDamage (path : string)
| DOther (path : string) (f : option dfile).
Definition dexec (fs : dfs) (o : dop) : dfs :=
  match o with
  | DRequest g a b spd name => fst (retrieve_dataset_interval g fs a b spd name)
  | DCrash g a b spd name =>
      match try_load_dataset_interval fs name a b spd, snd (retrieve_dataset_interval g fs a b spd name) with
      | None, Ok _ => dfs_put fs (FORMAT_BY_YEAR name a b spd) (Some Unreadable)
      | _, _ => fs
      end
  | DDelete p => dfs_put fs p None
  | DDamage p => dfs_put fs p (Some Unreadable)
  | DOther p f => dfs_put fs p f
  end.
Definition dallowed (o : dop) : Prop :=
  match o with
  | DRequest _ _ _ _ _ | DCrash _ _ _ _ _ => True
  | DDelete p | DDamage p => p <> RAW_DATASET
  | DOther p _ => p <> RAW_DATASET /\ forall name a b spd, p <> FORMAT_BY_YEAR name a b spd
  end.
(** a file system as it is delivered: the dataset, and no cache files *)
Definition delivered (fs : dfs) (raw : arr3 fnum) : Prop :=
  fs RAW_DATASET = Some (Hdf5 raw) /\ forall name a b spd, fs (FORMAT_BY_YEAR name a b spd) = None.
