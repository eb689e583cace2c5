(** Vocabulary for the files of solvers and partitions, stated without the path functions. *)
From Verif Require Import Base.Py Base.Arr Base.Str Base.Float Model.Region Model.Clustering Model.Models Model.Solver Model.SolverFiles.

(** the mode and initial medoids of k-medoids metadata *)
Definition mode_name (c : cmeta) : string := match c with CRegular _ => ""%string | CKmedoids m => km_mode m end.

(** the same clustering, up to iteration bound, tolerance and verbosity *)
Definition same_clustering (c c' : cmeta) : Prop :=
  match c, c' with
  | CRegular k, CRegular k' => k = k'
  | CKmedoids m, CKmedoids m' => km_k m = km_k m' /\ km_seed m = km_seed m' /\ km_mode m = km_mode m' /\ km_init m = km_init m'
  | _, _ => False
  end.

(** the same region, up to its coordinates and dataset directory *)
Definition same_region (r r' : rmeta) : Prop :=
  rm_name r = rm_name r' /\ rm_start r = rm_start r' /\ rm_end r = rm_end r' /\ rm_spd r = rm_spd r' /\ rm_scaled r = rm_scaled r'.

(** the same model parameters, up to the distance measure of k-NN *)
Definition same_params (p p' : mparams) : Prop :=
  match p, p' with PKnn k _, PKnn k' _ => k = k' | _, _ => p = p' end.

(** names that a path can hold: no '/' anywhere, and no '_' in the mode *)
Definition clean_clustering (c : cmeta) : Prop := has_char "/" (mode_name c) = false /\ has_char "_" (mode_name c) = false.
Definition clean_place (c : cmeta) (r : rmeta) (d : string) : Prop :=
  clean_clustering c /\ has_char "/" (rm_name r) = false /\ has_char "/" d = false /\ d <> ""%string.
Definition clean_key (k : skey) : Prop := clean_place (k_clustering k) (k_region k) (k_dist k) /\ has_char "/" (k_error k) = false.

(** the solvers of two keys differ at most in the number of test samples and the error type *)
Definition same_models (k k' : skey) : Prop :=
  same_region (k_region k) (k_region k') /\ k_dist k = k_dist k' /\ same_clustering (k_clustering k) (k_clustering k') /\
  same_params (k_params k) (k_params k').

(** [last_with P h x]: x is the last element of the history h that satisfies P *)
Definition last_with {A} (P : A -> Prop) (h : list A) (x : A) : Prop :=
  exists before after, h = before ++ x :: after /\ P x /\ Forall (fun y => ~ P y) after.

(** What may happen on the file system between two calls *)
Inductive op (M : Type) :=
| OSave (k : skey) (s : solver M)                                   (* save_solver *)
| OSaveCrash (k : skey) (s : solver M) (n : nat)                    (* save_solver that stops after n files *)
| OPartition (c : cmeta) (d : string) (r : option rmeta) (impl : bool -> res part) (with_medoids : bool) (home : option string)
| OLoad (k : skey) (impl : bool -> res part)                        (* load_solver *)
| ORemove (path : string)                                           (* somebody deletes a file *)
| OCorrupt (path : string).                                         (* a file gets damaged *)
Arguments OSave {M}. Arguments OSaveCrash {M}. Arguments OPartition {M}. Arguments OLoad {M}. Arguments ORemove {M}. Arguments OCorrupt {M}.
Definition exec {M} (fs : fsys M) (o : op M) : fsys M :=
  match o with
  | OSave k s => save_solver fs k s
  | OSaveCrash k s n => save_solver_crash fs k s n
  | OPartition c d r impl wm home => fst (partition_call fs c d r impl wm home)
  | OLoad k impl => fst (load_solver fs k impl)
  | ORemove path => fs_remove fs path
  | OCorrupt path => fs_put fs path FCorrupt
  end.
Definition exec_all {M} (fs : fsys M) (ops : list (op M)) : fsys M := fold_left exec ops fs.

(** the operation is about clean names, and does not remove or damage the file at [path] *)
Definition harmless {M} (path : string) (o : op M) : Prop :=
  match o with
  | OSave k _ | OSaveCrash k _ _ | OLoad k _ => clean_key k
  | OPartition c d r _ _ _ => match r with Some r => clean_place c r d | None => True end
  | ORemove q | OCorrupt q => q <> path
  end.

(** the operation is a save, with or without a crash, of a key satisfying [P] *)
Definition saves {M} (P : skey -> Prop) (o : op M) : Prop :=
  match o with OSave k _ | OSaveCrash k _ _ => P k | _ => False end.

(** the name prefixes of CSV files in use (result.py:218, 360 and 223) *)
Definition known_prefix (p : string) : Prop := In p ["query-result"; "query-result-future"; "query-summary"]%string.
