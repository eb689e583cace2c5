(** Several processes that want the same partition at the same time: ClusteringAlgorithm.partition with a pickle home, as the
    steps that other processes can come between. *)
From Verif Require Import Base.Py Base.Arr Base.Str Base.Float Model.Region Model.Clustering Model.Models Model.Solver Model.SolverFiles.

Section Race.
Context {M : Type}.
Context (c : cmeta) (dist_repr : string) (r : rmeta) (impl : bool -> res part) (with_medoids : bool).

(** where a process is: before it looks for the saved partition, with the partition it computed, with the file open for
    writing (and emptied), or at the end with what the call gives *)
Inductive pstate := Looking | Computed (p : part) | Writing (p : part) | Finished (result : res part).

(** clustering/__init__.py:83-126 partition, l.208-216 save_partition and region/partition.py:200-212 to_pickle, one step.
    open(path, 'wb') leaves a file that pickle.load refuses until all of it is written; the state between is one state.
    Computing is one step with looking: nobody else can see it. *)
Definition pstep (fs : fsys M) (s : pstate) : fsys M * pstate :=
  match s with
  | Looking =>
      match try_load_previous_partition fs c dist_repr r "pickle" with
      | Some p => (fs, Finished (Ok p))
      | None => (fs, match impl with_medoids with Ok p => Computed p | Raise e => Finished (Raise e) end)
      end
  | Computed p => (fs_put fs (pickle_full_path c r dist_repr) FCorrupt, Writing p)
  | Writing p => (fs_put fs (pickle_full_path c r dist_repr) (FPartition p), Finished (Ok p))
  | Finished result => (fs, Finished result)
  end.

(** the [i]-th process makes a step (nothing happens if there is no such process) *)
Fixpoint step_of (fs : fsys M) (i : nat) (processes : list pstate) : fsys M * list pstate :=
  match processes, i with
  | [], _ => (fs, [])
  | s :: ss, O => let '(fs', s') := pstep fs s in (fs', s' :: ss)
  | s :: ss, S i' => let '(fs', ss') := step_of fs i' ss in (fs', s :: ss')
  end.

(** the processes make the steps of the schedule *)
Definition run_schedule (schedule : list nat) (fs : fsys M) (processes : list pstate) : fsys M * list pstate :=
  fold_left (fun '(fs, ps) i => step_of fs i ps) schedule (fs, processes).
End Race.
