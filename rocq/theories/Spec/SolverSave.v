(** A solver stored in the file system, and what a reader may find in its place. *)
From Verif Require Import Base.Py Base.Arr Base.Str Base.Float Model.Region Model.Clustering Model.Models Model.Solver Model.SolverFiles.

(** the four files of the solver hold [p], and the models and errors of [s] *)
Definition holds {M} (fs : fsys M) (k : skey) (p : part) (s : solver M) : Prop :=
  fs (partition_pickle_path k) = Some (FPartition p) /\ fs (model_training_pickle_path k) = Some (FModels (so_training s)) /\
  fs (model_whole_pickle_path k) = Some (FModels (so_whole s)) /\ fs (generalization_errors_pickle_path k) = Some (FErrors (so_errors s)).

(** the loaded solver with the training models of [a], the whole models of [b] and the errors of [c] *)
Definition mixed {M} (p : part) (a b c : solver M) : loaded_solver M := LSolver p (so_training a) (so_whole b) (so_errors c).
