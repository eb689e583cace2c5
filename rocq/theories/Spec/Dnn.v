(** Vocabulary for the program that uses the neural network. *)
From Coq Require Import String.
From Verif Require Import Base.Py Base.Arr Base.Str Base.Float Model.Region Model.Models Model.Clustering Model.Solver Model.SolverFiles
  Model.Programs Spec.Grid Spec.Partition Spec.SolverFiles Spec.Solver Spec.Programs.
Local Open Scope string_scope.

(** These files come from a successful training with program [pg] and options [a], followed by any runs of programs that
    keep what was trained; the partition that the training used was a partition with medoids. *)
Definition trained_before {M} create_instance load_distances (partition_impl : rmeta -> cmeta -> stregion fnum -> bool -> res part)
           dtw sqrt format_float show_series (pg : program M) (a : solver_args) (d : arr3 fnum) (sc : option (arr2 fnum * arr2 fnum)) (fs : fsys M) : Prop :=
  exists fs0 fs1 history, train_request create_instance load_distances partition_impl fs0 pg a = (fs1, Ok tt) /\
    Forall (keeps pg a) history /\
    fs = fold_left (run create_instance load_distances partition_impl dtw sqrt format_float show_series) history fs1 /\
    forall r c p ms, metadata_from_args a = Ok (r, c) -> from_clustering partition_impl fs0 r c (qregion d sc) p ms ->
      valid_partition p (a3x d) (a3y d) /\ medoids_of p (a3x d) (a3y d) ms.
