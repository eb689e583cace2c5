(** Saving a solver as the steps that a crash or another process can come between. *)
From Verif Require Import Base.Py Base.Arr Base.Str Base.Float Model.Region Model.Clustering Model.Models Model.Solver Model.SolverFiles.

Section Save.
Context {M : Type}.

(** solver/model.py:255-287 save_solver: for each of the three files, open(path, 'wb') empties it, which leaves a file that
    pickle.load refuses until pickle.dump has written all of it and the file is closed.  The state between is one state: a
    part of a pickle is refused like an empty file. *)
Definition save_steps (k : skey) (s : solver M) : list (string * file M) :=
  [ (model_training_pickle_path k, FCorrupt); (model_training_pickle_path k, FModels (so_training s));
    (model_whole_pickle_path k, FCorrupt); (model_whole_pickle_path k, FModels (so_whole s));
    (generalization_errors_pickle_path k, FCorrupt); (generalization_errors_pickle_path k, FErrors (so_errors s)) ].

(** solver/model.py:255-287: the file system after the first [n] steps *)
Definition saved_part (fs : fsys M) (k : skey) (s : solver M) (n : nat) : fsys M :=
  fold_left (fun fs step => fs_put fs (fst step) (snd step)) (firstn n (save_steps k s)) fs.

(** solver/model.py:289-321 load_solver while the file system changes: as it is when the partition, the training models,
    the models of the whole region and the errors are read.  (What load_partition may write is its own file.) *)
Definition load_solver_at (fs0 fs1 fs2 fs3 : fsys M) (k : skey) (impl : bool -> res part) : res (loaded_solver M) :=
  p <- snd (load_partition fs0 k impl) ;;
  training <- load_file fs1 (model_training_pickle_path k) as_models ;;
  whole <- load_file fs2 (model_whole_pickle_path k) as_models ;;
  errors <- load_file fs3 (generalization_errors_pickle_path k) as_errors ;;
  Ok (LSolver p training whole errors).
End Save.
