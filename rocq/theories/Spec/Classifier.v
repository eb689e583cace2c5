(** Vocabulary for predictions with a classifier. *)
From Coq Require Import String.
From Verif Require Import Base.Py Base.Arr Base.Str Base.Float Model.Region Model.Clustering Model.Models Model.Solver Model.SolverFiles Model.Classifier
  Spec.Grid Spec.Partition Spec.Solver.
Local Notation length := List.length.

(** the solver trained with k-medoids for [k] clusters and [seed], mode lite *)
Definition key_of (cfg : cconfig) (k seed : Z) : skey :=
  SKey (cc_region cfg) (CKmedoids (kmeta_default k seed "lite")) (cc_dist cfg) (cc_params cfg) (Z.of_nat (cc_test_len cfg)) (cc_error cfg).

(** the files hold this solver: its partition with medoids, both sets of models, and errors *)
Definition stored {M} (fs : fsys M) (key : skey) (s : solver M) : Prop :=
  fs (partition_pickle_path key) = Some (FPartition (so_partition s, Some (so_medoids s))) /\
  fs (model_training_pickle_path key) = Some (FModels (so_training s)) /\
  fs (model_whole_pickle_path key) = Some (FModels (so_whole s)) /\
  fs (generalization_errors_pickle_path key) = Some (FErrors (so_errors s)).

(** the solver was trained on the region, with any algorithm that gives a partition with medoids and any refitter *)
Definition trained_on {P M} (kind : model_kind P M) (mp : P) (d : arr3 fnum) sc (tl : nat) (et : string) (s : solver M) : Prop :=
  exists refit cluster p medoids, cluster (qregion d sc) = Ok (p, medoids) /\
    valid_partition p (a3x d) (a3y d) /\ medoids_of p (a3x d) (a3y d) medoids /\
    solver_train kind (full2 (a3x d) (a3y d) (Some mp)) refit cluster (qregion d sc) (Z.of_nat tl) et = Ok s.

(** a query: prediction region, number of past samples, out-of-sample region *)
Definition query : Type := (rect * Z * option (res (stregion fnum)))%type.
(** the region whose series are shown to the classifier: chosen by the first query to the object *)
Definition target_region (own : stregion fnum) (history : list query) (out_of_sample : option (res (stregion fnum))) : res (stregion fnum) :=
  match (match history with [] => out_of_sample | (_, _, o) :: _ => o end) with None => Ok own | Some r => r end.
(** the object after a history of queries, whatever became of each of them *)
Definition after {P M} (kind : model_kind P M) junk cfg classify create_instance impl (history : list query) (st : cstate M) : cstate M :=
  fold_left (fun st '(g, tp, o) => fst (classifier_predict kind junk cfg classify create_instance impl g tp o st)) history st.
(** things that happen to the object and its files: queries, and files that change in any way *)
Inductive event (M : Type) := Queried (q : query) | FilesChanged (fs : fsys M).
Arguments Queried {M} q. Arguments FilesChanged {M} fs.
Definition happen {P M} (kind : model_kind P M) junk cfg classify create_instance impl (events : list (event M)) (st : cstate M) : cstate M :=
  fold_left (fun st e =>
    match e with
    | Queried (g, tp, o) => fst (classifier_predict kind junk cfg classify create_instance impl g tp o st)
    | FilesChanged fs => CState fs (cs_classifier st) (cs_region st) (cs_target st) (cs_solvers st)
    end) events st.
