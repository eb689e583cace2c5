(** Property C144: crashes while a saved solver is saved again, and readers at the same time. *)
From Coq Require Import ZifyBool ZifyNat QArith.
From Verif Require Import Base.Py Base.PyFacts Base.Arr Base.ArrFacts Base.Str Base.StrFacts Base.Float Model.Region Model.Scaling Model.Series
  Model.Errors Model.Models Model.Clustering Model.Solver Model.SolverFiles Model.SolverSave Spec.SolverFiles Spec.SolverSave
  Proofs.ClusteringFacts Proofs.NameFacts Proofs.FilesFacts Props.Solver Props.SolverFiles.
Local Close Scope Q_scope.
Local Open Scope nat_scope.
Local Notation length := List.length.

(** All six steps are the save. *)
Theorem C144_all_steps : forall M (fs : fsys M) k s n path, 6 <= n -> saved_part fs k s n path = save_solver fs k s path.
Proof.
  intros M fs k s n path Hn. unfold saved_part. rewrite firstn_all2 by (cbn; lia). unfold save_solver, fs_put. cbn [save_steps fold_left fst snd].
  repeat match goal with |- context [ (?a =? ?b)%string ] => destruct (String.eqb_spec a b) end; try congruence; reflexivity.
Qed.
Print Assumptions C144_all_steps.

(** the three files after [n] steps *)
Lemma part_partition {M} (fs : fsys M) k s n : clean_key k -> saved_part fs k s n (partition_pickle_path k) = fs (partition_pickle_path k).
Proof.
  intros H. assert (P : clean_place (k_clustering k) (k_region k) (k_dist k)) by apply H.
  unfold saved_part, save_steps. do 6 (destruct n as [|n]; [cbn [firstn fold_left fst snd]; rewrite ?put_other by (first [apply partition_training|apply partition_whole|apply partition_errors]; auto); reflexivity|]).
  cbn [firstn fold_left fst snd]. replace (firstn n []) with (@nil (string * file M)) by (destruct n; reflexivity). cbn [fold_left].
  rewrite !put_other by (first [apply partition_training|apply partition_whole|apply partition_errors]; auto). reflexivity.
Qed.
Ltac six n := destruct n as [|[|[|[|[|[|n]]]]]]; cbn [firstn fold_left fst snd Nat.eqb Nat.ltb Nat.leb]; rewrite ?firstn_nil; cbn [fold_left].
Lemma part_training {M} (fs : fsys M) k s old n : clean_key k -> fs (model_training_pickle_path k) = Some (FModels old) ->
  saved_part fs k s n (model_training_pickle_path k) =
  Some (if n =? 0 then FModels old else if n =? 1 then FCorrupt else FModels (so_training s)).
Proof.
  intros H E. unfold saved_part, save_steps.
  six n; rewrite ?(put_other _ (generalization_errors_pickle_path k)) by (apply training_errors; auto);
         rewrite ?(put_other _ (model_whole_pickle_path k)) by (apply training_whole; auto); rewrite ?put_same; auto.
Qed.
Lemma part_whole {M} (fs : fsys M) k s old n : clean_key k -> fs (model_whole_pickle_path k) = Some (FModels old) ->
  saved_part fs k s n (model_whole_pickle_path k) =
  Some (if n <? 3 then FModels old else if n =? 3 then FCorrupt else FModels (so_whole s)).
Proof.
  intros H E. unfold saved_part, save_steps.
  assert (D : model_whole_pickle_path k <> model_training_pickle_path k) by (intros X; symmetry in X; revert X; apply training_whole; auto).
  six n; rewrite ?(put_other _ (generalization_errors_pickle_path k)) by (apply whole_errors; auto); rewrite ?put_same; auto;
         rewrite ?put_other by exact D; auto.
Qed.
Lemma part_errors {M} (fs : fsys M) k s old n : clean_key k -> fs (generalization_errors_pickle_path k) = Some (FErrors old) ->
  saved_part fs k s n (generalization_errors_pickle_path k) =
  Some (if n <? 5 then FErrors old else if n =? 5 then FCorrupt else FErrors (so_errors s)).
Proof.
  intros H E. unfold saved_part, save_steps.
  assert (D : generalization_errors_pickle_path k <> model_training_pickle_path k) by (intros X; symmetry in X; revert X; apply training_errors; auto).
  assert (D' : generalization_errors_pickle_path k <> model_whole_pickle_path k) by (intros X; symmetry in X; revert X; apply whole_errors; auto).
  six n; rewrite ?put_same; auto; rewrite ?(put_other _ (model_whole_pickle_path k)) by exact D'; rewrite ?(put_other _ (model_training_pickle_path k)) by exact D; auto.
Qed.

(** A reader at the same time as a save over a saved solver, whenever it reads its files (n0 to n3 are the steps that the
    save has made by then): it fails with UnpicklingError if it comes upon a file that is being written, and otherwise
    gets, for each of the three files, the old or the new content. *)
Theorem C144_reader_during_save : forall M (fs : fsys M) k p old s n0 n1 n2 n3 impl, clean_key k -> holds fs k p old ->
  n0 <= n1 -> n1 <= n2 -> n2 <= n3 ->
  load_solver_at (saved_part fs k s n0) (saved_part fs k s n1) (saved_part fs k s n2) (saved_part fs k s n3) k impl =
  if (n1 =? 1) || (n2 =? 3) || (n3 =? 5) then Raise UnpicklingError
  else Ok (mixed p (if n1 <? 2 then old else s) (if n2 <? 4 then old else s) (if n3 <? 6 then old else s)).
Proof.
  intros M fs k p old s n0 n1 n2 n3 impl Hk (Hp & Ht & Hw & He) _ _ _. unfold load_solver_at.
  rewrite (load_partition_hit _ _ _ p) by (rewrite part_partition; auto). cbn [snd bind]. unfold load_file.
  rewrite (part_training _ _ _ _ _ Hk Ht), (part_whole _ _ _ _ _ Hk Hw), (part_errors _ _ _ _ _ Hk He).
  destruct (Nat.eqb_spec n1 0), (Nat.eqb_spec n1 1), (Nat.ltb_spec n1 2); try lia; cbn [orb as_models bind]; try reflexivity;
  destruct (Nat.ltb_spec n2 3), (Nat.eqb_spec n2 3), (Nat.ltb_spec n2 4); try lia; cbn [orb as_models bind]; try reflexivity;
  destruct (Nat.ltb_spec n3 5), (Nat.eqb_spec n3 5), (Nat.ltb_spec n3 6); try lia; reflexivity.
Qed.
Print Assumptions C144_reader_during_save.

(** The same for a crash: what load_solver gives when the save stopped after [n] steps. *)
Theorem C144_crash_while_saving_again : forall M (fs : fsys M) k p old s n impl, clean_key k -> holds fs k p old ->
  load_solver (saved_part fs k s n) k impl =
  (saved_part fs k s n,
   match n with
   | 0 => Ok (mixed p old old old)
   | 2 => Ok (mixed p s old old)
   | 4 => Ok (mixed p s s old)
   | 1 | 3 | 5 => Raise UnpicklingError
   | _ => Ok (mixed p s s s)
   end).
Proof.
  intros M fs k p old s n impl Hk Hh. pose proof (C144_reader_during_save M fs k p old s n n n n impl Hk Hh (le_n n) (le_n n) (le_n n)) as R.
  unfold load_solver_at in R. unfold load_solver. destruct Hh as (Hp & _).
  rewrite (load_partition_hit _ _ _ p) in * by (rewrite part_partition; auto). cbn [snd] in R. rewrite R. f_equal.
  do 6 (destruct n as [|n]; [reflexivity|]). reflexivity.
Qed.
Print Assumptions C144_crash_while_saving_again.

(** Saving the same solver again never gives a reader another solver: it gets that solver, or UnpicklingError. *)
Theorem C144_same_solver_again : forall M (fs : fsys M) k p s n0 n1 n2 n3 impl, clean_key k -> holds fs k p s ->
  n0 <= n1 -> n1 <= n2 -> n2 <= n3 ->
  let r := load_solver_at (saved_part fs k s n0) (saved_part fs k s n1) (saved_part fs k s n2) (saved_part fs k s n3) k impl in
  r = Ok (mixed p s s s) \/ r = Raise UnpicklingError.
Proof.
  intros M fs k p s n0 n1 n2 n3 impl Hk Hh H1 H2 H3 r. unfold r. rewrite (C144_reader_during_save M fs k p s) by auto.
  destruct (_ || _ || _); [right; reflexivity|left]. destruct (n1 <? 2), (n2 <? 4), (n3 <? 6); reflexivity.
Qed.
Print Assumptions C144_same_solver_again.

(** One would expect that after a crash the saved solver is the old one, the new one, or refused.  It is not: whenever the
    new solver has other training models and other errors than the old one, a crash between the first and the second file
    leaves a solver that loads, with the new training models and the old errors. *)
Theorem C144_old_or_new_refuted : forall M (fs : fsys M) k p old s impl, clean_key k -> holds fs k p old ->
  so_training s <> so_training old -> so_errors s <> so_errors old ->
  exists n l, snd (load_solver (saved_part fs k s n) k impl) = Ok l /\ l <> mixed p old old old /\ l <> mixed p s s s.
Proof.
  intros M fs k p old s impl Hk Hh Ht He. exists 2, (mixed p s old old). rewrite (C144_crash_while_saving_again M fs k p old) by auto.
  split; [reflexivity|]. split; intros X; injection X; intros; congruence.
Qed.
Print Assumptions C144_old_or_new_refuted.

(** Two solvers of one key, as after training on two versions of the data. *)
Example C144_ex :
  let fs0 : fsys Z := fun q => if (q =? partition_pickle_path (ex_key 1))%string then Some (FPartition (ex_p, Some [(0, 0)%Z])) else None in
  let solver_of (m : Z) := Solver ex_p [(0, 0)%Z] (full2 1 2 (Trained m)) (full2 1 2 (Trained m)) (SPlain (full2 1 2 (Fin (inject_Z m)))) in
  let fs := save_solver fs0 (ex_key 1) (solver_of 3%Z) in
  clean_key (ex_key 1) /\ holds fs (ex_key 1) (ex_p, Some [(0, 0)%Z]) (solver_of 3%Z) /\
  so_training (solver_of 4%Z) <> so_training (solver_of 3%Z) /\ so_errors (solver_of 4%Z) <> so_errors (solver_of 3%Z).
Proof.
  cbv zeta. split; [repeat split; discriminate|]. split; [split; [|split; [|split]]; vm_compute; reflexivity|]. split; vm_compute; discriminate.
Qed.
