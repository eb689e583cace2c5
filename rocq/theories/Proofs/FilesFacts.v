(** Facts about the files of solvers and partitions. *)
From Coq Require Import ZifyBool ZifyNat.
From Verif Require Import Base.Py Base.PyFacts Base.Arr Base.Str Base.StrFacts Base.Float Model.Region Model.Clustering Model.Models Model.Solver
  Model.SolverFiles Spec.SolverFiles Proofs.ClusteringFacts Props.Clustering Proofs.NameFacts.
Local Notation length := List.length.
Local Open Scope string_scope.

Lemma pickle_path c r d f : clean_place c r d -> has_char "/" f = false -> f <> "" ->
  path_join (clustering_pickle_dir c r d "pickle") f = "" ++ join "/" ["pickle"; rmeta_repr r; d; c_repr c; f].
Proof.
  intros ((Cs & _) & Rs & Ds & Dn) Fs Fn. rewrite mode_names in Cs.
  pose proof (c_repr_no_slash c Cs). pose proof (c_repr_nonempty c). pose proof (rmeta_repr_no_slash r Rs). pose proof (rmeta_repr_nonempty r).
  unfold clustering_pickle_dir, clustering_subdir, region_pickle_dir.
  rewrite (path_join_plain "pickle" (rmeta_repr r)) by (auto using no_slash_start; discriminate).
  change ("pickle" ++ "/" ++ rmeta_repr r) with ("" ++ join "/" ["pickle"; rmeta_repr r]).
  rewrite (path_join_names2 "" ["pickle"; rmeta_repr r] d (c_repr c)); auto; [|discriminate|].
  - rewrite path_join_names; auto; [discriminate|].
    intros s [<-|[<-|[<-|[<-|[]]]]]; auto. split; [reflexivity|discriminate].
  - intros s [<-|[<-|[]]]; auto. split; [reflexivity|discriminate].
Qed.

Lemma pickle_path_inj c r d f c' r' d' f' : clean_place c r d -> clean_place c' r' d' ->
  has_char "/" f = false -> f <> "" -> has_char "/" f' = false -> f' <> "" ->
  path_join (clustering_pickle_dir c r d "pickle") f = path_join (clustering_pickle_dir c' r' d' "pickle") f' ->
  same_region r r' /\ d = d' /\ same_clustering c c' /\ f = f'.
Proof.
  intros H H' Fs Fn Fs' Fn'. rewrite !pickle_path by auto. intros E.
  destruct H as ((Cs & Cu) & Rs & Ds & Dn), H' as ((Cs' & Cu') & Rs' & Ds' & Dn').
  apply names_inj in E; try discriminate.
  - injection E as E1 E2 E3 E4. split; [apply rmeta_repr_inj; auto|]. split; auto. split; auto. apply c_repr_same; auto.
  - intros s [<-|[<-|[<-|[<-|[<-|[]]]]]]; auto using rmeta_repr_no_slash, c_repr_no_slash.
  - intros s [<-|[<-|[<-|[<-|[<-|[]]]]]]; auto using rmeta_repr_no_slash, c_repr_no_slash.
Qed.

Definition training_file (k : skey) := trained_model_region_filename (meta_of k) "models-at-medoids" true.
Definition whole_file (k : skey) := trained_model_region_filename (meta_of k) "models-at-medoids" false.
Definition errors_file (k : skey) := "errors__" ++ params_repr (k_params k) ++ "__tp" ++ str_int (k_test_len k) ++ "__" ++ k_error k ++ ".pkl".

Lemma training_file_eq k : training_file k = "models-at-medoids__" ++ params_repr (k_params k) ++ "__" ++ "tp" ++ str_int (k_test_len k) ++ ".pkl".
Proof. reflexivity. Qed.
Lemma whole_file_eq k : whole_file k = "models-at-medoids__" ++ params_repr (k_params k) ++ "__" ++ "whole.pkl".
Proof. reflexivity. Qed.
Lemma errors_file_eq k : errors_file k = "errors__" ++ params_repr (k_params k) ++ "__" ++ "tp" ++ str_int (k_test_len k) ++ "__" ++ k_error k ++ ".pkl".
Proof. reflexivity. Qed.

Lemma training_no_slash k : has_char "/" (training_file k) = false.
Proof. rewrite training_file_eq, !has_char_app, params_no_slash, str_int_no_char by (auto; discriminate). auto. Qed.
Lemma whole_no_slash k : has_char "/" (whole_file k) = false.
Proof. rewrite whole_file_eq, !has_char_app, params_no_slash. auto. Qed.
Lemma errors_no_slash k : has_char "/" (k_error k) = false -> has_char "/" (errors_file k) = false.
Proof. intros H. rewrite errors_file_eq, !has_char_app, params_no_slash, H, str_int_no_char by (auto; discriminate). auto. Qed.
Lemma partition_no_slash c : has_char "/" (mode_name c) = false -> has_char "/" ("partition_" ++ c_repr c ++ ".pkl") = false.
Proof. intros H. rewrite !has_char_app, c_repr_no_slash by auto. auto. Qed.

Local Ltac names :=
  lazymatch goal with
  | |- has_char _ (trained_model_region_filename (meta_of ?k) _ true) = false => exact (training_no_slash k)
  | |- has_char _ (trained_model_region_filename (meta_of ?k) _ false) = false => exact (whole_no_slash k)
  | |- has_char _ ("errors__" ++ params_repr (k_params ?k) ++ _) = false => apply (errors_no_slash k); assumption
  | |- has_char _ ("partition_" ++ _) = false => apply partition_no_slash; match goal with H : clean_place _ _ _ |- _ => apply H end
  | |- clean_place _ _ _ => assumption
  | |- _ <> "" => discriminate
  end.

Lemma training_iff k k' : clean_key k -> clean_key k' ->
  model_training_pickle_path k = model_training_pickle_path k' <-> same_models k k' /\ k_test_len k = k_test_len k'.
Proof.
  intros [H He] [H' He']. split.
  - intros E. apply pickle_path_inj in E; try names. destruct E as (E1 & E2 & E3 & E4).
    change (training_file k = training_file k') in E4. rewrite !training_file_eq in E4. apply (sapp_inj_l "models-at-medoids__") in E4. apply params_prefix in E4. destruct E4 as [E4 E5].
    apply (sapp_inj_l "tp") in E5. apply sapp_inj_r in E5. apply str_int_inj in E5. repeat split; try apply E1; auto.
  - intros [(E1 & E2 & E3 & E4) E5]. unfold model_training_pickle_path, solver_pickle_dir, clustering_pickle_dir, clustering_subdir, region_pickle_dir.
    rewrite (same_region_repr _ _ E1), E2, (same_clustering_repr _ _ E3). f_equal. change (training_file k = training_file k').
    rewrite !training_file_eq, (same_params_repr _ _ E4), E5. auto.
Qed.
Lemma whole_iff k k' : clean_key k -> clean_key k' -> model_whole_pickle_path k = model_whole_pickle_path k' <-> same_models k k'.
Proof.
  intros [H He] [H' He']. split.
  - intros E. apply pickle_path_inj in E; try names. destruct E as (E1 & E2 & E3 & E4).
    change (whole_file k = whole_file k') in E4. rewrite !whole_file_eq in E4. apply (sapp_inj_l "models-at-medoids__") in E4. apply params_prefix in E4. destruct E4 as [E4 _].
    repeat split; try apply E1; auto.
  - intros (E1 & E2 & E3 & E4). unfold model_whole_pickle_path, solver_pickle_dir, clustering_pickle_dir, clustering_subdir, region_pickle_dir.
    rewrite (same_region_repr _ _ E1), E2, (same_clustering_repr _ _ E3). f_equal. change (whole_file k = whole_file k').
    rewrite !whole_file_eq, (same_params_repr _ _ E4). auto.
Qed.
Lemma errors_iff k k' : clean_key k -> clean_key k' ->
  generalization_errors_pickle_path k = generalization_errors_pickle_path k' <->
  same_models k k' /\ k_test_len k = k_test_len k' /\ k_error k = k_error k'.
Proof.
  intros [H He] [H' He']. split.
  - intros E. apply pickle_path_inj in E; try names. destruct E as (E1 & E2 & E3 & E4).
    apply (sapp_inj_l "errors__") in E4.
    change (params_repr (k_params k) ++ "__" ++ "tp" ++ str_int (k_test_len k) ++ "__" ++ k_error k ++ ".pkl" =
            params_repr (k_params k') ++ "__" ++ "tp" ++ str_int (k_test_len k') ++ "__" ++ k_error k' ++ ".pkl") in E4.
    apply params_prefix in E4. destruct E4 as [E4 E5].
    apply (sapp_inj_l "tp") in E5. apply str_int_prefix in E5; try reflexivity. destruct E5 as [E5 E6].
    apply (sapp_inj_l "__") in E6. apply sapp_inj_r in E6. repeat split; try apply E1; auto.
  - intros [(E1 & E2 & E3 & E4) [E5 E6]]. unfold generalization_errors_pickle_path, solver_pickle_dir, clustering_pickle_dir, clustering_subdir, region_pickle_dir.
    rewrite (same_region_repr _ _ E1), E2, (same_clustering_repr _ _ E3), (same_params_repr _ _ E4), E5, E6. auto.
Qed.
Lemma partition_path_same c r d c' r' d' : same_region r r' -> d = d' -> same_clustering c c' -> pickle_full_path c r d = pickle_full_path c' r' d'.
Proof.
  intros E1 E2 E3. unfold pickle_full_path, clustering_pickle_dir, clustering_subdir, region_pickle_dir.
  rewrite (same_region_repr _ _ E1), E2, (same_clustering_repr _ _ E3). auto.
Qed.
Lemma partition_iff c r d c' r' d' : clean_place c r d -> clean_place c' r' d' ->
  pickle_full_path c r d = pickle_full_path c' r' d' <-> same_region r r' /\ d = d' /\ same_clustering c c'.
Proof.
  intros H H'. split.
  - intros E. apply pickle_path_inj in E; auto; try discriminate.
    + tauto.
    + apply partition_no_slash. apply H.
    + apply partition_no_slash. apply H'.
  - intros (E1 & E2 & E3). apply partition_path_same; auto.
Qed.

Lemma training_whole k k' : clean_key k -> clean_key k' -> model_training_pickle_path k <> model_whole_pickle_path k'.
Proof.
  intros [H He] [H' He'] E. apply pickle_path_inj in E; try names.
  destruct E as (_ & _ & _ & E). change (training_file k = whole_file k') in E. rewrite training_file_eq, whole_file_eq in E.
  apply (sapp_inj_l "models-at-medoids__") in E. apply params_prefix in E. destruct E as [_ E]. discriminate.
Qed.
Lemma training_errors k k' : clean_key k -> clean_key k' -> model_training_pickle_path k <> generalization_errors_pickle_path k'.
Proof.
  intros [H He] [H' He'] E. apply pickle_path_inj in E; try names.
  destruct E as (_ & _ & _ & E). discriminate.
Qed.
Lemma whole_errors k k' : clean_key k -> clean_key k' -> model_whole_pickle_path k <> generalization_errors_pickle_path k'.
Proof.
  intros [H He] [H' He'] E. apply pickle_path_inj in E; try names.
  destruct E as (_ & _ & _ & E). discriminate.
Qed.
Lemma partition_training c r d k : clean_place c r d -> clean_key k -> pickle_full_path c r d <> model_training_pickle_path k.
Proof.
  intros H [H' He'] E. apply pickle_path_inj in E; try names.
  destruct E as (_ & _ & _ & E). discriminate.
Qed.
Lemma partition_whole c r d k : clean_place c r d -> clean_key k -> pickle_full_path c r d <> model_whole_pickle_path k.
Proof.
  intros H [H' He'] E. apply pickle_path_inj in E; try names.
  destruct E as (_ & _ & _ & E). discriminate.
Qed.
Lemma partition_errors c r d k : clean_place c r d -> clean_key k -> pickle_full_path c r d <> generalization_errors_pickle_path k.
Proof.
  intros H [H' He'] E. apply pickle_path_inj in E; try names.
  destruct E as (_ & _ & _ & E). discriminate.
Qed.

(* ---------------------------------------------------------------- the file system *)
Section Fs.
Context {M : Type}.
Implicit Types (fs : fsys M).

Lemma put_same fs p f : fs_put fs p f p = Some f.
Proof. unfold fs_put. rewrite String.eqb_refl. auto. Qed.
Lemma put_other fs p f q : q <> p -> fs_put fs p f q = fs q.
Proof. intros H. unfold fs_put. apply String.eqb_neq in H. rewrite H. auto. Qed.

Lemma load_here fs p {T} (e : file M -> option T) f v : fs p = Some f -> f <> FCorrupt -> e f = Some v -> load_file fs p e = Ok v.
Proof. intros H Hc He. unfold load_file. rewrite H. destruct f; try congruence; rewrite He; auto. Qed.

Lemma try_load_ok fs c d r home p : fs (pickle_full_path c r d) = Some (FPartition p) -> try_load_previous_partition fs c d r home = Some p.
Proof. intros H. unfold try_load_previous_partition, load_previous_partition. rewrite (load_here fs _ as_partition (FPartition p) p); auto. discriminate. Qed.
Lemma try_load_inv fs c d r home p : try_load_previous_partition fs c d r home = Some p -> fs (pickle_full_path c r d) = Some (FPartition p).
Proof.
  unfold try_load_previous_partition, load_previous_partition, load_file. destruct (fs (pickle_full_path c r d)) as [[q|m|e|]|]; cbn; congruence.
Qed.

(** a partition call either leaves the files alone or writes the one it did not find *)
Lemma partition_call_fs fs c d r impl wm home :
  fst (partition_call fs c d r impl wm home) = fs \/
  exists r' h p, r = Some r' /\ home = Some h /\ try_load_previous_partition fs c d r' h = None /\ impl wm = Ok p /\
    fst (partition_call fs c d r impl wm home) = fs_put fs (pickle_full_path c r' d) (FPartition p).
Proof.
  unfold partition_call. destruct home as [h|], r as [r|].
  - destruct (try_load_previous_partition fs c d r h) eqn:E; auto. destruct (impl wm) as [p|e] eqn:Ei; auto. cbn. right. exists r, h, p. auto.
  - destruct (impl wm); auto.
  - destruct (impl wm); auto.
  - destruct (impl wm); auto.
Qed.
Lemma load_partition_fs fs k impl :
  fst (load_partition fs k impl) = fs \/
  exists p, try_load_previous_partition fs (k_clustering k) (k_dist k) (k_region k) "pickle" = None /\
    fst (load_partition fs k impl) = fs_put fs (partition_pickle_path k) (FPartition p).
Proof.
  unfold load_partition. destruct (try_load_previous_partition fs (k_clustering k) (k_dist k) (k_region k) "pickle") eqn:E; auto.
  destruct (partition_call_fs fs (k_clustering k) (k_dist k) (Some (k_region k)) impl true (Some "pickle")) as [H|(r' & h & p & Er & Eh & _ & _ & H)];
    destruct (partition_call fs (k_clustering k) (k_dist k) (Some (k_region k)) impl true (Some "pickle")) as [fs' [[q b]|e]]; cbn [fst] in *; auto.
  - injection Er as <-. eauto.
  - injection Er as <-. eauto.
Qed.
Lemma load_solver_fs fs k impl : fst (load_solver fs k impl) = fst (load_partition fs k impl).
Proof. unfold load_solver. destruct (load_partition fs k impl). auto. Qed.

(** a path that no operation writes keeps its file *)
Definition untouched (path : string) (o : op M) : Prop :=
  match o with
  | OSave k _ | OSaveCrash k _ _ =>
      model_training_pickle_path k <> path /\ model_whole_pickle_path k <> path /\ generalization_errors_pickle_path k <> path
  | OPartition c d r _ _ _ => match r with Some r => pickle_full_path c r d <> path | None => True end
  | OLoad k _ => partition_pickle_path k <> path
  | ORemove q | OCorrupt q => q <> path
  end.
Lemma exec_untouched fs path o : untouched path o -> exec fs o path = fs path.
Proof.
  destruct o as [k s|k s n|c d r impl wm home|k impl|q|q]; cbn [untouched exec].
  - intros (H1 & H2 & H3). unfold save_solver. rewrite !put_other; auto.
  - intros (H1 & H2 & H3). unfold save_solver_crash, save_solver. destruct n as [|[|[|n]]]; rewrite ?put_other; auto.
  - intros H. destruct (partition_call_fs fs c d r impl wm home) as [->|(r' & h & p & -> & -> & _ & _ & ->)]; auto. apply put_other. auto.
  - intros H. rewrite load_solver_fs. destruct (load_partition_fs fs k impl) as [->|(p & _ & ->)]; auto. apply put_other. auto.
  - intros H. unfold fs_remove. destruct (String.eqb_spec path q); [congruence|auto].
  - intros H. apply put_other. auto.
Qed.
Lemma exec_all_untouched ops : forall fs path, Forall (untouched path) ops -> exec_all fs ops path = fs path.
Proof.
  induction ops as [|o ops IH]; intros fs path H; auto. inversion H; subst. cbn. unfold exec_all in IH. rewrite IH by auto. apply exec_untouched. auto.
Qed.

(** a saved partition is never overwritten *)
Lemma exec_keeps_partition fs c r d p o : clean_place c r d -> harmless (pickle_full_path c r d) o ->
  fs (pickle_full_path c r d) = Some (FPartition p) -> exec fs o (pickle_full_path c r d) = Some (FPartition p).
Proof.
  intros Hc Ho Hf.
  assert (U : untouched (pickle_full_path c r d) o \/ exec fs o = fs).
  { destruct o as [k s|k s n|c' d' r' impl wm home|k impl|q|q]; cbn [harmless untouched exec] in *.
    - left. repeat split; intros E; symmetry in E; revert E; [apply partition_training|apply partition_whole|apply partition_errors]; auto.
    - left. repeat split; intros E; symmetry in E; revert E; [apply partition_training|apply partition_whole|apply partition_errors]; auto.
    - destruct (partition_call_fs fs c' d' r' impl wm home) as [->|(r'' & h & q & -> & -> & N & _ & _)]; auto.
      left. intros E. rewrite <- E in Hf. rewrite (try_load_ok _ _ _ _ h _ Hf) in N. discriminate.
    - rewrite load_solver_fs. destruct (load_partition_fs fs k impl) as [->|(q & N & _)]; auto.
      left. intros E. rewrite <- E in Hf. rewrite (try_load_ok _ _ _ _ "pickle" _ Hf) in N. discriminate.
    - auto.
    - auto. }
  destruct U as [U|U]; [rewrite exec_untouched by auto; auto|congruence].
Qed.
Lemma exec_all_keeps_partition ops : forall fs c r d p, clean_place c r d -> Forall (harmless (pickle_full_path c r d)) ops ->
  fs (pickle_full_path c r d) = Some (FPartition p) -> exec_all fs ops (pickle_full_path c r d) = Some (FPartition p).
Proof.
  induction ops as [|o ops IH]; intros fs c r d p Hc Ho Hf; auto. inversion Ho; subst. cbn. apply IH; auto. apply exec_keeps_partition; auto.
Qed.

(** partition_call when the file is there *)
Lemma partition_call_hit fs c d r impl wm home p : fs (pickle_full_path c r d) = Some (FPartition p) ->
  partition_call fs c d (Some r) impl wm (Some home) = (fs, Ok (p, false)).
Proof. intros H. unfold partition_call. rewrite (try_load_ok _ _ _ _ home _ H). auto. Qed.
Lemma partition_call_saved fs c d r impl wm home fs1 p b : partition_call fs c d (Some r) impl wm (Some home) = (fs1, Ok (p, b)) ->
  fs1 (pickle_full_path c r d) = Some (FPartition p).
Proof.
  unfold partition_call. destruct (try_load_previous_partition fs c d r home) eqn:E.
  - intros H. injection H as <- <- <-. eapply try_load_inv; eauto.
  - destruct (impl wm); [|discriminate]. cbn. intros H. injection H as <- <- <-. apply put_same.
Qed.

(** a model file after a history: the last save of a key with this file *)
Lemma exec_all_app fs a b : exec_all fs (a ++ b) = exec_all (exec_all fs a) b.
Proof. apply fold_left_app. Qed.

Lemma load_partition_hit fs k impl p : fs (partition_pickle_path k) = Some (FPartition p) -> load_partition fs k impl = (fs, Ok p).
Proof. intros H. unfold load_partition. rewrite (try_load_ok _ _ _ _ "pickle" _ H). auto. Qed.
End Fs.
