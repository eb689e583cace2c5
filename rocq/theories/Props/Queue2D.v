(** C98: the older task queue over a matrix, with processes that raise or are killed at any moment. *)
From Coq Require Import ZifyBool ZifyNat.
From Verif Require Import Base.Py Base.Arr Base.Float Base.PyFacts Base.ArrFacts Model.Queue2D Spec.Queue2D Proofs.Queue2DFacts.

(** the state when the call returns, and the number of processes that raised or were killed *)
Definition final (f : nat -> nat -> res fnum) (num_proc : Z) (m n : nat) (schedule : list event) : q2state := q2_run f (q2_start num_proc m n) schedule.
Definition failed_processes (s : q2state) : nat := length (filter (fun p => match p with PRaised | PKilled => true | _ => false end) (s_procs s)).
Definition no_kills (schedule : list event) : Prop := forall w, ~ In (Kill w) schedule.
Definition total_function (f : nat -> nat -> res fnum) (m n : nat) : Prop := forall i j, i < m -> j < n -> exists v, f i j = Ok v.

Lemma result_shape f num_proc m n schedule r : execute_func_on_2D f num_proc m n schedule = Some r ->
  forallb stopped (s_procs (final f num_proc m n schedule)) = true /\ r = reshape2 (s_shared (final f num_proc m n schedule)) m n.
Proof. unfold execute_func_on_2D, q2_joined. fold (final f num_proc m n schedule). destruct (forallb _ _); intros H; [|discriminate]. injection H as <-. auto. Qed.

Lemma entry m n (l : list fnum) i j v : length l = m * n -> i < m -> j < n -> nth_error l (i * n + j) = Some v -> get2 (mk2 m n l) (Z.of_nat i) (Z.of_nat j) = Ok v.
Proof. intros Hl Hi Hj H. rewrite get2_nat by (cbn; auto). unfold at2. cbn. rewrite H. reflexivity. Qed.

Lemma coords n i j : j < n -> (i * n + j) / n = i /\ (i * n + j) mod n = j.
Proof. intros H. split; [rewrite Nat.div_add_l by lia; rewrite Nat.div_small; lia|rewrite Nat.add_comm, Nat.mod_add by lia; apply Nat.mod_small; auto]. Qed.

(** whatever raises and whatever is killed, and whenever: the call gives a matrix of the right shape, never an exception;
    each entry is the value of the function or the zero it started with; unless all the processes failed, at most one
    position is missing for each process that failed *)
Theorem C98_any_crash : forall f num_proc m n schedule r, execute_func_on_2D f num_proc m n schedule = Some r ->
  exists a lost, r = Ok a /\ a2x a = m /\ a2y a = n /\
    (forall i j, i < m -> j < n -> ~ In (i, j) lost -> has_value f a i j) /\
    (forall i j, In (i, j) lost -> i < m /\ j < n /\ get2 a (Z.of_nat i) (Z.of_nat j) = Ok (Fin 0)) /\
    (failed_processes (final f num_proc m n schedule) < length (s_procs (final f num_proc m n schedule)) ->
     length lost <= failed_processes (final f num_proc m n schedule)).
Proof.
  intros f p m n sched r H. destruct (result_shape _ _ _ _ _ _ H) as [J ->].
  destruct (inv_run f m n sched (q2_start p m n) [] [] (inv_start f m n p)) as (done & lost & I). fold (final f p m n sched) in I.
  destruct I as [Iperm Ilen Idone Irest Ilost Iq Ip Ie Ic Icd Idc].
  rewrite (joined_held _ J) in Iperm. cbn [app] in Iperm.
  exists (mk2 m n (s_shared (final f p m n sched))), (map (pos n) (lost ++ map task_slot (s_queue (final f p m n sched)))).
  assert (Hin : forall k, In k (done ++ lost ++ map task_slot (s_queue (final f p m n sched))) <-> k < m * n).
  { intros k. split; intros Hk.
    - apply (Permutation_in _ Iperm) in Hk. apply in_seq in Hk. lia.
    - apply (Permutation_in _ (Permutation_sym Iperm)). apply in_seq. lia. }
  assert (Hnd : NoDup (done ++ lost ++ map task_slot (s_queue (final f p m n sched)))) by (eapply Permutation_NoDup; [apply Permutation_sym; exact Iperm|apply seq_NoDup]).
  split; [unfold reshape2; rewrite Ilen, Nat.eqb_refl; reflexivity|]. split; [reflexivity|]. split; [reflexivity|]. split; [|split].
  - intros i j Hi Hj Hl. assert (Hk : i * n + j < m * n) by nia. apply Hin in Hk. destruct (coords n i j Hj) as [C1 C2]. rewrite in_app_iff in Hk. destruct Hk as [Hk|Hk].
    + destruct (Idone _ Hk) as (v & Hv & Hs). unfold value in Hv. rewrite C1, C2 in Hv. exists v. split; auto. apply entry; auto.
    + exfalso. apply Hl. apply in_map_iff. exists (i * n + j). split; auto. unfold pos. rewrite C1, C2. reflexivity.
  - intros i j Hl. apply in_map_iff in Hl. destruct Hl as (k & E & Hk). unfold pos in E. injection E as <- <-.
    assert (Hkm : k < m * n) by (apply Hin; apply in_app_iff; auto).
    assert (Hn : n <> 0) by (intros Hz; rewrite Hz in Hkm; lia).
    assert (Hi : k / n < m) by (apply Nat.div_lt_upper_bound; lia). assert (Hj : k mod n < n) by (apply Nat.mod_upper_bound; auto).
    split; auto. split; auto. apply entry; auto. replace (k / n * n + k mod n) with k by (rewrite Nat.mul_comm; apply Nat.div_mod; auto).
    apply Irest; auto. intros Hd.
    apply in_split in Hd. destruct Hd as (d1 & d2 & ->). rewrite <- app_assoc in Hnd. cbn [app] in Hnd. apply NoDup_remove_2 in Hnd. apply Hnd. rewrite !in_app_iff in *. tauto.
  - intros Hf. rewrite map_length, app_length, map_length. rewrite (Ie (joined_ended _ J Hf)). cbn [length]. unfold failed_processes. unfold failures, failed in Ilost. lia.
Qed.
Print Assumptions C98_any_crash.

(** whatever happens, no position is computed twice and only positions of the matrix are *)
Theorem C98_at_most_once : forall f num_proc m n schedule,
  NoDup (s_calls (final f num_proc m n schedule)) /\
  forall i j, In (i, j) (s_calls (final f num_proc m n schedule)) -> i < m /\ j < n.
Proof.
  intros f p m n sched. destruct (inv_run f m n sched (q2_start p m n) [] [] (inv_start f m n p)) as (done & lost & I). fold (final f p m n sched) in I.
  split; [exact (i_calls _ _ _ _ _ _ I)|]. intros i j H. destruct (i_called _ _ _ _ _ _ I _ H) as (k & E & Hk & _). unfold pos in E. injection E as -> ->.
  assert (Hn : n <> 0) by (intros Hz; rewrite Hz in Hk; lia). split; [apply Nat.div_lt_upper_bound; lia|apply Nat.mod_upper_bound; auto].
Qed.
Print Assumptions C98_at_most_once.

(** no kill, no exception, at least one process: every schedule gives the function at every position, computed once *)
Theorem C98_every_schedule : forall f num_proc m n schedule r, (1 <= num_proc)%Z -> total_function f m n -> no_kills schedule ->
  execute_func_on_2D f num_proc m n schedule = Some r ->
  (exists a, r = Ok a /\ a2x a = m /\ a2y a = n /\ forall i j, i < m -> j < n -> has_value f a i j) /\
  forall i j, i < m -> j < n -> count_occ (fun a b : nat * nat => ltac:(decide equality; apply Nat.eq_dec)) (s_calls (final f num_proc m n schedule)) (i, j) = 1.
Proof.
  intros f p m n sched r Hp Hf Hk H.
  assert (F : failed_processes (final f p m n sched) = 0).
  { eapply (no_failures f m n sched); eauto using inv_start, start_failures. apply Forall_forall. intros [w|w] Hin; auto. apply (Hk w Hin). }
  assert (L : length (s_procs (final f p m n sched)) = Z.to_nat p).
  { unfold final. rewrite run_length. unfold q2_start. cbn [s_procs]. apply repeat_length. }
  split.
  - destruct (C98_any_crash f p m n sched r H) as (a & lost & -> & Hx & Hy & Hv & _ & Hl). rewrite F, L in Hl. assert (length lost <= 0) by (apply Hl; lia). destruct lost; [|cbn in *; lia].
    exists a. repeat split; auto.
  - intros i j Hi Hj. destruct (C98_at_most_once f p m n sched) as [Hnd _].
    destruct (result_shape _ _ _ _ _ _ H) as [J _].
    destruct (inv_run f m n sched (q2_start p m n) [] [] (inv_start f m n p)) as (done & lost & I). fold (final f p m n sched) in I.
    assert (Hc : In (i, j) (s_calls (final f p m n sched))).
    { pose proof (i_lost _ _ _ _ _ _ I) as Ll. unfold failures, failed in Ll. unfold failed_processes in F. rewrite F in Ll. destruct lost; [|cbn in Ll; lia].
      pose proof (i_perm _ _ _ _ _ _ I) as P. rewrite (joined_held _ J) in P. rewrite (i_ended _ _ _ _ _ _ I) in P by (apply joined_ended; auto; unfold failures, failed; rewrite F, L; lia).
      cbn [app map] in P. rewrite app_nil_r in P. destruct (coords n i j Hj) as [C1 C2].
      replace (i, j) with (pos n (i * n + j)) by (unfold pos; rewrite C1, C2; reflexivity). apply (i_donec _ _ _ _ _ _ I). apply (Permutation_in _ (Permutation_sym P)). apply in_seq. nia. }
    apply NoDup_count_occ'; auto.
Qed.
Print Assumptions C98_every_schedule.

(** nothing waits for ever: after enough turns for every process the call has returned, whatever raises and is killed *)
Theorem C98_returns : forall f num_proc m n schedule,
  (forall w, w < Z.to_nat num_proc -> 3 * (m * n) + Z.to_nat num_proc <= turns w schedule) ->
  exists r, execute_func_on_2D f num_proc m n schedule = Some r.
Proof.
  intros f p m n sched H. unfold execute_func_on_2D, q2_joined. fold (final f p m n sched).
  enough (J : forallb stopped (s_procs (final f p m n sched)) = true) by (rewrite J; eauto).
  apply forallb_forall. intros q Hq. apply In_nth_error in Hq. destruct Hq as [w Hw].
  assert (L : length (s_procs (final f p m n sched)) = Z.to_nat p) by (unfold final; rewrite run_length; unfold q2_start; cbn [s_procs]; apply repeat_length).
  assert (Hlt : w < Z.to_nat p) by (rewrite <- L; apply nth_error_Some; congruence).
  destruct (enough_turns f m w sched (q2_start p m n)) as (q' & E & S).
  - unfold q2_start. cbn [s_procs]. rewrite repeat_length. auto.
  - rewrite start_measure. auto.
  - unfold final in Hw. congruence.
Qed.
Print Assumptions C98_returns.

(** the caller is not told of an exception: a function that always raises gives a matrix of zeros, and so does a queue
    without processes *)
Theorem C98_exceptions_reported_refuted :
  (forall e, exists schedule, execute_func_on_2D (fun _ _ => Raise e) 2 1 2 schedule = Some (Ok (mk2 1 2 [Fin 0; Fin 0]))) /\
  forall f num_proc m n, (num_proc <= 0)%Z -> execute_func_on_2D f num_proc m n [] = Some (Ok (mk2 m n (repeat (Fin 0) (m * n)))).
Proof.
  split.
  - intros e. exists [Step 0; Step 1; Step 0; Step 1]. reflexivity.
  - intros f p m n Hp. unfold execute_func_on_2D, q2_start, q2_joined. replace (Z.to_nat p) with 0 by lia. cbn. unfold reshape2. rewrite repeat_length, Nat.eqb_refl. reflexivity.
Qed.
Print Assumptions C98_exceptions_reported_refuted.

(** two processes over a 2-by-2 matrix, one killed with a computed value in hand: that value is lost *)
Definition ex_f (i j : nat) : res fnum := Ok (Fin (inject_Z (Z.of_nat (10 * i + j + 1)))).
Example C98_example :
  execute_func_on_2D ex_f 2 2 2 [Step 0; Step 1; Step 1; Kill 1; Step 0; Step 0; Step 0; Step 0; Step 0; Step 0; Step 0; Step 0; Step 0] =
  Some (Ok (mk2 2 2 [Fin 1; Fin 0; Fin 11; Fin 12])) /\
  execute_func_on_2D ex_f 2 2 2 (flat_map (fun _ => [Step 1; Step 0]) (seq 0 14)) = Some (Ok (mk2 2 2 [Fin 1; Fin 2; Fin 11; Fin 12])) /\
  total_function ex_f 2 2 /\ no_kills (flat_map (fun _ => [Step 1; Step 0]) (seq 0 14)) /\
  (forall w, w < Z.to_nat 2 -> 3 * (2 * 2) + Z.to_nat 2 <= turns w (flat_map (fun _ => [Step 1; Step 0]) (seq 0 14))).
Proof.
  split; [reflexivity|]. split; [reflexivity|]. split; [intros i j _ _; eexists; reflexivity|]. split.
  - intros w H. cbn in H. repeat (destruct H as [H|H]; [discriminate|]). exact H.
  - intros [|[|w]] Hw; [apply Nat.leb_le; reflexivity|apply Nat.leb_le; reflexivity|exfalso; change (Z.to_nat 2) with 2 in Hw; lia].
Qed.
