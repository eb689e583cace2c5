From Coq Require Import ZifyBool ZifyNat.
From Verif Require Import Base.Py Base.Arr Base.Float Base.PyFacts Base.ArrFacts Model.Queue2D Spec.Queue2D.

Lemma split_procs {A} (l : list A) w x y : nth_error l w = Some x ->
  exists l1 l2, l = l1 ++ x :: l2 /\ replace_nth l w y = l1 ++ y :: l2.
Proof.
  revert w. induction l as [|a l IH]; intros [|w] H; cbn in H; try discriminate.
  - injection H as ->. exists [], l. auto.
  - destruct (IH w H) as (l1 & l2 & E1 & E2). exists (a :: l1), l2. cbn. rewrite E1 at 1. rewrite E2. auto.
Qed.

(** the index of the task that a process holds, whether it failed, its remaining steps *)
Definition held (p : proc) : list nat := match p with PTask t | PValue t _ => [task_slot t] | _ => [] end.
Definition failed (p : proc) : bool := match p with PRaised | PKilled => true | _ => false end.
Definition weight (p : proc) : nat := match p with PAsk => 1 | PTask _ => 3 | PValue _ _ => 2 | _ => 0 end.
Definition failures (ps : list proc) : nat := length (filter failed ps).
Definition measure (s : q2state) : nat := 3 * length (s_queue s) + list_sum (map weight (s_procs s)).

Lemma slot_task n k : n <> 0 -> task_slot (task_of n k) = k.
Proof. intros H. unfold task_slot, task_of. cbn. rewrite Nat.mul_comm. symmetry. apply Nat.div_mod. auto. Qed.

Lemma joined_ended ps : forallb stopped ps = true -> failures ps < length ps -> In PEnded ps.
Proof.
  induction ps as [|p ps IH]; cbn; [lia|]. intros H L. apply andb_true_iff in H. destruct H as [A B]. unfold failures in *. cbn [filter] in L.
  destruct p; try discriminate; cbn [failed length] in L; [left; reflexivity| |]; right; apply IH; auto; lia.
Qed.

Section Run.
Context (f : nat -> nat -> res fnum) (m n : nat).
Definition pos (k : nat) : nat * nat := (k / n, k mod n).
Definition value (k : nat) : res fnum := f (k / n) (k mod n).
Definition proper (t : task2d) : Prop := t = task_of n (task_slot t).

Lemma proper_i t : proper t -> td_i t = task_slot t / n.
Proof. intros H. red in H. change (task_slot t / n) with (td_i (task_of n (task_slot t))). rewrite <- H. reflexivity. Qed.
Lemma proper_j t : proper t -> td_j t = task_slot t mod n.
Proof. intros H. red in H. change (task_slot t mod n) with (td_j (task_of n (task_slot t))). rewrite <- H. reflexivity. Qed.

Record inv (s : q2state) (done lost : list nat) : Prop := {
  i_perm : Permutation (done ++ lost ++ flat_map held (s_procs s) ++ map task_slot (s_queue s)) (seq 0 (m * n));
  i_len : length (s_shared s) = m * n;
  i_done : forall k, In k done -> exists v, value k = Ok v /\ nth_error (s_shared s) k = Some v;
  i_rest : forall k, k < m * n -> ~ In k done -> nth_error (s_shared s) k = Some (Fin 0);
  i_lost : length lost <= failures (s_procs s);
  i_queue : Forall proper (s_queue s);
  i_procs : forall p, In p (s_procs s) -> match p with PTask t => proper t | PValue t v => proper t /\ value (task_slot t) = Ok v /\ In (pos (task_slot t)) (s_calls s) | _ => True end;
  i_ended : In PEnded (s_procs s) -> s_queue s = [];
  i_calls : NoDup (s_calls s);
  i_called : forall c, In c (s_calls s) -> exists k, c = pos k /\ k < m * n /\ ~ In k (map task_slot (s_queue s)) /\ (forall t, In (PTask t) (s_procs s) -> task_slot t <> k);
  i_donec : forall k, In k done -> In (pos k) (s_calls s)
}.

Lemma pos_inj a b : n <> 0 -> pos a = pos b -> a = b.
Proof. intros Hn E. unfold pos in E. injection E as E1 E2. rewrite (Nat.div_mod a n), (Nat.div_mod b n) by auto. congruence. Qed.

Lemma inv_start p : inv (q2_start p m n) [] [].
Proof.
  assert (Hs : map task_slot (all_tasks m n) = seq 0 (m * n)).
  { unfold all_tasks. rewrite map_map. rewrite <- (map_id (seq 0 (m * n))) at 2. apply map_ext_in. intros k Hk. apply in_seq in Hk. apply slot_task. intros ->. lia. }
  assert (Hh : flat_map held (repeat PAsk (Z.to_nat p)) = []) by (induction (Z.to_nat p); cbn; auto).
  unfold q2_start. constructor; cbn [s_queue s_shared s_procs s_calls app].
  - rewrite Hh, Hs. auto.
  - apply repeat_length.
  - intros k [].
  - intros k Hk _. apply nth_error_repeat. auto.
  - cbn. lia.
  - apply Forall_forall. intros t Ht. apply in_map_iff in Ht. destruct Ht as (k & <- & Hk). apply in_seq in Hk. red. rewrite slot_task; auto. intros E. rewrite E in Hk. lia.
  - intros q Hq. apply repeat_spec in Hq. subst q. exact I.
  - intros H. apply repeat_spec in H. discriminate.
  - constructor.
  - intros c [].
  - intros k [].
Qed.

Ltac sp H y := let l1 := fresh "l1" in let l2 := fresh "l2" in let E1 := fresh "E1" in let E2 := fresh "E2" in destruct (split_procs _ _ _ y H) as (l1 & l2 & E1 & E2).

Lemma in_mid {A} (l1 l2 : list A) x y z : In z (l1 ++ y :: l2) -> z = y \/ In z (l1 ++ x :: l2).
Proof. rewrite !in_app_iff. cbn. intuition. Qed.

Lemma failures_mid l1 l2 p q : failures (l1 ++ p :: l2) + (if failed q then 1 else 0) = failures (l1 ++ q :: l2) + (if failed p then 1 else 0).
Proof. unfold failures. rewrite !filter_app, !app_length. cbn [filter]. destruct (failed p), (failed q); cbn [length]; lia. Qed.

Lemma held_mid l1 l2 p : Permutation (flat_map held (l1 ++ p :: l2)) (held p ++ flat_map held (l1 ++ l2)).
Proof. rewrite !flat_map_app. cbn [flat_map]. rewrite !app_assoc. apply Permutation_app_tail. apply Permutation_app_comm. Qed.

Lemma inv_step s done lost e : inv s done lost -> exists done' lost', inv (q2_step f s e) done' lost'.
Proof.
  intros I. pose proof I as I0. destruct I as [Iperm Ilen Idone Irest Ilost Iq Ip Ie Ic Icd Idc].
  destruct e as [w|w]; cbn [q2_step].
  - destruct (nth_error (s_procs s) w) as [p|] eqn:E; [|exists done, lost; exact I0].
    destruct p as [|t|t v| | |]; try (exists done, lost; exact I0).
    + (* ask *) destruct (s_queue s) as [|t q] eqn:Eq.
      * sp E PEnded. rewrite E2. exists done, lost. rewrite E1 in *. constructor; cbn [s_queue s_shared s_procs s_calls]; auto.
        -- rewrite held_mid in Iperm. rewrite held_mid. exact Iperm.
        -- pose proof (failures_mid l1 l2 PAsk PEnded). cbn in H. lia.
        -- intros p Hp. apply in_mid with (x := PAsk) in Hp. destruct Hp as [->|Hp]; [exact I|]. apply Ip; auto.
        -- intros c Hc. destruct (Icd c Hc) as (k & Ek & Hk & Hq & Ht). exists k. split; auto. split; auto. split; auto. intros t Hin. apply in_mid with (x := PAsk) in Hin. destruct Hin as [Hin|Hin]; [discriminate|]. auto.
      * sp E (PTask t). rewrite E2. exists done, lost. rewrite E1 in *. constructor; cbn [s_queue s_shared s_procs s_calls]; auto.
        -- rewrite held_mid in Iperm. rewrite held_mid. cbn [held app map] in *. rewrite <- Iperm. do 2 apply Permutation_app_head. apply Permutation_middle.
        -- pose proof (failures_mid l1 l2 PAsk (PTask t)). cbn in H. lia.
        -- inversion Iq; auto.
        -- intros p Hp. apply in_mid with (x := PAsk) in Hp. destruct Hp as [->|Hp]; [inversion Iq; auto|]. apply Ip; auto.
        -- intros H. apply in_mid with (x := PAsk) in H. destruct H as [H|H]; [discriminate|]. specialize (Ie H). discriminate.
        -- intros c Hc. destruct (Icd c Hc) as (k & Ek & Hk & Hq & Ht). exists k. cbn [map] in Hq. split; auto. split; auto. split; [intros H; apply Hq; right; auto|]. intros t' Hin. apply in_mid with (x := PAsk) in Hin. destruct Hin as [Hin|Hin]; [injection Hin as ->; intros Ht'; apply Hq; left; auto|]. auto.
    + (* task *)
      assert (Ht : proper t) by (apply (Ip (PTask t)); eapply nth_error_In; eauto).
      assert (Hval : f (td_i t) (td_j t) = value (task_slot t)) by (unfold value; rewrite (proper_i t Ht), (proper_j t Ht); reflexivity).
      assert (Hpos : (td_i t, td_j t) = pos (task_slot t)) by (unfold pos; rewrite (proper_i t Ht), (proper_j t Ht); reflexivity).
      assert (Hnd : NoDup (done ++ lost ++ flat_map held (s_procs s) ++ map task_slot (s_queue s))) by (eapply Permutation_NoDup; [apply Permutation_sym; exact Iperm|apply seq_NoDup]).
      rewrite Hpos.
      assert (Hlt : task_slot t < m * n).
      { assert (H : In (task_slot t) (seq 0 (m * n))); [|apply in_seq in H; lia]. eapply Permutation_in; [exact Iperm|]. rewrite !in_app_iff. right. right. left. apply in_flat_map. exists (PTask t). split; [eapply nth_error_In; eauto|left; auto]. }
      assert (Hn0 : n <> 0) by (intros H0; rewrite H0 in Hlt; lia).
      assert (Hcalls : NoDup (s_calls s ++ [pos (task_slot t)])).
      { apply Permutation_NoDup with (pos (task_slot t) :: s_calls s); [apply Permutation_cons_append|]. constructor; auto. intros Hc. destruct (Icd _ Hc) as (k & Ek & Hk & _ & Hno). apply pos_inj in Ek; auto. apply (Hno t); [eapply nth_error_In; eauto|]. auto. }
      rewrite Hval. destruct (value (task_slot t)) as [v|e] eqn:Ev.
      * sp E (PValue t v). rewrite E2. exists done, lost. rewrite E1 in *. constructor; cbn [s_queue s_shared s_procs s_calls]; auto.
        -- rewrite held_mid in Iperm. rewrite held_mid. exact Iperm.
        -- pose proof (failures_mid l1 l2 (PTask t) (PValue t v)). cbn in H. lia.
        -- intros p Hp. apply in_mid with (x := PTask t) in Hp. destruct Hp as [->|Hp].
           ++ split; auto. split; auto. apply in_app_iff. right. left. reflexivity.
           ++ specialize (Ip p Hp). destruct p; auto. destruct Ip as (A & B & C). split; auto. split; auto. apply in_app_iff. auto.
        -- intros H. apply in_mid with (x := PTask t) in H. destruct H as [H|H]; [discriminate|]. auto.
        -- intros c Hc. apply in_app_iff in Hc. destruct Hc as [Hc|[<-|[]]].
           ++ destruct (Icd c Hc) as (k & Ek & Hk & Hq & Hh). exists k. split; auto. split; auto. split; auto. intros t' Hin. apply in_mid with (x := PTask t) in Hin. destruct Hin as [Hin|Hin]; [discriminate|]. auto.
           ++ exists (task_slot t). split; auto. split; auto. rewrite held_mid in Hnd. cbn [held app] in Hnd.
              assert (Hx : ~ In (task_slot t) ((done ++ lost) ++ flat_map held (l1 ++ l2) ++ map task_slot (s_queue s))) by (apply NoDup_remove_2; rewrite <- app_assoc; exact Hnd).
              rewrite !in_app_iff in Hx. split; [tauto|]. intros t' Hin E'. apply Hx. right. left. apply in_flat_map. exists (PTask t'). split; [|left; auto]. rewrite in_app_iff in *. cbn in Hin. destruct Hin as [Hin|[Hin|Hin]]; [auto|discriminate|auto].
        -- intros k Hk. apply in_app_iff. auto.
      * sp E PRaised. rewrite E2. exists done, (task_slot t :: lost). rewrite E1 in *. constructor; cbn [s_queue s_shared s_procs s_calls]; auto.
        -- rewrite held_mid in Iperm. rewrite held_mid. cbn [held app] in *. rewrite <- Iperm. apply Permutation_app_head. apply Permutation_middle.
        -- pose proof (failures_mid l1 l2 (PTask t) PRaised). cbn in H. cbn. lia.
        -- intros p Hp. apply in_mid with (x := PTask t) in Hp. destruct Hp as [->|Hp]; [exact I|].
           specialize (Ip p Hp). destruct p; auto. destruct Ip as (A & B & C). split; auto. split; auto. apply in_app_iff. auto.
        -- intros H. apply in_mid with (x := PTask t) in H. destruct H as [H|H]; [discriminate|]. auto.
        -- intros c Hc. apply in_app_iff in Hc. destruct Hc as [Hc|[<-|[]]].
           ++ destruct (Icd c Hc) as (k & Ek & Hk & Hq & Hh). exists k. split; auto. split; auto. split; auto. intros t' Hin. apply in_mid with (x := PTask t) in Hin. destruct Hin as [Hin|Hin]; [discriminate|]. auto.
           ++ exists (task_slot t). split; auto. split; auto. rewrite held_mid in Hnd. cbn [held app] in Hnd.
              assert (Hx : ~ In (task_slot t) ((done ++ lost) ++ flat_map held (l1 ++ l2) ++ map task_slot (s_queue s))) by (apply NoDup_remove_2; rewrite <- app_assoc; exact Hnd).
              rewrite !in_app_iff in Hx. split; [tauto|]. intros t' Hin E'. apply Hx. right. left. apply in_flat_map. exists (PTask t'). split; [|left; auto]. rewrite in_app_iff in *. cbn in Hin. destruct Hin as [Hin|[Hin|Hin]]; [auto|discriminate|auto].
        -- intros k Hk. apply in_app_iff. auto.
    + (* value *)
      assert (Ht : proper t /\ value (task_slot t) = Ok v /\ In (pos (task_slot t)) (s_calls s)) by (apply (Ip (PValue t v)); eapply nth_error_In; eauto). destruct Ht as (Ht & Hv & Hc).
      assert (Hnd : NoDup (done ++ lost ++ flat_map held (s_procs s) ++ map task_slot (s_queue s))) by (eapply Permutation_NoDup; [apply Permutation_sym; exact Iperm|apply seq_NoDup]).
      assert (Hlt : task_slot t < m * n).
      { assert (H : In (task_slot t) (seq 0 (m * n))); [|apply in_seq in H; lia]. eapply Permutation_in; [exact Iperm|]. rewrite !in_app_iff. right. right. left. apply in_flat_map. exists (PValue t v). split; [eapply nth_error_In; eauto|left; auto]. }
      sp E PAsk. rewrite E2. exists (task_slot t :: done), lost. rewrite E1 in *.
      rewrite held_mid in Hnd. cbn [held app] in Hnd.
      assert (Hx : ~ In (task_slot t) ((done ++ lost) ++ flat_map held (l1 ++ l2) ++ map task_slot (s_queue s))) by (apply NoDup_remove_2; rewrite <- app_assoc; exact Hnd).
      constructor; cbn [s_queue s_shared s_procs s_calls]; auto.
      * rewrite held_mid in Iperm. rewrite held_mid. cbn [held app] in *. rewrite <- Iperm. rewrite !app_assoc. rewrite <- (app_assoc (done ++ lost)). apply Permutation_middle.
      * rewrite replace_nth_length. auto.
      * intros k [<-|Hk].
        -- exists v. split; auto. apply replace_nth_same. rewrite Ilen. auto.
        -- destruct (Idone k Hk) as (u & Hu & Hs). exists u. split; auto. rewrite replace_nth_other; auto. intros He. apply Hx. rewrite !in_app_iff. left. left. congruence.
      * intros k Hk Hnin. rewrite replace_nth_other; [apply Irest; auto; intros H; apply Hnin; right; auto|]. intros He. apply Hnin. left. congruence.
      * pose proof (failures_mid l1 l2 (PValue t v) PAsk). cbn in H. lia.
      * intros p Hp. apply in_mid with (x := PValue t v) in Hp. destruct Hp as [->|Hp]; [exact I|]. apply Ip; auto.
      * intros H. apply in_mid with (x := PValue t v) in H. destruct H as [H|H]; [discriminate|]. auto.
      * intros c Hc'. destruct (Icd c Hc') as (k & Ek & Hk & Hq & Hh). exists k. split; auto. split; auto. split; auto. intros t' Hin. apply in_mid with (x := PValue t v) in Hin. destruct Hin as [Hin|Hin]; [discriminate|]. auto.
      * intros k [<-|Hk]; auto.
  - destruct (nth_error (s_procs s) w) as [p|] eqn:E; [|exists done, lost; exact I0].
    destruct (stopped p) eqn:Est; [exists done, lost; exact I0|].
    sp E PKilled. rewrite E2. exists done, (held p ++ lost). rewrite E1 in *. constructor; cbn [s_queue s_shared s_procs s_calls]; auto.
    + rewrite held_mid in Iperm. rewrite held_mid. cbn [held app] in *. rewrite <- Iperm. apply Permutation_app_head. rewrite <- !app_assoc. rewrite (app_assoc (held p)), (app_assoc lost (held p)). apply Permutation_app_tail. apply Permutation_app_comm.
    + pose proof (failures_mid l1 l2 p PKilled). cbn in H. destruct p; cbn in *; try discriminate; lia.
    + intros q Hp. apply in_mid with (x := p) in Hp. destruct Hp as [->|Hp]; [exact I|]. apply Ip; auto.
    + intros H. apply in_mid with (x := p) in H. destruct H as [H|H]; [discriminate|]. auto.
    + intros c Hc'. destruct (Icd c Hc') as (k & Ek & Hk & Hq & Hh). exists k. split; auto. split; auto. split; auto. intros t' Hin. apply in_mid with (x := p) in Hin. destruct Hin as [Hin|Hin]; [discriminate|]. auto.
Qed.

Lemma inv_run sched : forall s done lost, inv s done lost -> exists done' lost', inv (q2_run f s sched) done' lost'.
Proof.
  induction sched as [|e sched IH]; intros s done lost I; cbn; eauto.
  destruct (inv_step s done lost e I) as (d & l & I'). eapply IH; eauto.
Qed.

(** steps of a process that has not stopped use up the measure *)
Lemma weight_mid l1 l2 p : list_sum (map weight (l1 ++ p :: l2)) = weight p + list_sum (map weight (l1 ++ l2)).
Proof. rewrite !map_app, !list_sum_app. cbn [map]. change (list_sum (weight p :: map weight l2)) with (weight p + list_sum (map weight l2)). lia. Qed.
Lemma measure_step s w p : nth_error (s_procs s) w = Some p -> stopped p = false -> measure (q2_step f s (Step w)) < measure s.
Proof.
  intros E Hs. cbn [q2_step]. rewrite E. unfold measure. destruct p as [|t|t v| | |]; try discriminate.
  - destruct (s_queue s) as [|t q] eqn:Eq.
    + sp E PEnded. cbn [s_queue s_procs]. rewrite E2, E1, !weight_mid. cbn [weight length]. lia.
    + sp E (PTask t). cbn [s_queue s_procs]. rewrite E2, E1, !weight_mid. cbn [weight length]. lia.
  - destruct (f (td_i t) (td_j t)) as [v|e].
    + sp E (PValue t v). cbn [s_queue s_procs]. rewrite E2, E1, !weight_mid. cbn [weight length]. lia.
    + sp E PRaised. cbn [s_queue s_procs]. rewrite E2, E1, !weight_mid. cbn [weight length]. lia.
  - sp E PAsk. cbn [s_queue s_procs]. rewrite E2, E1, !weight_mid. cbn [weight length]. lia.
Qed.
Lemma measure_le s e : measure (q2_step f s e) <= measure s.
Proof.
  destruct e as [w|w].
  - destruct (nth_error (s_procs s) w) as [p|] eqn:E.
    + destruct (stopped p) eqn:Est; [|pose proof (measure_step s w p E Est); lia]. cbn [q2_step]. rewrite E. destruct p; try discriminate; auto.
    + cbn [q2_step]. rewrite E. auto.
  - cbn [q2_step]. destruct (nth_error (s_procs s) w) as [p|] eqn:E; auto. destruct (stopped p) eqn:Est; auto.
    sp E PKilled. unfold measure. cbn [s_queue s_procs]. rewrite E2, E1, !weight_mid. cbn [weight length]. lia.
Qed.
Lemma stays_stopped s e w p : nth_error (s_procs s) w = Some p -> stopped p = true -> nth_error (s_procs (q2_step f s e)) w = Some p.
Proof.
  intros E Hs. destruct e as [u|u]; cbn [q2_step]; destruct (nth_error (s_procs s) u) as [q|] eqn:Eu; auto.
  - assert (Hne : stopped q = false -> u <> w) by (intros H ->; congruence).
    destruct q as [|t|t v| | |]; auto; try (specialize (Hne eq_refl)).
    + destruct (s_queue s); cbn [s_procs]; rewrite replace_nth_other; auto.
    + destruct (f (td_i t) (td_j t)); cbn [s_procs]; rewrite replace_nth_other; auto.
    + cbn [s_procs]. rewrite replace_nth_other; auto.
  - destruct (stopped q) eqn:Eq; auto. cbn [s_procs]. rewrite replace_nth_other; auto. intros ->. congruence.
Qed.
Lemma procs_length s e : length (s_procs (q2_step f s e)) = length (s_procs s).
Proof.
  destruct e as [u|u]; cbn [q2_step]; destruct (nth_error (s_procs s) u) as [q|] eqn:Eu; auto.
  - destruct q as [|t|t v| | |]; auto.
    + destruct (s_queue s); cbn [s_procs]; apply replace_nth_length.
    + destruct (f (td_i t) (td_j t)); cbn [s_procs]; apply replace_nth_length.
    + cbn [s_procs]. apply replace_nth_length.
  - destruct (stopped q); auto. cbn [s_procs]. apply replace_nth_length.
Qed.
Lemma run_length sched : forall s, length (s_procs (q2_run f s sched)) = length (s_procs s).
Proof. induction sched as [|e sched IH]; intros s; [reflexivity|]. transitivity (length (s_procs (q2_step f s e))); [apply IH|apply procs_length]. Qed.

Lemma enough_turns w sched : forall s, w < length (s_procs s) -> measure s <= turns w sched ->
  exists p, nth_error (s_procs (q2_run f s sched)) w = Some p /\ stopped p = true.
Proof.
  induction sched as [|e sched IH]; intros s Hw Hm.
  - cbn in *. destruct (nth_error (s_procs s) w) as [p|] eqn:E; [|apply nth_error_None in E; lia]. exists p. split; auto. destruct (stopped p) eqn:Es; auto.
    destruct (split_procs _ _ _ PAsk E) as (l1 & l2 & E1 & _). unfold measure in Hm. rewrite E1, weight_mid in Hm. destruct p; cbn [weight stopped] in Hm, Es; try discriminate; lia.
  - cbn [q2_run fold_left]. fold (q2_run f (q2_step f s e) sched).
    destruct (nth_error (s_procs s) w) as [p|] eqn:E; [|apply nth_error_None in E; lia].
    destruct (stopped p) eqn:Es.
    + clear IH Hm. exists p. split; auto. pose proof (stays_stopped s e w p E Es) as E'. clear E. revert E'. generalize (q2_step f s e). induction sched as [|e' sched IH]; intros s' E'; cbn; auto.
      apply IH. apply stays_stopped; auto.
    + apply IH; [rewrite procs_length; auto|]. unfold turns in Hm |- *. cbn [filter] in Hm. destruct e as [u|u].
      * destruct (Nat.eqb_spec u w) as [->|Hne].
        -- pose proof (measure_step s w p E Es). cbn [length] in Hm. lia.
        -- pose proof (measure_le s (Step u)). lia.
      * pose proof (measure_le s (Kill u)). lia.
Qed.

(** without kills and exceptions no process fails *)
Lemma no_failures sched : (forall i j, i < m -> j < n -> exists v, f i j = Ok v) -> Forall (fun e => match e with Step _ => True | Kill _ => False end) sched ->
  forall s done lost, inv s done lost -> failures (s_procs s) = 0 -> failures (s_procs (q2_run f s sched)) = 0.
Proof.
  intros Hf F. induction F as [|e sched He F IH]; intros s done lost I H0; cbn; auto.
  destruct (inv_step s done lost e I) as (d & l & I'). apply (IH _ d l I'). clear IH I'.
  destruct e as [w|w]; [|contradiction]. cbn [q2_step]. destruct (nth_error (s_procs s) w) as [p|] eqn:E; auto. destruct p as [|t|t v| | |]; auto.
  - destruct (s_queue s) as [|t q]; cbn [s_procs].
    + sp E PEnded. rewrite E2. rewrite E1 in H0. pose proof (failures_mid l1 l2 PAsk PEnded). cbn in H. lia.
    + sp E (PTask t). rewrite E2. rewrite E1 in H0. pose proof (failures_mid l1 l2 PAsk (PTask t)). cbn in H. lia.
  - assert (Ht : proper t) by (apply (i_procs _ _ _ I (PTask t)); eapply nth_error_In; eauto).
    assert (Hlt : task_slot t < m * n).
    { assert (H : In (task_slot t) (seq 0 (m * n))); [|apply in_seq in H; lia]. eapply Permutation_in; [exact (i_perm _ _ _ I)|]. rewrite !in_app_iff. right. right. left. apply in_flat_map. exists (PTask t). split; [eapply nth_error_In; eauto|left; auto]. }
    assert (Hn0 : n <> 0) by (intros Hz; rewrite Hz in Hlt; lia).
    destruct (Hf (td_i t) (td_j t)) as (v & Ev).
    { rewrite (proper_i t Ht). apply Nat.div_lt_upper_bound; lia. } { rewrite (proper_j t Ht). apply Nat.mod_upper_bound. auto. }
    rewrite Ev. cbn [s_procs]. sp E (PValue t v). rewrite E2. rewrite E1 in H0. pose proof (failures_mid l1 l2 (PTask t) (PValue t v)). cbn in H. lia.
  - cbn [s_procs]. sp E PAsk. rewrite E2. rewrite E1 in H0. pose proof (failures_mid l1 l2 (PValue t v) PAsk). cbn in H. lia.
Qed.

(** when every process has stopped *)
Lemma joined_held ps : forallb stopped ps = true -> flat_map held ps = [].
Proof. induction ps as [|p ps IH]; cbn; auto. intros H. apply andb_true_iff in H. destruct H as [A B]. rewrite IH by auto. destruct p; try discriminate; auto. Qed.
Lemma start_measure p : measure (q2_start p m n) = 3 * (m * n) + Z.to_nat p.
Proof.
  unfold measure, q2_start, all_tasks. cbn [s_queue s_procs]. rewrite map_length, seq_length.
  assert (H : forall c, list_sum (map weight (repeat PAsk c)) = c) by (induction c; cbn; auto). rewrite H. reflexivity.
Qed.
Lemma start_failures p : failures (s_procs (q2_start p m n)) = 0.
Proof. unfold failures, q2_start. cbn [s_procs]. induction (Z.to_nat p); cbn; auto. Qed.
End Run.
