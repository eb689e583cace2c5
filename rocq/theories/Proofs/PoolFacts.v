(** Every schedule of the worker pool ends and gives the same shared array. *)
From Coq Require Import ZifyBool ZifyNat Wellfounded.
From Verif Require Import Base.Py Base.PyFacts Base.Arr Base.Float Model.Pool.

Lemma replace_nth_split : forall {A} (l : list A) n a b, nth_error l n = Some a ->
  exists l1 l2, l = l1 ++ a :: l2 /\ length l1 = n /\ replace_nth l n b = l1 ++ b :: l2.
Proof.
  induction l as [ | x l IH ]; intros [ | n ] a b H; cbn in H; try discriminate.
  - injection H as ->. exists [], l. auto.
  - destruct (IH _ _ b H) as (l1 & l2 & -> & <- & E). exists (x :: l1), l2. cbn. rewrite E. auto.
Qed.

Lemma nth_error_replace_in : forall {A} (l : list A) n m x, n < length l ->
  nth_error (replace_nth l n x) m = if m =? n then Some x else nth_error l m.
Proof.
  intros A l n m x H. rewrite nth_error_replace_nth, Nat.eqb_sym. destruct (Nat.ltb_spec n (length l)); [ reflexivity | lia ].
Qed.

Lemma chunks_fuel_concat : forall {T} f size (l : list T), 0 < size -> length l <= f -> concat (chunks_fuel f size l) = l.
Proof.
  induction f as [ | f IH ]; intros size [ | x l ] Hs Hl; cbn in Hl; try reflexivity; try lia.
  cbn [chunks_fuel]. cbn [concat]. rewrite IH.
  - apply firstn_skipn.
  - exact Hs.
  - rewrite skipn_length. cbn [length]. lia.
Qed.
Lemma chunks_concat : forall {T} size (l : list T), 0 < size -> concat (chunks size l) = l.
Proof. intros. apply chunks_fuel_concat; auto. Qed.

Section Facts.
Context {T : Type} (slot : T -> nat) (run : T -> res fnum).

(** additive weights over task lists *)
Fixpoint wsum (P : T -> nat) (l : list T) : nat := match l with [] => 0 | t :: l => P t + wsum P l end.
Lemma wsum_app : forall P l1 l2, wsum P (l1 ++ l2) = wsum P l1 + wsum P l2.
Proof. induction l1; cbn; intros; [ reflexivity | rewrite IHl1; lia ]. Qed.
Lemma wsum_in : forall P l t, In t l -> P t <= wsum P l.
Proof. induction l; cbn; intros t H; [ tauto | destruct H as [ -> | H ]; [ lia | specialize (IHl _ H); lia ] ]. Qed.
Lemma wsum_pos : forall P l, 0 < wsum P l -> exists t, In t l /\ 0 < P t.
Proof.
  induction l; cbn; intros H; [ lia | ].
  destruct (P a) eqn:E; [ destruct IHl as (t & Hi & Hp); [ lia | eauto ] | exists a; split; [ auto | lia ] ].
Qed.

Definition at_slot (i : nat) (t : T) : nat := if slot t =? i then 1 else 0.
Lemma wsum_at_slot_nodup : forall l i, NoDup (map slot l) -> wsum (at_slot i) l <= 1.
Proof.
  induction l; cbn; intros i H; [ lia | ]. inversion H; subst.
  specialize (IHl i H3). unfold at_slot at 1. destruct (Nat.eqb_spec (slot a) i); [ | lia ].
  destruct (wsum (at_slot i) l) eqn:E; [ lia | ]. exfalso.
  destruct (wsum_pos (at_slot i) l) as (t & Ht & Hp); [ lia | ]. unfold at_slot in Hp.
  destruct (Nat.eqb_spec (slot t) i); [ | lia ]. apply H2. apply in_map_iff. exists t. split; [ congruence | exact Ht ].
Qed.
Lemma slot_inj : forall l t t', NoDup (map slot l) -> In t l -> In t' l -> slot t = slot t' -> t = t'.
Proof.
  induction l; cbn; intros t t' H Ht Ht' E; [ tauto | ]. inversion H; subst.
  destruct Ht as [ -> | Ht ], Ht' as [ -> | Ht' ]; auto.
  - exfalso. apply H2. rewrite E. apply in_map; auto.
  - exfalso. apply H2. rewrite <- E. apply in_map; auto.
Qed.

Definition wtasks (w : wstate T) : list T :=
  match w with Idle => [] | Todo r => r | Computed t _ r => t :: r | Holding t _ r => t :: r | Written r => r end.
Definition holds (w : wstate T) : bool := match w with Holding _ _ _ | Written _ => true | _ => false end.
Definition wok (w : wstate T) : Prop := match w with Computed t v _ | Holding t v _ => run t = Ok v | _ => True end.

Record inv (tasks : list T) (out0 : list fnum) (n : nat) (s : pstate T) (done dropped : list T) : Prop := Inv {
  i_sum : forall P, wsum P done + wsum P dropped + wsum P (concat (p_queue s)) + wsum P (flat_map wtasks (p_workers s)) = wsum P tasks;
  i_in : forall t, In t done \/ In t dropped \/ In t (concat (p_queue s)) \/ In t (flat_map wtasks (p_workers s)) -> In t tasks;
  i_done : forall t, In t done -> exists v, run t = Ok v /\ nth_error (p_out s) (slot t) = Some v;
  i_other : forall i, (forall t, In t done -> slot t <> i) -> nth_error (p_out s) i = nth_error out0 i;
  i_len : length (p_out s) = length out0;
  i_wok : forall w, In w (p_workers s) -> wok w;
  i_ok : p_failed s = None -> dropped = [];
  i_failed : forall e, p_failed s = Some e -> exists t, In t tasks /\ run t = Raise e;
  i_lock : forall w, p_lock s = Some w <-> exists st, nth_error (p_workers s) w = Some st /\ holds st = true;
  i_n : length (p_workers s) = n
}.

Lemma inv_start : forall tasks out0 n size, 0 < size -> inv tasks out0 n (pool_start n size tasks out0) [] [].
Proof.
  intros tasks out0 n size Hs.
  assert (Hw : flat_map wtasks (repeat Idle n) = []) by (induction n; cbn; auto).
  constructor; cbn; try rewrite (chunks_concat _ _ Hs); try rewrite Hw; cbn; auto.
  - intros t [ [] | [ [] | [ H | [] ] ] ]; exact H.
  - intros t [].
  - intros w H. apply repeat_spec in H. subst. exact I.
  - discriminate.
  - intros w. split; [ discriminate | ]. intros (st & H & Hh). apply nth_error_In, repeat_spec in H. subst. discriminate.
  - apply repeat_length.
Qed.

(** how the lock clause changes when worker [w] goes from [a] to [b] *)
Lemma lock_same : forall (ws : list (wstate T)) w a b lk,
  nth_error ws w = Some a -> holds a = holds b ->
  (forall u, lk = Some u <-> exists st, nth_error ws u = Some st /\ holds st = true) ->
  forall u, lk = Some u <-> exists st, nth_error (replace_nth ws w b) u = Some st /\ holds st = true.
Proof.
  intros ws w a b lk Hw Hh H u. rewrite H.
  assert (Hl : w < length ws) by (apply nth_error_Some; congruence).
  rewrite nth_error_replace_in by exact Hl.
  destruct (Nat.eqb_spec u w) as [ -> | ].
  - split; intros (st & E & Hs).
    + exists b. split; [ reflexivity | congruence ].
    + exists a. split; [ exact Hw | congruence ].
  - reflexivity.
Qed.

Lemma workers_split : forall (ws : list (wstate T)) w a b, nth_error ws w = Some a ->
  exists l1 l2, flat_map wtasks ws = l1 ++ wtasks a ++ l2 /\ flat_map wtasks (replace_nth ws w b) = l1 ++ wtasks b ++ l2.
Proof.
  intros ws w a b H. destruct (replace_nth_split _ _ _ b H) as (l1 & l2 & -> & _ & ->).
  exists (flat_map wtasks l1), (flat_map wtasks l2). rewrite !flat_map_app. cbn. auto.
Qed.

Lemma wok_replace : forall (ws : list (wstate T)) w b, (forall u, In u ws -> wok u) -> wok b ->
  forall u, In u (replace_nth ws w b) -> wok u.
Proof. intros ws w b H Hb u Hu. apply in_replace_nth in Hu. destruct Hu as [ -> | Hu ]; auto. Qed.

Lemma inv_step : forall tasks out0 n s s' done dropped,
  NoDup (map slot tasks) -> (forall t, In t tasks -> slot t < length out0) ->
  inv tasks out0 n s done dropped -> pstep slot run s s' ->
  exists done' dropped', inv tasks out0 n s' done' dropped'.
Proof.
  intros tasks out0 n s s' done dropped Hnd Hslot [ Isum Iin Idone Iother Ilen Iwok Iok Ifail Ilock In_ ] Hstep.
  destruct Hstep as [ c q ws lk out f w Hw | q ws lk out f w Hw | q ws lk out f w t v rest Hw Hr | q ws lk out f w t e rest Hw Hr
                    | q ws out f w t v rest Hw | q ws lk out f w t v rest Hw | q ws lk out f w rest Hw ]; cbn in *.
  - (* take *) exists done, dropped. destruct (workers_split _ _ _ (Todo c) Hw) as (l1 & l2 & E1 & E2). cbn in E1, E2.
    constructor; cbn; auto.
    + intros P. specialize (Isum P). rewrite E1, !wsum_app in Isum. rewrite E2, !wsum_app. lia.
    + intros t Ht. apply Iin. rewrite E1. rewrite E2 in Ht. rewrite !in_app_iff in *. tauto.
    + apply wok_replace; cbn; auto.
    + eapply lock_same; [ exact Hw | reflexivity | exact Ilock ].
    + rewrite replace_nth_length. exact In_.
  - (* finish *) exists done, dropped. destruct (workers_split _ _ _ Idle Hw) as (l1 & l2 & E1 & E2). cbn in E1, E2.
    constructor; cbn; auto.
    + intros P. specialize (Isum P). rewrite E1 in Isum. rewrite E2. exact Isum.
    + intros t Ht. apply Iin. rewrite E1. rewrite E2 in Ht. exact Ht.
    + apply wok_replace; cbn; auto.
    + eapply lock_same; [ exact Hw | reflexivity | exact Ilock ].
    + rewrite replace_nth_length. exact In_.
  - (* compute *) exists done, dropped. destruct (workers_split _ _ _ (Computed t v rest) Hw) as (l1 & l2 & E1 & E2). cbn in E1, E2.
    constructor; cbn; auto.
    + intros P. specialize (Isum P). rewrite E1 in Isum. rewrite E2. exact Isum.
    + intros t' Ht. apply Iin. rewrite E1. rewrite E2 in Ht. exact Ht.
    + apply wok_replace; cbn; auto.
    + eapply lock_same; [ exact Hw | reflexivity | exact Ilock ].
    + rewrite replace_nth_length. exact In_.
  - (* raise *) exists done, (t :: rest ++ dropped). destruct (workers_split _ _ _ Idle Hw) as (l1 & l2 & E1 & E2). cbn in E1, E2.
    constructor; cbn; auto.
    + intros P. specialize (Isum P). rewrite E1, !wsum_app in Isum. cbn in Isum. rewrite wsum_app in Isum. rewrite E2, !wsum_app. lia.
    + intros t' Ht. apply Iin. rewrite E1. rewrite E2 in Ht. rewrite in_app_iff in *. cbn in *. rewrite !in_app_iff in *. tauto.
    + apply wok_replace; cbn; auto.
    + destruct f; discriminate.
    + intros e0 He. destruct f as [ e1 | ].
      * apply Ifail. exact He.
      * injection He as <-. exists t. split; [ | exact Hr ]. apply Iin. rewrite E1, in_app_iff. cbn. tauto.
    + eapply lock_same; [ exact Hw | reflexivity | exact Ilock ].
    + rewrite replace_nth_length. exact In_.
  - (* acquire *) exists done, dropped. destruct (workers_split _ _ _ (Holding t v rest) Hw) as (l1 & l2 & E1 & E2). cbn in E1, E2.
    constructor; cbn; auto.
    + intros P. specialize (Isum P). rewrite E1 in Isum. rewrite E2. exact Isum.
    + intros t' Ht. apply Iin. rewrite E1. rewrite E2 in Ht. exact Ht.
    + apply wok_replace; cbn; auto. apply (Iwok (Computed t v rest)). apply (nth_error_In _ _ Hw).
    + assert (Hl : w < length ws) by (apply nth_error_Some; congruence).
      intros u. rewrite nth_error_replace_in by exact Hl. destruct (Nat.eqb_spec u w) as [ -> | Hne ].
      * split; [ intros _ | reflexivity ]. exists (Holding t v rest). auto.
      * split; [ congruence | ]. intros Hex. apply Ilock in Hex. discriminate.
    + rewrite replace_nth_length. exact In_.
  - (* write *) exists (t :: done), dropped. destruct (workers_split _ _ _ (Written rest) Hw) as (l1 & l2 & E1 & E2). cbn in E1, E2.
    assert (Ht : In t tasks) by (apply Iin; rewrite E1, in_app_iff; cbn; tauto).
    assert (Hl : slot t < length out) by (rewrite Ilen; auto).
    assert (Hfresh : forall t', In t' done -> slot t' <> slot t).
    { intros t' Hd He. specialize (Isum (at_slot (slot t))). rewrite E1, wsum_app in Isum. cbn in Isum.
      pose proof (wsum_at_slot_nodup tasks (slot t) Hnd).
      pose proof (wsum_in (at_slot (slot t)) _ _ Hd) as H1.
      unfold at_slot at 1 in H1. rewrite He, Nat.eqb_refl in H1.
      assert (at_slot (slot t) t = 1) by (unfold at_slot; rewrite Nat.eqb_refl; reflexivity). lia. }
    constructor; cbn.
    + intros P. specialize (Isum P). rewrite E1, wsum_app in Isum. cbn in Isum. rewrite E2, wsum_app.
      rewrite wsum_app in Isum. rewrite wsum_app. lia.
    + intros t' H'. destruct H' as [ [ <- | H' ] | H' ]; [ exact Ht | apply Iin; tauto | ].
      apply Iin. rewrite E1. rewrite E2 in H'. rewrite in_app_iff in *. cbn. rewrite !in_app_iff in *. tauto.
    + intros t' [ <- | Hd ].
      * exists v. split; [ apply (Iwok (Holding t v rest)); apply (nth_error_In _ _ Hw) | ].
        rewrite nth_error_replace_in by exact Hl. rewrite Nat.eqb_refl. reflexivity.
      * rewrite nth_error_replace_in by exact Hl. destruct (Nat.eqb_spec (slot t') (slot t)) as [ E | _ ]; [ | auto ].
        elim (Hfresh _ Hd E).
    + intros i Hi. rewrite nth_error_replace_in by exact Hl. destruct (Nat.eqb_spec i (slot t)) as [ -> | _ ].
      * elim (Hi t); auto.
      * apply Iother. intros t' Hd. apply Hi. auto.
    + rewrite replace_nth_length. exact Ilen.
    + apply wok_replace; cbn; auto.
    + auto.
    + auto.
    + eapply lock_same; [ exact Hw | reflexivity | exact Ilock ].
    + rewrite replace_nth_length. exact In_.
  - (* release *) exists done, dropped. destruct (workers_split _ _ _ (Todo rest) Hw) as (l1 & l2 & E1 & E2). cbn in E1, E2.
    constructor; cbn; auto.
    + intros P. specialize (Isum P). rewrite E1 in Isum. rewrite E2. exact Isum.
    + intros t' Ht. apply Iin. rewrite E1. rewrite E2 in Ht. exact Ht.
    + apply wok_replace; cbn; auto.
    + assert (Hl : w < length ws) by (apply nth_error_Some; congruence).
      assert (Hk : lk = Some w) by (apply Ilock; exists (Written rest); auto).
      intros u. rewrite nth_error_replace_in by exact Hl. split; [ discriminate | ]. intros (st & E & Hs).
      destruct (Nat.eqb_spec u w) as [ -> | Hne ]; [ injection E as <-; discriminate | ].
      assert (lk = Some u) by (apply Ilock; eauto). congruence.
    + rewrite replace_nth_length. exact In_.
Qed.

Lemma inv_reach : forall tasks out0 n size s, 0 < size ->
  NoDup (map slot tasks) -> (forall t, In t tasks -> slot t < length out0) ->
  psteps slot run (pool_start n size tasks out0) s ->
  exists done dropped, inv tasks out0 n s done dropped.
Proof.
  intros tasks out0 n size s Hs Hnd Hsl H.
  remember (pool_start n size tasks out0) as s0 eqn:E0.
  induction H as [ s | s s' s'' H IH Hst ].
  - subst. exists [], []. apply inv_start. exact Hs.
  - destruct (IH E0) as (d & dr & Hi). eapply inv_step; eauto.
Qed.

Lemma pool_done_pending : forall (s : pstate T) P, pool_done s ->
  wsum P (concat (p_queue s)) = 0 /\ wsum P (flat_map wtasks (p_workers s)) = 0.
Proof.
  intros s P [ Hq Hw ]. rewrite Hq. split; [ reflexivity | ].
  assert (flat_map wtasks (p_workers s) = []) as ->; [ | reflexivity ].
  induction (p_workers s) as [ | w l IH ]; cbn; [ reflexivity | ].
  rewrite (Hw w) by (left; reflexivity). cbn. apply IH. intros. apply Hw. right. assumption.
Qed.

(** when map returns, every slot holds the result of its task, and nothing else has changed *)
Lemma pool_result : forall tasks out0 n size s out, 0 < size ->
  NoDup (map slot tasks) -> (forall t, In t tasks -> slot t < length out0) ->
  psteps slot run (pool_start n size tasks out0) s -> pool_done s -> pool_outcome s = Ok out ->
  length out = length out0 /\
  (forall t, In t tasks -> exists v, run t = Ok v /\ nth_error out (slot t) = Some v) /\
  (forall i, (forall t, In t tasks -> slot t <> i) -> nth_error out i = nth_error out0 i).
Proof.
  intros tasks out0 n size s out Hs Hnd Hsl Hr Hd Ho.
  destruct (inv_reach _ _ _ _ _ Hs Hnd Hsl Hr) as (done & dropped & [ Isum Iin Idone Iother Ilen Iwok Iok Ifail Ilock In_ ]).
  unfold pool_outcome in Ho. destruct (p_failed s) eqn:Ef; [ discriminate | ]. injection Ho as <-.
  rewrite (Iok eq_refl) in *. split; [ exact Ilen | split ].
  - intros t Ht.
    destruct (pool_done_pending s (at_slot (slot t)) Hd) as [ E1 E2 ]. specialize (Isum (at_slot (slot t))). rewrite E1, E2 in Isum. cbn in Isum.
    pose proof (wsum_in (at_slot (slot t)) _ _ Ht) as H1. unfold at_slot at 1 in H1. rewrite Nat.eqb_refl in H1.
    destruct (wsum_pos (at_slot (slot t)) done) as (t' & Ht' & Hp); [ lia | ].
    unfold at_slot in Hp. destruct (Nat.eqb_spec (slot t') (slot t)) as [ E | ]; [ | lia ].
    assert (t' = t) as -> by (eapply slot_inj; eauto). auto.
  - intros i Hi. apply Iother. intros t Ht. apply Hi. apply Iin. auto.
Qed.

(** map raises exactly if a task raises, and then the exception of some task *)
Lemma pool_failure : forall tasks out0 n size s, 0 < size ->
  NoDup (map slot tasks) -> (forall t, In t tasks -> slot t < length out0) ->
  psteps slot run (pool_start n size tasks out0) s -> pool_done s ->
  (forall e, pool_outcome s = Raise e -> exists t, In t tasks /\ run t = Raise e) /\
  (forall t e, In t tasks -> run t = Raise e -> exists e', pool_outcome s = Raise e').
Proof.
  intros tasks out0 n size s Hs Hnd Hsl Hr Hd. split.
  - intros e He. destruct (inv_reach _ _ _ _ _ Hs Hnd Hsl Hr) as (done & dropped & I). unfold pool_outcome in He.
    destruct (p_failed s) eqn:Ef; [ | discriminate ]. injection He as ->. exact (i_failed _ _ _ _ _ _ I _ Ef).
  - intros t e Ht He. destruct (pool_outcome s) as [ out | e' ] eqn:Eo; [ | eauto ].
    destruct (pool_result _ _ _ _ _ _ Hs Hnd Hsl Hr Hd Eo) as (_ & H & _). destruct (H _ Ht) as (v & Hv & _). congruence.
Qed.

(** a pool that is not finished can go on: no deadlock *)
Lemma pool_progress : forall tasks out0 n size s, 0 < size -> 0 < n ->
  NoDup (map slot tasks) -> (forall t, In t tasks -> slot t < length out0) ->
  psteps slot run (pool_start n size tasks out0) s -> pool_done s \/ exists s', pstep slot run s s'.
Proof.
  intros tasks out0 n size s Hs Hn Hnd Hsl Hr.
  destruct (inv_reach _ _ _ _ _ Hs Hnd Hsl Hr) as (done & dropped & [ _ _ _ _ _ _ _ _ Ilock In_ ]). clear Hr.
  assert (Hdec : (forall w, In w (p_workers s) -> w = Idle) \/ exists k w, nth_error (p_workers s) k = Some w /\ w <> Idle).
  { clear. induction (p_workers s) as [ | w l [ IH | (k & w' & IH & Hne) ] ].
    - left. intros ? [].
    - destruct w; [ left; intros w [ <- | H ]; auto | right; exists 0; eexists; split; [ reflexivity | discriminate ] .. ].
    - right. exists (S k), w'. auto. }
  destruct s as [ q ws lk out f ]. cbn in *. destruct Hdec as [ Hidle | (k & w & Hk & Hne) ].
  - destruct q as [ | c q ]; [ left; split; auto | right ].
    destruct ws as [ | w ws ]; [ cbn in In_; lia | ].
    eexists. apply (st_take slot run c q (w :: ws) lk out f 0). cbn. rewrite (Hidle w); [ reflexivity | left; reflexivity ].
  - right. destruct w as [ | [ | t rest ] | t v rest | t v rest | rest ].
    + congruence.
    + eexists. apply (st_finish slot run q ws lk out f k Hk).
    + destruct (run t) as [ v | e ] eqn:Er.
      * eexists. apply (st_compute slot run q ws lk out f k t v rest Hk Er).
      * eexists. apply (st_raise slot run q ws lk out f k t e rest Hk Er).
    + destruct lk as [ u | ].
      * destruct (proj1 (Ilock u) eq_refl) as (st & Hu & Hh). destruct st as [ | | | t' v' rest' | rest' ]; try discriminate Hh.
        -- eexists. apply (st_write slot run q ws (Some u) out f u t' v' rest' Hu).
        -- eexists. apply (st_release slot run q ws (Some u) out f u rest' Hu).
      * eexists. apply (st_acquire slot run q ws out f k t v rest Hk).
    + eexists. apply (st_write slot run q ws lk out f k t v rest Hk).
    + eexists. apply (st_release slot run q ws lk out f k rest Hk).
Qed.

(** every step makes progress: schedules are finite *)
Definition wmeasure (w : wstate T) : nat :=
  match w with Idle => 0 | Todo r => 1 + 4 * length r | Computed _ _ r => 4 + 4 * length r
             | Holding _ _ r => 3 + 4 * length r | Written r => 2 + 4 * length r end.
Definition lsum (l : list nat) := fold_right Nat.add 0 l.
Definition pmeasure (s : pstate T) : nat :=
  lsum (map (fun c => 2 + 4 * length c) (p_queue s)) + lsum (map wmeasure (p_workers s)).

Lemma lsum_app : forall l1 l2, lsum (l1 ++ l2) = lsum l1 + lsum l2.
Proof. induction l1; intros; [ reflexivity | ]. change (a + lsum (l1 ++ l2) = a + lsum l1 + lsum l2). rewrite IHl1. lia. Qed.
Lemma lsum_cons : forall a l, lsum (a :: l) = a + lsum l.
Proof. reflexivity. Qed.

Lemma measure_replace : forall (ws : list (wstate T)) w a b, nth_error ws w = Some a ->
  lsum (map wmeasure (replace_nth ws w b)) + wmeasure a = lsum (map wmeasure ws) + wmeasure b.
Proof.
  intros ws w a b H. destruct (replace_nth_split _ _ _ b H) as (l1 & l2 & -> & _ & ->).
  rewrite !map_app. cbn [map]. rewrite !lsum_app, !lsum_cons. lia.
Qed.

Lemma pstep_measure : forall s s', pstep slot run s s' -> pmeasure s' < pmeasure s.
Proof.
  intros s s' H. unfold pmeasure.
  destruct H as [ c q ws lk out f w Hw | q ws lk out f w Hw | q ws lk out f w t v rest Hw _ | q ws lk out f w t e rest Hw _
                | q ws out f w t v rest Hw | q ws lk out f w t v rest Hw | q ws lk out f w rest Hw ];
    cbn [p_queue p_workers map]; rewrite ?lsum_cons;
    pose proof (fun b => measure_replace _ _ _ b Hw) as M.
  - specialize (M (Todo c)). cbn [wmeasure length] in M. lia.
  - specialize (M Idle). cbn [wmeasure length] in M. lia.
  - specialize (M (Computed t v rest)). cbn [wmeasure length] in M. lia.
  - specialize (M Idle). cbn [wmeasure length] in M. lia.
  - specialize (M (Holding t v rest)). cbn [wmeasure length] in M. lia.
  - specialize (M (Written rest)). cbn [wmeasure length] in M. lia.
  - specialize (M (Todo rest)). cbn [wmeasure length] in M. lia.
Qed.

Lemma pool_terminates : well_founded (fun s' s => pstep slot run s s').
Proof.
  apply (wf_incl _ _ (fun a b => pmeasure a < pmeasure b)).
  - intros a b H. apply pstep_measure. exact H.
  - apply (wf_inverse_image _ nat lt pmeasure). apply Wf_nat.lt_wf.
Qed.

Lemma pool_completes : forall tasks out0 n size s, 0 < size -> 0 < n ->
  NoDup (map slot tasks) -> (forall t, In t tasks -> slot t < length out0) ->
  psteps slot run (pool_start n size tasks out0) s ->
  exists s', psteps slot run s s' /\ pool_done s'.
Proof.
  intros tasks out0 n size s Hs Hn Hnd Hsl. induction (pool_terminates s) as [ s _ IH ]. intros Hr.
  destruct (pool_progress _ _ _ _ _ Hs Hn Hnd Hsl Hr) as [ Hd | (s1 & Hst) ].
  - exists s. split; [ constructor | exact Hd ].
  - destruct (IH s1 Hst) as (s2 & H2 & Hd2); [ econstructor; eauto | ].
    exists s2. split; [ | exact Hd2 ].
    clear - Hst H2. induction H2 as [ a | a b c _ IH Hbc ].
    + econstructor; [ constructor | exact Hst ].
    + econstructor; [ apply IH; exact Hst | exact Hbc ].
Qed.

(** mutual exclusion *)
Lemma pool_mutex : forall tasks out0 n size s, 0 < size ->
  NoDup (map slot tasks) -> (forall t, In t tasks -> slot t < length out0) ->
  psteps slot run (pool_start n size tasks out0) s ->
  forall u w a b, nth_error (p_workers s) u = Some a -> nth_error (p_workers s) w = Some b ->
  holds a = true -> holds b = true -> u = w.
Proof.
  intros tasks out0 n size s Hs Hnd Hsl Hr u w a b Hu Hw Ha Hb.
  destruct (inv_reach _ _ _ _ _ Hs Hnd Hsl Hr) as (done & dropped & I).
  assert (p_lock s = Some u) by (apply (i_lock _ _ _ _ _ _ I); eauto).
  assert (p_lock s = Some w) by (apply (i_lock _ _ _ _ _ _ I); eauto).
  congruence.
Qed.

(* ---------- the queue of parallel_old.py, for tasks that do not raise ---------- *)

Definition qtasks (w : qwstate T) : list T := match w with QBusy t => [t] | _ => [] end.

Record qinv (tasks : list T) (out0 : list fnum) (n : nat) (s : qstate T) (done : list T) : Prop := QInv {
  qi_sum : forall P, wsum P done + wsum P (q_queue s) + wsum P (flat_map qtasks (q_workers s)) = wsum P tasks;
  qi_in : forall t, In t done \/ In t (q_queue s) \/ In t (flat_map qtasks (q_workers s)) -> In t tasks;
  qi_done : forall t, In t done -> exists v, run t = Ok v /\ nth_error (q_out s) (slot t) = Some v;
  qi_other : forall i, (forall t, In t done -> slot t <> i) -> nth_error (q_out s) i = nth_error out0 i;
  qi_len : length (q_out s) = length out0;
  qi_end : In QDone (q_workers s) -> q_queue s = [];
  qi_n : length (q_workers s) = n
}.

Lemma qinv_start : forall tasks out0 n, qinv tasks out0 n (queue_start n tasks out0) [].
Proof.
  intros tasks out0 n.
  assert (Hw : flat_map qtasks (repeat QAsk n) = []) by (induction n; cbn; auto).
  constructor; cbn; try rewrite Hw; cbn; auto.
  - intros t [ [] | [ H | [] ] ]; exact H.
  - intros t [].
  - intros H. apply repeat_spec in H. discriminate.
  - apply repeat_length.
Qed.

Lemma qworkers_split : forall (ws : list (qwstate T)) w a b, nth_error ws w = Some a ->
  exists l1 l2, flat_map qtasks ws = l1 ++ qtasks a ++ l2 /\ flat_map qtasks (replace_nth ws w b) = l1 ++ qtasks b ++ l2.
Proof.
  intros ws w a b H. destruct (replace_nth_split _ _ _ b H) as (l1 & l2 & -> & _ & ->).
  exists (flat_map qtasks l1), (flat_map qtasks l2). rewrite !flat_map_app. cbn. auto.
Qed.

Lemma qinv_step : forall tasks out0 n s s' done,
  NoDup (map slot tasks) -> (forall t, In t tasks -> slot t < length out0) ->
  (forall t, In t tasks -> exists v, run t = Ok v) ->
  qinv tasks out0 n s done -> qstep slot run s s' -> exists done', qinv tasks out0 n s' done'.
Proof.
  intros tasks out0 n s s' done Hnd Hslot Hrun [ Isum Iin Idone Iother Ilen Iend In_ ] Hstep.
  destruct Hstep as [ t q ws out w Hw | ws out w Hw | q ws out w t v Hw Hr | q ws out w t e Hw Hr ]; cbn in *.
  - exists done. destruct (qworkers_split _ _ _ (QBusy t) Hw) as (l1 & l2 & E1 & E2). cbn in E1, E2.
    constructor; cbn; auto.
    + intros P. specialize (Isum P). rewrite E1, wsum_app in Isum. rewrite E2, wsum_app. cbn. lia.
    + intros t' Ht. apply Iin. rewrite E1. rewrite E2 in Ht. rewrite !in_app_iff in *. cbn in *. tauto.
    + intros Hd. apply in_replace_nth in Hd. destruct Hd as [ Hd | Hd ]; [ discriminate | ]. specialize (Iend Hd). discriminate.
    + rewrite replace_nth_length. exact In_.
  - exists done. destruct (qworkers_split _ _ _ QDone Hw) as (l1 & l2 & E1 & E2). cbn in E1, E2.
    constructor; cbn; auto.
    + intros P. specialize (Isum P). rewrite E1 in Isum. rewrite E2. exact Isum.
    + intros t' Ht. apply Iin. rewrite E1. rewrite E2 in Ht. exact Ht.
    + rewrite replace_nth_length. exact In_.
  - exists (t :: done). destruct (qworkers_split _ _ _ QAsk Hw) as (l1 & l2 & E1 & E2). cbn in E1, E2.
    assert (Ht : In t tasks) by (apply Iin; rewrite E1, in_app_iff; cbn; tauto).
    assert (Hl : slot t < length out) by (rewrite Ilen; auto).
    assert (Hfresh : forall t', In t' done -> slot t' <> slot t).
    { intros t' Hd He. specialize (Isum (at_slot (slot t))). rewrite E1, wsum_app in Isum. cbn in Isum.
      pose proof (wsum_at_slot_nodup tasks (slot t) Hnd).
      pose proof (wsum_in (at_slot (slot t)) _ _ Hd) as H1.
      unfold at_slot at 1 in H1. rewrite He, Nat.eqb_refl in H1.
      assert (at_slot (slot t) t = 1) by (unfold at_slot; rewrite Nat.eqb_refl; reflexivity). lia. }
    constructor; cbn.
    + intros P. specialize (Isum P). rewrite E1, wsum_app in Isum. cbn in Isum. rewrite E2, wsum_app. lia.
    + intros t' H'. destruct H' as [ [ <- | H' ] | H' ]; [ exact Ht | apply Iin; tauto | ].
      apply Iin. rewrite E1. rewrite E2 in H'. rewrite in_app_iff in *. cbn. tauto.
    + intros t' [ <- | Hd ].
      * exists v. split; [ exact Hr | ]. rewrite nth_error_replace_in by exact Hl. rewrite Nat.eqb_refl. reflexivity.
      * rewrite nth_error_replace_in by exact Hl. destruct (Nat.eqb_spec (slot t') (slot t)) as [ E | _ ]; [ | auto ].
        elim (Hfresh _ Hd E).
    + intros i Hi. rewrite nth_error_replace_in by exact Hl. destruct (Nat.eqb_spec i (slot t)) as [ -> | _ ].
      * elim (Hi t); auto.
      * apply Iother. intros t' Hd. apply Hi. auto.
    + rewrite replace_nth_length. exact Ilen.
    + intros Hd. apply in_replace_nth in Hd. destruct Hd as [ Hd | Hd ]; [ discriminate | auto ].
    + rewrite replace_nth_length. exact In_.
  - exfalso. destruct (qworkers_split _ _ _ QAsk Hw) as (l1 & l2 & E1 & E2). cbn in E1, E2.
    assert (Ht : In t tasks) by (apply Iin; rewrite E1, in_app_iff; cbn; tauto).
    destruct (Hrun _ Ht) as (v & Hv). congruence.
Qed.

Lemma queue_result : forall tasks out0 n s, 0 < n ->
  NoDup (map slot tasks) -> (forall t, In t tasks -> slot t < length out0) ->
  (forall t, In t tasks -> exists v, run t = Ok v) ->
  qsteps slot run (queue_start n tasks out0) s -> queue_done s ->
  length (q_out s) = length out0 /\
  (forall t, In t tasks -> exists v, run t = Ok v /\ nth_error (q_out s) (slot t) = Some v) /\
  (forall i, (forall t, In t tasks -> slot t <> i) -> nth_error (q_out s) i = nth_error out0 i).
Proof.
  intros tasks out0 n s Hn Hnd Hsl Hrun Hr Hd.
  assert (Hinv : exists done, qinv tasks out0 n s done).
  { remember (queue_start n tasks out0) as s0 eqn:E0. clear Hd. induction Hr as [ s | s s' s'' H IH Hst ].
    - subst. exists []. apply qinv_start.
    - destruct (IH E0) as (d & Hi). eapply qinv_step; eauto. }
  destruct Hinv as (done & [ Isum Iin Idone Iother Ilen Iend In_ ]).
  assert (Hq : q_queue s = []).
  { apply Iend. destruct (q_workers s) as [ | w l ] eqn:E; [ cbn in In_; lia | ].
    rewrite <- (Hd w); [ left; reflexivity | rewrite E; left; reflexivity ]. }
  assert (Hw : flat_map qtasks (q_workers s) = []).
  { clear - Hd. unfold queue_done in Hd. induction (q_workers s) as [ | w l IH ]; cbn; [ reflexivity | ].
    rewrite (Hd w) by (left; reflexivity). cbn. apply IH. intros. apply Hd. right. assumption. }
  rewrite Hq, Hw in *. split; [ exact Ilen | split ].
  - intros t Ht. specialize (Isum (at_slot (slot t))). cbn in Isum.
    pose proof (wsum_in (at_slot (slot t)) _ _ Ht) as H1. unfold at_slot at 1 in H1. rewrite Nat.eqb_refl in H1.
    destruct (wsum_pos (at_slot (slot t)) done) as (t' & Ht' & Hp); [ lia | ].
    unfold at_slot in Hp. destruct (Nat.eqb_spec (slot t') (slot t)) as [ E | ]; [ | lia ].
    assert (t' = t) as -> by (eapply slot_inj; eauto). auto.
  - intros i Hi. apply Iother. intros t Ht. apply Hi. apply Iin. auto.
Qed.
End Facts.
