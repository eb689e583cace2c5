(** Facts for Model/KMedoidsRounded.v, along the lines of Proofs/KMedoidsFacts.v. *)
From Coq Require Import ZifyBool ZifyNat Lqa.
From Verif Require Import Base.Py Base.PyFacts Base.Arr Base.ArrFacts Base.Float Base.FloatFacts
     Model.KMedoids Model.Rounded Model.KMedoidsRounded Spec.Medoids Spec.Rounded Spec.KMedoidsRounded Proofs.KMedoidsFacts Proofs.RoundedFacts.
Local Open Scope nat_scope.

Section Rounded.
Variables (rnd : Q -> fnum) (sum : list fnum -> fnum).
Hypothesis Hrnd : rounding rnd.
Local Notation GC := (get_cost_r sum).
Local Notation TS := (try_swap_r rnd sum).
Local Notation OP := (one_pass_r rnd sum).
Local Notation KL := (kmedoids_loop_r rnd sum).
Local Notation RK := (run_kmedoids_r rnd sum).

(** a rounded difference above a tolerance is a real difference *)
Lemma rgain_less tol a b : fle (Fin 0) tol = true -> flt tol (rsub rnd a b) = true -> flt b a = true.
Proof using Hrnd.
  intros Ht H. destruct a as [ | | | a ], b as [ | | | b ]; try reflexivity; cbn [rsub fsub rounded] in H; unfold rsub in H; cbn in H;
    try (destruct tol; cbn in Ht, H; discriminate).
  apply flt_Fin. destruct (Qlt_le_dec b a) as [ L | L ]; [ exact L | exfalso ].
  assert (G : fle (rnd (a - b)%Q) (Fin 0) = true).
  { eapply fle_feqv; [ apply feqv_refl | apply (rnd_zero rnd Hrnd 0%Q); reflexivity | ]. apply (rnd_mono rnd Hrnd). lra. }
  pose proof (flt_le_trans _ _ _ H G) as K. pose proof (flt_le_trans _ _ _ K Ht) as K2. rewrite flt_irrefl in K2. discriminate.
Qed.
(** two gains in a row are a gain *)
Lemma rgain_trans tol a b c : fle (Fin 0) tol = true ->
  flt tol (rsub rnd a b) = true -> flt tol (rsub rnd b c) = true -> flt tol (rsub rnd a c) = true.
Proof using Hrnd.
  intros Ht H1 H2. pose proof (rgain_less _ _ _ Ht H2) as L. pose proof (rgain_less _ _ _ Ht H1) as L0.
  destruct a as [ | | | a ], b as [ | | | b ], c as [ | | | c ]; cbn in L, L0; try discriminate; try exact H1; try exact H2.
  unfold rsub in *. cbn [fsub rounded] in *. eapply flt_le_trans; [ exact H1 | ]. apply (rnd_mono rnd Hrnd). apply Qltb_spec in L. lra.
Qed.

Definition r_cost_of (X : dataset) (D : distance) (ms : list Z) (labels : list nat) : cost :=
  let costs := map (fun j => sum (cluster_dists X D ms labels j)) (seq 0 (length ms)) in
  mkcost labels costs (sum costs)
    (map (fun i => map (fun j => dist_j X D ms j i) (seq 0 (length ms))) (seq 0 (length X))).

Lemma r_get_cost_ok X D ms : instance X D -> valid_indices X ms -> ms <> [] ->
  exists labels, GC X D (mk X ms) = Ok (r_cost_of X D ms labels) /\ length labels = length X /\
    (forall l, In l labels -> l < length ms) /\
    (forall i, i < length X -> np_argmin (map (fun j => dist_j X D ms j i) (seq 0 (length ms))) = Ok (nth i labels (length ms))).
Proof using.
  intros HI HV Hne. unfold get_cost_r. rewrite dist_to_medoids_spec by auto. cbn [bind]. rewrite mk_length.
  destruct (Nat.eqb_spec (length ms) 0) as [E|E]; [destruct ms; cbn in E; congruence|]. cbn [bind].
  set (rows := map (fun i => map (fun j => dist_j X D ms j i) (seq 0 (length ms))) (seq 0 (length X))).
  set (am := fun row => match np_argmin row with Ok r => r | Raise _ => 0 end).
  assert (Hrow : forall row, In row rows -> np_argmin row = Ok (am row) /\ am row < length ms).
  { intros row Hq. unfold rows in Hq. apply in_map_iff in Hq. destruct Hq as (i & Hrow & _).
    assert (L : length row = length ms) by (rewrite <- Hrow, map_length, seq_length; auto).
    destruct (np_argmin_ok row) as [r Er]; [destruct row; cbn in L; congruence|].
    unfold am. rewrite Er. split; auto. apply np_argmin_lt in Er. lia. }
  rewrite mapM_ok with (g := am) by (intros; apply Hrow; auto). cbn [bind].
  set (labels := map am rows).
  assert (Ll : length labels = length X) by (unfold labels, rows; rewrite !map_length, seq_length; auto).
  exists labels. split.
  { unfold r_cost_of.
    assert (Em : map (fun j => sum (member_dists labels rows j)) (seq 0 (length ms))
                 = map (fun j => sum (cluster_dists X D ms labels j)) (seq 0 (length ms))).
    { apply map_ext_in. intros j Hj. apply in_seq in Hj. f_equal. apply member_dists_eq; auto. lia. }
    rewrite Em. reflexivity. }
  split; auto. split.
  - intros l Hl. unfold labels in Hl. apply in_map_iff in Hl. destruct Hl as (row & <- & Hq). apply Hrow; auto.
  - intros i Hi. unfold labels, rows. rewrite map_map.
    rewrite nth_map_lt with (d' := 0) by (rewrite seq_length; auto). rewrite seq_nth by auto. cbn [plus].
    apply Hrow. unfold rows. apply in_map_iff. exists i. split; auto. apply in_seq. lia.
Qed.

Lemma r_get_cost_consistent X D ms c : instance X D -> valid_indices X ms -> ms <> [] -> dist_no_nan X D ->
  GC X D (mk X ms) = Ok c -> consistent_by sum X D ms c.
Proof using.
  intros HI HV Hne HN Hc. destruct (r_get_cost_ok X D ms HI HV Hne) as (labels & E & Ll & Hlt & Ham).
  rewrite Hc in E. injection E as E. subst c. unfold consistent_by, r_cost_of. cbn [c_labels c_costs c_total c_dist].
  split; auto. split; [|split; auto].
  intros i Hi. specialize (Ham i Hi). set (lab := nth i labels (length ms)) in *.
  assert (Hnn : forall x, In x (map (fun j => dist_j X D ms j i) (seq 0 (length ms))) -> is_nan x = false).
  { intros x Hx. apply in_map_iff in Hx. destruct Hx as (j & <- & Hj). apply in_seq in Hj. apply dist_j_no_nan; auto. lia. }
  destruct (np_argmin_spec _ _ Hnn Ham) as (m & Hm & P).
  apply np_argmin_lt in Ham. rewrite map_length, seq_length in Ham.
  assert (Hnth : forall j, j < length ms -> nth_error (map (fun j => dist_j X D ms j i) (seq 0 (length ms))) j = Some (dist_j X D ms j i)).
  { intros j Hj. rewrite nth_error_map, nth_error_seq. replace (j <? length ms)%nat with true by lia. reflexivity. }
  rewrite Hnth in Hm by auto. injection Hm as <-.
  split; auto. split; intros j Hj; destruct (P j (dist_j X D ms j i) (Hnth j ltac:(lia))) as [P1 P2]; auto.
Qed.

Section Run.
  Variables (X : dataset) (D : distance) (tol : fnum) (md : mode) (k : nat).
  Hypothesis HI : instance X D.
  Hypothesis Htol : fle (Fin 0) tol = true.
  Hypothesis Hk : 0 < k.

  Definition r_ok_state (st : kstate) (ms : list Z) : Prop :=
    valid_indices X ms /\ length ms = k /\ st_medoids st = mk X ms /\ GC X D (mk X ms) = Ok (st_cost st).

  Definition r_tot (st : kstate) := c_total (st_cost st).

  (** no improvement from making sample i the medoid of cluster j *)
  Definition r_no_gain (st : kstate) (ms : list Z) (j i : nat) : Prop :=
    In (Z.of_nat i) ms \/
    exists c, GC X D (mk X (replace_nth ms j (Z.of_nat i))) = Ok c /\ flt tol (rsub rnd (r_tot st) (c_total c)) = false.

  (** one state r_leads to another: the same, or better by more than tol; distinctness is kept *)
  Definition r_leads (st : kstate) (ms : list Z) (st' : kstate) (ms' : list Z) : Prop :=
    r_ok_state st' ms' /\ (NoDup ms -> NoDup ms') /\
    ((st' = st /\ ms' = ms) \/ flt tol (rsub rnd (r_tot st) (r_tot st')) = true).

  Lemma r_leads_refl st ms : r_ok_state st ms -> r_leads st ms st ms.
  Proof using. intros H. split; auto. Qed.
  Lemma r_leads_trans st ms st1 ms1 st2 ms2 : r_leads st ms st1 ms1 -> r_leads st1 ms1 st2 ms2 -> r_leads st ms st2 ms2.
  Proof using Hrnd Htol.
    intros (A1 & B1 & C1) (A2 & B2 & C2). split; auto. split; auto.
    destruct C1 as [[-> ->]|C1]; auto. destruct C2 as [[-> ->]|C2]; auto. right. eapply rgain_trans; eauto.
  Qed.

  Lemma r_try_swap_spec st ms sw j i : r_ok_state st ms -> j < k -> i < length X ->
    exists st' ms' sw', TS X D tol j (st, sw) i = Ok (st', sw') /\ r_leads st ms st' ms' /\
      (sw' = false -> sw = false /\ st' = st /\ ms' = ms /\ r_no_gain st ms j i) /\
      (sw' = true -> sw = true \/ flt tol (rsub rnd (r_tot st) (r_tot st')) = true).
  Proof using Hrnd HI Hk Htol.
    intros Hok Hj Hi. pose proof Hok as (HV & Hl & Hm & Hc). unfold try_swap_r. rewrite Hm, mk_indices.
    destruct (existsb (Z.eqb (Z.of_nat i)) ms) eqn:E.
    - exists st, ms, sw. split; auto. split; [apply r_leads_refl; auto|].
      split; auto. intros Hs. repeat split; auto. left. apply existsb_exists in E. destruct E as (x & Hx & Ex).
      apply Z.eqb_eq in Ex. subst. auto.
    - assert (Hn : ~ In (Z.of_nat i) ms).
      { intros Hin. assert (existsb (Z.eqb (Z.of_nat i)) ms = true); [|congruence].
        apply existsb_exists. exists (Z.of_nat i). split; auto. apply Z.eqb_refl. }
      rewrite getitem_sample by lia. cbn [bind]. rewrite Nat2Z.id. rewrite mk_replace by (auto; lia). cbn [bind].
      set (ms' := replace_nth ms j (Z.of_nat i)).
      assert (HV' : valid_indices X ms') by (apply replace_valid; auto).
      assert (Hl' : length ms' = k) by (unfold ms'; rewrite replace_nth_length; auto).
      destruct (r_get_cost_ok X D ms' HI HV') as (labels & Ec & _); [destruct ms'; cbn in Hl'; [lia|congruence]|].
      rewrite Ec. cbn [bind]. set (c := r_cost_of X D ms' labels) in *. clearbody c.
      fold (r_tot st). destruct (flt tol (rsub rnd (r_tot st) (c_total c))) eqn:G.
      + exists (mkst (mk X ms') c), ms', true. split; auto. split.
        * split; [split; [|split; [|split]]; auto|]. split; [intros; apply replace_nodup; auto|]. right. exact G.
        * split; [discriminate|]. intros _. right. exact G.
      + exists st, ms, sw. split; auto. split; [apply r_leads_refl; auto|].
        split; auto. intros Hs. repeat split; auto. right. exists c. auto.
  Qed.

  Lemma r_swaps_spec j cands : j < k -> (forall i, In i cands -> i < length X) ->
    forall st ms sw, r_ok_state st ms ->
    exists st' ms' sw', foldM (TS X D tol j) cands (st, sw) = Ok (st', sw') /\ r_leads st ms st' ms' /\
      (sw' = false -> sw = false /\ st' = st /\ ms' = ms /\ forall i, In i cands -> r_no_gain st ms j i) /\
      (sw' = true -> sw = true \/ flt tol (rsub rnd (r_tot st) (r_tot st')) = true).
  Proof using Hrnd HI Hk Htol.
    intros Hj. induction cands as [|i cands IH]; intros Hc st ms sw Hok; cbn [foldM].
    - exists st, ms, sw. split; auto. split; [apply r_leads_refl; auto|]. split; auto. intros Hs. repeat split; auto.
      intros i [].
    - destruct (r_try_swap_spec st ms sw j i Hok Hj (Hc i (or_introl eq_refl))) as (st1 & ms1 & sw1 & E1 & L1 & N1 & Y1).
      rewrite E1. cbn [bind].
      destruct (IH (fun i Hi => Hc i (or_intror Hi)) st1 ms1 sw1 (proj1 L1)) as (st2 & ms2 & sw2 & E2 & L2 & N2 & Y2).
      exists st2, ms2, sw2. split; auto. split; [eapply r_leads_trans; eauto|]. split.
      + intros Hs. destruct (N2 Hs) as (S1 & -> & -> & G2). destruct (N1 S1) as (S0 & -> & -> & G1).
        repeat split; auto. intros i' [<-|Hi']; auto.
      + intros Hs. destruct (Y2 Hs) as [S1|G2].
        * destruct (Y1 S1) as [S0|G1]; auto. right.
          destruct L2 as (_ & _ & [[-> _]|G2]); auto. eapply rgain_trans; eauto.
        * right. destruct L1 as (_ & _ & [[-> _]|G1]); auto. eapply rgain_trans; eauto.
  Qed.

  Lemma r_labels_length st ms : r_ok_state st ms -> length (c_labels (st_cost st)) = length X.
  Proof using Hrnd HI Hk Htol.
    intros (HV & Hl & Hm & Hc). destruct (r_get_cost_ok X D ms HI HV) as (labels & E & Ll & _).
    { destruct ms; cbn in Hl; [lia|congruence]. }
    rewrite Hc in E. injection E as E. rewrite E. exact Ll.
  Qed.

  Lemma r_candidates_spec st ms j : r_ok_state st ms -> md <> OtherMode ->
    exists cands, candidates md (length X) (c_labels (st_cost st)) j = Ok cands /\
      forall i, In i cands <-> candidate_of md X (c_labels (st_cost st)) j i.
  Proof using Hrnd HI Hk Htol.
    intros Hok Hmd. pose proof (r_labels_length st ms Hok) as Ll. unfold candidate_of.
    destruct md; cbn [candidates]; try congruence.
    - eexists; split; [reflexivity|]. intros i. rewrite in_map_iff. split.
      + intros ([i' l] & <- & Hin). apply filter_In in Hin. destruct Hin as [Hin El]. apply Nat.eqb_eq in El. subst l.
        apply In_nth_error in Hin. destruct Hin as [n Hn]. rewrite nth_error_enumerate in Hn.
        destruct (nth_error _ n) eqn:En; cbn in Hn; inversion Hn; subst. cbn [fst]. split; auto.
        rewrite <- Ll. apply nth_error_Some. congruence.
      + intros [Hi Hn]. exists (i, j). split; auto. apply filter_In. rewrite Nat.eqb_refl. split; auto.
        apply nth_error_In with i. rewrite nth_error_enumerate, Hn. reflexivity.
    - eexists; split; [reflexivity|]. intros i. rewrite in_seq. split; [intros; split; auto; lia|intros [H _]; lia].
  Qed.

  Lemma r_pass_spec st ms : r_ok_state st ms -> md <> OtherMode ->
    exists st' ms' sw', OP X D (Z.of_nat k) md tol st = Ok (st', sw') /\ r_leads st ms st' ms' /\
      (sw' = false -> st' = st /\ ms' = ms /\
         forall j i, j < k -> candidate_of md X (c_labels (st_cost st)) j i -> r_no_gain st ms j i) /\
      (sw' = true -> flt tol (rsub rnd (r_tot st) (r_tot st')) = true).
  Proof using Hrnd HI Hk Htol.
    intros Hok Hmd. unfold one_pass_r. rewrite Nat2Z.id.
    assert (G : forall js, (forall j, In j js -> j < k) -> forall st ms sw, r_ok_state st ms ->
      exists st' ms' sw',
        foldM (fun s j => cands <- candidates md (length X) (c_labels (st_cost (fst s))) j ;;
                          foldM (TS X D tol j) cands s) js (st, sw) = Ok (st', sw') /\ r_leads st ms st' ms' /\
        (sw' = false -> sw = false /\ st' = st /\ ms' = ms /\
           forall j i, In j js -> candidate_of md X (c_labels (st_cost st)) j i -> r_no_gain st ms j i) /\
        (sw' = true -> sw = true \/ flt tol (rsub rnd (r_tot st) (r_tot st')) = true)).
    { clear st ms Hok. induction js as [|j js IH]; intros Hjs st ms sw Hok; cbn [foldM].
      - exists st, ms, sw. split; auto. split; [apply r_leads_refl; auto|]. split; auto. intros Hs. repeat split; auto.
        intros j i [].
      - cbn [fst]. destruct (r_candidates_spec st ms j Hok Hmd) as (cands & Ec & Hc). rewrite Ec. cbn [bind].
        destruct (r_swaps_spec j cands (Hjs j (or_introl eq_refl)) (fun i Hi => proj1 (proj1 (Hc i) Hi)) st ms sw Hok)
          as (st1 & ms1 & sw1 & E1 & L1 & N1 & Y1).
        rewrite E1. cbn [bind].
        destruct (IH (fun i Hi => Hjs i (or_intror Hi)) st1 ms1 sw1 (proj1 L1)) as (st2 & ms2 & sw2 & E2 & L2 & N2 & Y2).
        exists st2, ms2, sw2. split; auto. split; [eapply r_leads_trans; eauto|]. split.
        + intros Hs. destruct (N2 Hs) as (S1 & -> & -> & G2). destruct (N1 S1) as (S0 & -> & -> & G1).
          repeat split; auto. intros j' i [<-|Hj'] Hcand; auto. apply G1. apply Hc. auto.
        + intros Hs. destruct (Y2 Hs) as [S1|G2].
          * destruct (Y1 S1) as [S0|G1]; auto. right.
            destruct L2 as (_ & _ & [[-> _]|G2]); auto. eapply rgain_trans; eauto.
          * right. destruct L1 as (_ & _ & [[-> _]|G1]); auto. eapply rgain_trans; eauto. }
    destruct (G (seq 0 k) ltac:(intros j Hj; apply in_seq in Hj; lia) st ms false Hok) as (st' & ms' & sw' & E & L & N & Y).
    exists st', ms', sw'. split; auto. split; auto. split.
    - intros Hs. destruct (N Hs) as (_ & -> & -> & H). repeat split; auto. intros j i Hj. apply H. apply in_seq. lia.
    - intros Hs. destruct (Y Hs); auto. discriminate.
  Qed.

  (** the loop: with enough fuel it returns; before the limit the state is locally optimal *)
  Definition r_local_optimum (st : kstate) (ms : list Z) : Prop :=
    forall j i, j < k -> candidate_of md X (c_labels (st_cost st)) j i -> r_no_gain st ms j i.

  Lemma r_loop_spec max_iter fuel : md <> OtherMode -> forall cc st ms, r_ok_state st ms -> (0 <= cc)%Z ->
    (max_iter + 2 - cc < Z.of_nat fuel)%Z -> 1 <= fuel ->
    exists st' ms' cc', KL fuel X D (Z.of_nat k) md max_iter tol cc st = Ok (st', cc') /\ r_leads st ms st' ms' /\
      (cc <= cc')%Z /\ (cc' <= Z.max cc (max_iter + 1))%Z /\
      ((cc' <= max_iter)%Z -> r_local_optimum st' ms') /\
      ((cc < cc')%Z -> flt tol (rsub rnd (r_tot st) (r_tot st')) = true).
  Proof using Hrnd HI Hk Htol.
    intros Hmd. induction fuel as [|fuel IH]; intros cc st ms Hok Hcc Hf Hf1; [lia|]. cbn [kmedoids_loop_r].
    destruct (r_pass_spec st ms Hok Hmd) as (st1 & ms1 & sw & E & L & N & Y). rewrite E. cbn [bind].
    destruct (Z.ltb_spec max_iter cc) as [Hlim|Hlim].
    - exists st1, ms1, cc. split; auto. split; auto. split; [lia|]. split; [lia|]. split; intros; lia.
    - destruct sw; cbn [negb].
      + destruct (IH (cc + 1)%Z st1 ms1 (proj1 L) ltac:(lia) ltac:(lia) ltac:(lia)) as (st2 & ms2 & cc2 & E2 & L2 & C1 & C2 & O & G).
        exists st2, ms2, cc2. split; auto. split; [eapply r_leads_trans; eauto|]. split; [lia|]. split; [lia|]. split; auto.
        intros _. specialize (Y eq_refl). destruct L2 as (_ & _ & [[-> _]|G2]); auto. eapply rgain_trans; eauto.
      + destruct (N eq_refl) as (-> & -> & O). exists st, ms, cc. split; auto. split; auto. split; [lia|]. split; [lia|].
        split; [|lia]. intros _. exact O.
  Qed.

  Theorem r_run_spec choice init max_iter ms0 :
    md <> OtherMode ->
    (match init with None | Some [] => choice (length X) (Z.of_nat k) | Some l => Ok l end) = Ok ms0 ->
    valid_indices X ms0 -> length ms0 = k ->
    exists c0 st ms cc, GC X D (mk X ms0) = Ok c0 /\ r_ok_state st ms /\
      r_leads (mkst (mk X ms0) c0) ms0 st ms /\
      RK choice X (Z.of_nat k) D init md max_iter tol = Ok (mkres ms (st_cost st) cc) /\
      (0 <= cc <= Z.max 0 (max_iter + 1))%Z /\ ((cc <= max_iter)%Z -> r_local_optimum st ms) /\
      ((0 < cc)%Z -> flt tol (rsub rnd (c_total c0) (r_tot st)) = true).
  Proof using Hrnd HI Hk Htol.
    intros Hmd Hinit HV Hl. unfold run_kmedoids_r, choose_initial_medoids. rewrite Hinit. cbn [bind].
    rewrite medoids_ok by auto. cbn [bind].
    destruct (r_get_cost_ok X D ms0 HI HV) as (labels & Ec & _); [destruct ms0; cbn in Hl; [lia|congruence]|].
    rewrite Ec. cbn [bind]. set (c0 := r_cost_of X D ms0 labels) in *. clearbody c0.
    assert (Hok : r_ok_state (mkst (mk X ms0) c0) ms0) by (split; [|split; [|split]]; auto).
    destruct (r_loop_spec max_iter (S (S (Z.to_nat (max_iter + 1)))) Hmd 0%Z _ _ Hok ltac:(lia) ltac:(lia) ltac:(lia))
      as (st & ms & cc & E & L & C1 & C2 & O & G).
    rewrite E. cbn [bind]. exists c0, st, ms, cc. split; auto. split; [apply L|]. split; auto. split.
    { destruct L as ((_ & _ & Hm & _) & _). rewrite Hm, mk_indices. reflexivity. }
    split; [lia|]. split; auto.
  Qed.
End Run.
End Rounded.
