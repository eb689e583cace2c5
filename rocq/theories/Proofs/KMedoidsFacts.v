(** Facts for Model/KMedoids.v. *)
From Coq Require Import ZifyBool ZifyNat Lqa.
From Verif Require Import Base.Py Base.PyFacts Base.Arr Base.ArrFacts Base.Float Base.FloatFacts
     Model.KMedoids Spec.Medoids.

Lemma map_nth_seq {A B} (f : A -> B) (l : list A) d : map f l = map (fun j => f (nth j l d)) (seq 0 (length l)).
Proof.
  induction l as [|a l IH]; cbn [length seq map]; auto. f_equal. rewrite IH, <- seq_shift, map_map. reflexivity.
Qed.

(** medoids with their series *)
Definition mk (X : dataset) (ms : list Z) : list medoid := map (fun i => (i, nth (Z.to_nat i) X [])) ms.
Lemma mk_indices X ms : get_medoid_indices (mk X ms) = ms.
Proof. unfold get_medoid_indices, mk. rewrite map_map. cbn. apply map_id. Qed.
Lemma mk_length X ms : length (mk X ms) = length ms.
Proof. apply map_length. Qed.

Lemma getitem_sample (X : dataset) i : (0 <= i < Z.of_nat (length X))%Z -> getitem X i = Ok (nth (Z.to_nat i) X []).
Proof.
  intros H. unfold getitem. rewrite norm_index_in by auto.
  rewrite nth_error_nth' with (d := []) by lia. reflexivity.
Qed.
Lemma medoids_ok X ms : valid_indices X ms -> mapM (fun i => s <- getitem X i ;; Ok (i, s)) ms = Ok (mk X ms).
Proof. intros H. apply mapM_ok. intros i Hi. rewrite getitem_sample by auto. reflexivity. Qed.

Lemma row2_nth (a : arr2 fnum) m i : wf2 a -> m < a2x a -> i < a2y a ->
  nth i (firstn (a2y a) (skipn (m * a2y a) (a2d a))) NaN
  = match get2 a (Z.of_nat m) (Z.of_nat i) with Ok v => v | Raise _ => NaN end.
Proof.
  intros Hw Hm Hi. destruct (at2_some a m i Hw Hm Hi) as [v Hv].
  rewrite get2_nat by auto. rewrite Hv. apply nth_error_nth.
  rewrite nth_error_firstn. replace (i <? a2y a)%nat with true by lia. rewrite nth_error_skipn. exact Hv.
Qed.

Lemma dist_to_medoids_spec X D ms : instance X D -> valid_indices X ms ->
  dist_to_medoids X D (mk X ms)
  = Ok (map (fun i => map (fun j => dist_j X D ms j i) (seq 0 (length ms))) (seq 0 (length X))).
Proof.
  intros HI HV. destruct D as [a|f]; cbn [dist_to_medoids instance] in *.
  - destruct HI as (Hw & Hx & Hy).
    rewrite mapM_ok with (g := fun md => firstn (a2y a) (skipn (Z.to_nat (fst md) * a2y a) (a2d a))).
    2:{ intros md Hin. unfold mk in Hin. apply in_map_iff in Hin. destruct Hin as (i & <- & Hi). cbn [fst].
        unfold row2. apply HV in Hi. rewrite norm_index_in by (rewrite Hx; auto). reflexivity. }
    cbn [bind]. f_equal. rewrite Hy. apply map_ext_in. intros i Hi. apply in_seq in Hi.
    rewrite map_map. unfold mk. rewrite map_map. cbn [fst].
    rewrite (map_nth_seq _ ms 0%Z). apply map_ext_in. intros j Hj. apply in_seq in Hj.
    unfold dist_j, sample_dist. rewrite <- Hy. apply row2_nth; auto; [|lia].
    assert (In (nth j ms 0%Z) ms) by (apply nth_In; lia). apply HV in H. lia.
  - f_equal. unfold enumerate.
    assert (E : forall (Y : dataset) k, (forall i, i < length Y -> nth (k + i) X [] = nth i Y []) ->
       map (fun '(i, x) => map (fun md : medoid => if (Z.of_nat i =? fst md)%Z then Fin 0 else f x (snd md)) (mk X ms))
           (combine (seq k (length Y)) Y)
       = map (fun i => map (fun j => dist_j X (DMeasure f) ms j i) (seq 0 (length ms))) (seq k (length Y))).
    { induction Y as [|y Y IH]; intros k HY; cbn [length seq combine map]; auto. f_equal.
      - unfold mk. rewrite map_map. cbn [fst snd]. rewrite (map_nth_seq _ ms 0%Z). apply map_ext_in. intros j Hj.
        apply in_seq in Hj. unfold dist_j, sample_dist.
        assert (Hin : In (nth j ms 0%Z) ms) by (apply nth_In; lia). apply HV in Hin.
        specialize (HY 0 ltac:(cbn; lia)). rewrite Nat.add_0_r in HY. cbn [nth] in HY. rewrite HY.
        set (z := nth j ms 0%Z) in *. clearbody z.
        destruct (Z.eqb_spec (Z.of_nat k) z), (Nat.eqb_spec k (Z.to_nat z)); auto; lia.
      - apply IH. intros i Hi. specialize (HY (S i) ltac:(cbn; lia)).
        replace (S k + i) with (k + S i) by lia. exact HY. }
    apply E. intros i _. reflexivity.
Qed.

Lemma filter_map {A B} (f : A -> B) (p : B -> bool) l : filter p (map f l) = map f (filter (fun x => p (f x)) l).
Proof. induction l as [|a l IH]; cbn; auto. destruct (p (f a)); cbn; congruence. Qed.
Lemma combine_map {A B C} (f : A -> B) (g : A -> C) l : combine (map f l) (map g l) = map (fun x => (f x, g x)) l.
Proof. induction l; cbn; congruence. Qed.
Lemma nth_map_lt {A B} (f : A -> B) l n d d' : n < length l -> nth n (map f l) d = f (nth n l d').
Proof. revert n. induction l as [|a l IH]; intros [|n] H; cbn in *; auto; try lia. apply IH. lia. Qed.

Lemma member_dists_eq X D ms labels j : length labels = length X -> j < length ms ->
  member_dists labels (map (fun i => map (fun j => dist_j X D ms j i) (seq 0 (length ms))) (seq 0 (length X))) j
  = cluster_dists X D ms labels j.
Proof.
  intros Hl Hj. unfold member_dists, cluster_dists.
  rewrite <- (map_id labels) at 1. rewrite (map_nth_seq (fun x => x) labels (length ms)), Hl.
  rewrite combine_map, filter_map, map_map. apply map_ext.
  intros i. rewrite nth_map_lt with (d' := 0) by (rewrite seq_length; auto). rewrite seq_nth by auto. reflexivity.
Qed.

Definition cost_of (X : dataset) (D : distance) (ms : list Z) (labels : list nat) : cost :=
  let costs := map (fun j => fsum (cluster_dists X D ms labels j)) (seq 0 (length ms)) in
  mkcost labels costs (fsum costs)
    (map (fun i => map (fun j => dist_j X D ms j i) (seq 0 (length ms))) (seq 0 (length X))).

Lemma get_cost_ok X D ms : instance X D -> valid_indices X ms -> ms <> [] ->
  exists labels, get_cost X D (mk X ms) = Ok (cost_of X D ms labels) /\ length labels = length X /\
    (forall l, In l labels -> l < length ms) /\
    (forall i, i < length X -> np_argmin (map (fun j => dist_j X D ms j i) (seq 0 (length ms))) = Ok (nth i labels (length ms))).
Proof.
  intros HI HV Hne. unfold get_cost. rewrite dist_to_medoids_spec by auto. cbn [bind]. rewrite mk_length.
  destruct (Nat.eqb_spec (length ms) 0) as [E|E]; [destruct ms; cbn in E; congruence|]. cbn [bind].
  set (rows := map (fun i => map (fun j => dist_j X D ms j i) (seq 0 (length ms))) (seq 0 (length X))).
  set (am := fun row => match np_argmin row with Ok r => r | Raise _ => 0 end).
  assert (Hrow : forall row, In row rows -> np_argmin row = Ok (am row) /\ am row < length ms).
  { intros row Hr. unfold rows in Hr. apply in_map_iff in Hr. destruct Hr as (i & Hrow & _).
    assert (L : length row = length ms) by (rewrite <- Hrow, map_length, seq_length; auto).
    destruct (np_argmin_ok row) as [r Er]; [destruct row; cbn in L; congruence|].
    unfold am. rewrite Er. split; auto. apply np_argmin_lt in Er. lia. }
  rewrite mapM_ok with (g := am) by (intros; apply Hrow; auto). cbn [bind].
  set (labels := map am rows).
  assert (Ll : length labels = length X) by (unfold labels, rows; rewrite !map_length, seq_length; auto).
  exists labels. split.
  { unfold cost_of.
    assert (Em : map (fun j => fsum (member_dists labels rows j)) (seq 0 (length ms))
                 = map (fun j => fsum (cluster_dists X D ms labels j)) (seq 0 (length ms))).
    { apply map_ext_in. intros j Hj. apply in_seq in Hj. f_equal. apply member_dists_eq; auto. lia. }
    rewrite Em. reflexivity. }
  split; auto. split.
  - intros l Hl. unfold labels in Hl. apply in_map_iff in Hl. destruct Hl as (row & <- & Hr). apply Hrow; auto.
  - intros i Hi. unfold labels, rows. rewrite map_map.
    rewrite nth_map_lt with (d' := 0) by (rewrite seq_length; auto). rewrite seq_nth by auto. cbn [plus].
    apply Hrow. unfold rows. apply in_map_iff. exists i. split; auto. apply in_seq. lia.
Qed.

Lemma dist_j_no_nan X D ms j i : dist_no_nan X D -> valid_indices X ms -> j < length ms -> i < length X ->
  is_nan (dist_j X D ms j i) = false.
Proof.
  intros H HV Hj Hi. apply H; auto. assert (Hin : In (nth j ms 0%Z) ms) by (apply nth_In; auto). apply HV in Hin. lia.
Qed.

Lemma get_cost_consistent X D ms c : instance X D -> valid_indices X ms -> ms <> [] -> dist_no_nan X D ->
  get_cost X D (mk X ms) = Ok c -> consistent X D ms c.
Proof.
  intros HI HV Hne HN Hc. destruct (get_cost_ok X D ms HI HV Hne) as (labels & E & Ll & Hlt & Ham).
  rewrite Hc in E. injection E as E. subst c. unfold consistent, cost_of. cbn [c_labels c_costs c_total c_dist].
  split; auto. split; [|split; auto].
  intros i Hi. specialize (Ham i Hi). set (lab := nth i labels (length ms)) in *.
  assert (Hnn : forall x, In x (map (fun j => dist_j X D ms j i) (seq 0 (length ms))) -> is_nan x = false).
  { intros x Hx. apply in_map_iff in Hx. destruct Hx as (j & <- & Hj). apply in_seq in Hj. apply dist_j_no_nan; auto. lia. }
  destruct (np_argmin_spec _ _ Hnn Ham) as (m & Hm & P).
  apply np_argmin_lt in Ham. rewrite map_length, seq_length in Ham.
  assert (Hnth : forall j, j < length ms -> nth_error (map (fun j => dist_j X D ms j i) (seq 0 (length ms))) j = Some (dist_j X D ms j i)).
  { intros j Hj. rewrite nth_error_map, nth_error_seq. replace (j <? length ms)%nat with true by lia. reflexivity. }
  rewrite Hnth in Hm by auto. injection Hm as <-.
  split; auto. split; intros j Hj; destruct (P j (dist_j X D ms j i) (Hnth j ltac:(lia))) as [P1 P2]; auto.
Qed.

(* ---------- the loop ---------- *)
Lemma gain_trans tol a b c : fle (Fin 0) tol = true ->
  flt tol (fsub a b) = true -> flt tol (fsub b c) = true -> flt tol (fsub a c) = true.
Proof.
  unfold fle. intros Ht.
  destruct tol as [| | |t]; try discriminate; [destruct (fsub a b); discriminate|].
  assert (0 <= t)%Q. { cbn in Ht. apply orb_true_iff in Ht. destruct Ht as [H|H]; [apply Qltb_spec in H; lra|apply Qeq_bool_iff in H; lra]. }
  destruct a as [| | |a], b as [| | |b], c as [| | |c]; cbn; try discriminate; auto.
  rewrite !Qltb_spec. lra.
Qed.

  Lemma replace_valid X ms j i : valid_indices X ms -> i < length X -> valid_indices X (replace_nth ms j (Z.of_nat i)).
  Proof. intros H Hi x Hx. apply in_replace_nth in Hx. destruct Hx as [->|Hx]; [lia|auto]. Qed.
  Lemma replace_nodup (ms : list Z) j x : NoDup ms -> ~ In x ms -> NoDup (replace_nth ms j x).
  Proof.
    revert j. induction ms as [|a ms IH]; intros j H Hn; [destruct j; exact H|].
    inversion H as [|? ? Ha Hms]; subst. destruct j as [|j]; cbn [replace_nth].
    - constructor; auto. intros Hin. apply Hn; right; auto.
    - constructor.
      + intros Hin. apply in_replace_nth in Hin. destruct Hin as [->|Hin]; [apply Hn; left; auto|auto].
      + apply IH; auto. intros Hin. apply Hn; right; auto.
  Qed.
  Lemma mk_replace X ms j i : i < length X -> j < length ms ->
    setitem (mk X ms) (Z.of_nat j) (Z.of_nat i, nth i X []) = Ok (mk X (replace_nth ms j (Z.of_nat i))).
  Proof.
    intros Hi Hj. unfold setitem. rewrite norm_index_of_nat by (rewrite mk_length; auto). f_equal.
    clear Hj. revert j. unfold mk. induction ms as [|a ms IH]; intros [|j]; cbn [replace_nth map]; auto.
    - rewrite Nat2Z.id. reflexivity.
    - f_equal. apply IH.
  Qed.

Section Run.
  Variables (X : dataset) (D : distance) (tol : fnum) (md : mode) (k : nat).
  Hypothesis HI : instance X D.
  Hypothesis Htol : fle (Fin 0) tol = true.
  Hypothesis Hk : 0 < k.

  Definition ok_state (st : kstate) (ms : list Z) : Prop :=
    valid_indices X ms /\ length ms = k /\ st_medoids st = mk X ms /\ get_cost X D (mk X ms) = Ok (st_cost st).

  Definition tot (st : kstate) := c_total (st_cost st).

  (** no improvement from making sample i the medoid of cluster j *)
  Definition no_gain (st : kstate) (ms : list Z) (j i : nat) : Prop :=
    In (Z.of_nat i) ms \/
    exists c, get_cost X D (mk X (replace_nth ms j (Z.of_nat i))) = Ok c /\ flt tol (fsub (tot st) (c_total c)) = false.

  (** one state leads to another: the same, or better by more than tol; distinctness is kept *)
  Definition leads (st : kstate) (ms : list Z) (st' : kstate) (ms' : list Z) : Prop :=
    ok_state st' ms' /\ (NoDup ms -> NoDup ms') /\
    ((st' = st /\ ms' = ms) \/ flt tol (fsub (tot st) (tot st')) = true).

  Lemma leads_refl st ms : ok_state st ms -> leads st ms st ms.
  Proof using. intros H. split; auto. Qed.
  Lemma leads_trans st ms st1 ms1 st2 ms2 : leads st ms st1 ms1 -> leads st1 ms1 st2 ms2 -> leads st ms st2 ms2.
  Proof using Htol.
    intros (A1 & B1 & C1) (A2 & B2 & C2). split; auto. split; auto.
    destruct C1 as [[-> ->]|C1]; auto. destruct C2 as [[-> ->]|C2]; auto. right. eapply gain_trans; eauto.
  Qed.

  Lemma try_swap_spec st ms sw j i : ok_state st ms -> j < k -> i < length X ->
    exists st' ms' sw', try_swap X D tol j (st, sw) i = Ok (st', sw') /\ leads st ms st' ms' /\
      (sw' = false -> sw = false /\ st' = st /\ ms' = ms /\ no_gain st ms j i) /\
      (sw' = true -> sw = true \/ flt tol (fsub (tot st) (tot st')) = true).
  Proof using HI Hk Htol.
    intros Hok Hj Hi. pose proof Hok as (HV & Hl & Hm & Hc). unfold try_swap. rewrite Hm, mk_indices.
    destruct (existsb (Z.eqb (Z.of_nat i)) ms) eqn:E.
    - exists st, ms, sw. split; auto. split; [apply leads_refl; auto|].
      split; auto. intros Hs. repeat split; auto. left. apply existsb_exists in E. destruct E as (x & Hx & Ex).
      apply Z.eqb_eq in Ex. subst. auto.
    - assert (Hn : ~ In (Z.of_nat i) ms).
      { intros Hin. assert (existsb (Z.eqb (Z.of_nat i)) ms = true); [|congruence].
        apply existsb_exists. exists (Z.of_nat i). split; auto. apply Z.eqb_refl. }
      rewrite getitem_sample by lia. cbn [bind]. rewrite Nat2Z.id. rewrite mk_replace by (auto; lia). cbn [bind].
      set (ms' := replace_nth ms j (Z.of_nat i)).
      assert (HV' : valid_indices X ms') by (apply replace_valid; auto).
      assert (Hl' : length ms' = k) by (unfold ms'; rewrite replace_nth_length; auto).
      destruct (get_cost_ok X D ms' HI HV') as (labels & Ec & _); [destruct ms'; cbn in Hl'; [lia|congruence]|].
      rewrite Ec. cbn [bind]. set (c := cost_of X D ms' labels) in *. clearbody c.
      fold (tot st). destruct (flt tol (fsub (tot st) (c_total c))) eqn:G.
      + exists (mkst (mk X ms') c), ms', true. split; auto. split.
        * split; [split; [|split; [|split]]; auto|]. split; [intros; apply replace_nodup; auto|]. right. exact G.
        * split; [discriminate|]. intros _. right. exact G.
      + exists st, ms, sw. split; auto. split; [apply leads_refl; auto|].
        split; auto. intros Hs. repeat split; auto. right. exists c. auto.
  Qed.

  Lemma swaps_spec j cands : j < k -> (forall i, In i cands -> i < length X) ->
    forall st ms sw, ok_state st ms ->
    exists st' ms' sw', foldM (try_swap X D tol j) cands (st, sw) = Ok (st', sw') /\ leads st ms st' ms' /\
      (sw' = false -> sw = false /\ st' = st /\ ms' = ms /\ forall i, In i cands -> no_gain st ms j i) /\
      (sw' = true -> sw = true \/ flt tol (fsub (tot st) (tot st')) = true).
  Proof using HI Hk Htol.
    intros Hj. induction cands as [|i cands IH]; intros Hc st ms sw Hok; cbn [foldM].
    - exists st, ms, sw. split; auto. split; [apply leads_refl; auto|]. split; auto. intros Hs. repeat split; auto.
      intros i [].
    - destruct (try_swap_spec st ms sw j i Hok Hj (Hc i (or_introl eq_refl))) as (st1 & ms1 & sw1 & E1 & L1 & N1 & Y1).
      rewrite E1. cbn [bind].
      destruct (IH (fun i Hi => Hc i (or_intror Hi)) st1 ms1 sw1 (proj1 L1)) as (st2 & ms2 & sw2 & E2 & L2 & N2 & Y2).
      exists st2, ms2, sw2. split; auto. split; [eapply leads_trans; eauto|]. split.
      + intros Hs. destruct (N2 Hs) as (S1 & -> & -> & G2). destruct (N1 S1) as (S0 & -> & -> & G1).
        repeat split; auto. intros i' [<-|Hi']; auto.
      + intros Hs. destruct (Y2 Hs) as [S1|G2].
        * destruct (Y1 S1) as [S0|G1]; auto. right.
          destruct L2 as (_ & _ & [[-> _]|G2]); auto. eapply gain_trans; eauto.
        * right. destruct L1 as (_ & _ & [[-> _]|G1]); auto. eapply gain_trans; eauto.
  Qed.

  Lemma labels_length st ms : ok_state st ms -> length (c_labels (st_cost st)) = length X.
  Proof using HI Hk Htol.
    intros (HV & Hl & Hm & Hc). destruct (get_cost_ok X D ms HI HV) as (labels & E & Ll & _).
    { destruct ms; cbn in Hl; [lia|congruence]. }
    rewrite Hc in E. injection E as E. rewrite E. exact Ll.
  Qed.

  Lemma candidates_spec st ms j : ok_state st ms -> md <> OtherMode ->
    exists cands, candidates md (length X) (c_labels (st_cost st)) j = Ok cands /\
      forall i, In i cands <-> candidate_of md X (c_labels (st_cost st)) j i.
  Proof using HI Hk Htol.
    intros Hok Hmd. pose proof (labels_length st ms Hok) as Ll. unfold candidate_of.
    destruct md; cbn [candidates]; try congruence.
    - eexists; split; [reflexivity|]. intros i. rewrite in_map_iff. split.
      + intros ([i' l] & <- & Hin). apply filter_In in Hin. destruct Hin as [Hin El]. apply Nat.eqb_eq in El. subst l.
        apply In_nth_error in Hin. destruct Hin as [n Hn]. rewrite nth_error_enumerate in Hn.
        destruct (nth_error _ n) eqn:En; cbn in Hn; inversion Hn; subst. cbn [fst]. split; auto.
        rewrite <- Ll. apply nth_error_Some. congruence.
      + intros [Hi Hn]. exists (i, j). split; auto. apply filter_In. rewrite Nat.eqb_refl. split; auto.
        apply nth_error_In with i. rewrite nth_error_enumerate, Hn. reflexivity.
    - eexists; split; [reflexivity|]. intros i. rewrite in_seq. split; [intros; split; auto; lia|intros [H _]; lia].
  Qed.

  Lemma pass_spec st ms : ok_state st ms -> md <> OtherMode ->
    exists st' ms' sw', one_pass X D (Z.of_nat k) md tol st = Ok (st', sw') /\ leads st ms st' ms' /\
      (sw' = false -> st' = st /\ ms' = ms /\
         forall j i, j < k -> candidate_of md X (c_labels (st_cost st)) j i -> no_gain st ms j i) /\
      (sw' = true -> flt tol (fsub (tot st) (tot st')) = true).
  Proof using HI Hk Htol.
    intros Hok Hmd. unfold one_pass. rewrite Nat2Z.id.
    assert (G : forall js, (forall j, In j js -> j < k) -> forall st ms sw, ok_state st ms ->
      exists st' ms' sw',
        foldM (fun s j => cands <- candidates md (length X) (c_labels (st_cost (fst s))) j ;;
                          foldM (try_swap X D tol j) cands s) js (st, sw) = Ok (st', sw') /\ leads st ms st' ms' /\
        (sw' = false -> sw = false /\ st' = st /\ ms' = ms /\
           forall j i, In j js -> candidate_of md X (c_labels (st_cost st)) j i -> no_gain st ms j i) /\
        (sw' = true -> sw = true \/ flt tol (fsub (tot st) (tot st')) = true)).
    { clear st ms Hok. induction js as [|j js IH]; intros Hjs st ms sw Hok; cbn [foldM].
      - exists st, ms, sw. split; auto. split; [apply leads_refl; auto|]. split; auto. intros Hs. repeat split; auto.
        intros j i [].
      - cbn [fst]. destruct (candidates_spec st ms j Hok Hmd) as (cands & Ec & Hc). rewrite Ec. cbn [bind].
        destruct (swaps_spec j cands (Hjs j (or_introl eq_refl)) (fun i Hi => proj1 (proj1 (Hc i) Hi)) st ms sw Hok)
          as (st1 & ms1 & sw1 & E1 & L1 & N1 & Y1).
        rewrite E1. cbn [bind].
        destruct (IH (fun i Hi => Hjs i (or_intror Hi)) st1 ms1 sw1 (proj1 L1)) as (st2 & ms2 & sw2 & E2 & L2 & N2 & Y2).
        exists st2, ms2, sw2. split; auto. split; [eapply leads_trans; eauto|]. split.
        + intros Hs. destruct (N2 Hs) as (S1 & -> & -> & G2). destruct (N1 S1) as (S0 & -> & -> & G1).
          repeat split; auto. intros j' i [<-|Hj'] Hcand; auto. apply G1. apply Hc. auto.
        + intros Hs. destruct (Y2 Hs) as [S1|G2].
          * destruct (Y1 S1) as [S0|G1]; auto. right.
            destruct L2 as (_ & _ & [[-> _]|G2]); auto. eapply gain_trans; eauto.
          * right. destruct L1 as (_ & _ & [[-> _]|G1]); auto. eapply gain_trans; eauto. }
    destruct (G (seq 0 k) ltac:(intros j Hj; apply in_seq in Hj; lia) st ms false Hok) as (st' & ms' & sw' & E & L & N & Y).
    exists st', ms', sw'. split; auto. split; auto. split.
    - intros Hs. destruct (N Hs) as (_ & -> & -> & H). repeat split; auto. intros j i Hj. apply H. apply in_seq. lia.
    - intros Hs. destruct (Y Hs); auto. discriminate.
  Qed.

  (** the loop: with enough fuel it returns; before the limit the state is locally optimal *)
  Definition local_optimum (st : kstate) (ms : list Z) : Prop :=
    forall j i, j < k -> candidate_of md X (c_labels (st_cost st)) j i -> no_gain st ms j i.

  Lemma loop_spec max_iter fuel : md <> OtherMode -> forall cc st ms, ok_state st ms -> (0 <= cc)%Z ->
    (max_iter + 2 - cc < Z.of_nat fuel)%Z -> 1 <= fuel ->
    exists st' ms' cc', kmedoids_loop fuel X D (Z.of_nat k) md max_iter tol cc st = Ok (st', cc') /\ leads st ms st' ms' /\
      (cc <= cc')%Z /\ (cc' <= Z.max cc (max_iter + 1))%Z /\
      ((cc' <= max_iter)%Z -> local_optimum st' ms') /\
      ((cc < cc')%Z -> flt tol (fsub (tot st) (tot st')) = true).
  Proof using HI Hk Htol.
    intros Hmd. induction fuel as [|fuel IH]; intros cc st ms Hok Hcc Hf Hf1; [lia|]. cbn [kmedoids_loop].
    destruct (pass_spec st ms Hok Hmd) as (st1 & ms1 & sw & E & L & N & Y). rewrite E. cbn [bind].
    destruct (Z.ltb_spec max_iter cc) as [Hlim|Hlim].
    - exists st1, ms1, cc. split; auto. split; auto. split; [lia|]. split; [lia|]. split; intros; lia.
    - destruct sw; cbn [negb].
      + destruct (IH (cc + 1)%Z st1 ms1 (proj1 L) ltac:(lia) ltac:(lia) ltac:(lia)) as (st2 & ms2 & cc2 & E2 & L2 & C1 & C2 & O & G).
        exists st2, ms2, cc2. split; auto. split; [eapply leads_trans; eauto|]. split; [lia|]. split; [lia|]. split; auto.
        intros _. specialize (Y eq_refl). destruct L2 as (_ & _ & [[-> _]|G2]); auto. eapply gain_trans; eauto.
      + destruct (N eq_refl) as (-> & -> & O). exists st, ms, cc. split; auto. split; auto. split; [lia|]. split; [lia|].
        split; [|lia]. intros _. exact O.
  Qed.

  Theorem run_spec choice init max_iter verbose ms0 :
    md <> OtherMode ->
    (match init with None | Some [] => choice (length X) (Z.of_nat k) | Some l => Ok l end) = Ok ms0 ->
    valid_indices X ms0 -> length ms0 = k ->
    exists c0 st ms cc, get_cost X D (mk X ms0) = Ok c0 /\ ok_state st ms /\
      leads (mkst (mk X ms0) c0) ms0 st ms /\
      run_kmedoids choice X (Z.of_nat k) D init md max_iter tol verbose
      = (_ <- (if verbose then show_report (Z.of_nat k) ms (c_labels (st_cost st)) else Ok tt) ;; Ok (mkres ms (st_cost st) cc)) /\
      (0 <= cc <= Z.max 0 (max_iter + 1))%Z /\ ((cc <= max_iter)%Z -> local_optimum st ms) /\
      ((0 < cc)%Z -> flt tol (fsub (c_total c0) (tot st)) = true).
  Proof using HI Hk Htol.
    intros Hmd Hinit HV Hl. unfold run_kmedoids, choose_initial_medoids. rewrite Hinit. cbn [bind].
    rewrite medoids_ok by auto. cbn [bind].
    destruct (get_cost_ok X D ms0 HI HV) as (labels & Ec & _); [destruct ms0; cbn in Hl; [lia|congruence]|].
    rewrite Ec. cbn [bind]. set (c0 := cost_of X D ms0 labels) in *. clearbody c0.
    assert (Hok : ok_state (mkst (mk X ms0) c0) ms0) by (split; [|split; [|split]]; auto).
    destruct (loop_spec max_iter (S (S (Z.to_nat (max_iter + 1)))) Hmd 0%Z _ _ Hok ltac:(lia) ltac:(lia) ltac:(lia))
      as (st & ms & cc & E & L & C1 & C2 & O & G).
    rewrite E. cbn [bind]. exists c0, st, ms, cc. split; auto. split; [apply L|]. split; auto. split.
    { destruct L as ((_ & _ & Hm & _) & _). rewrite Hm, mk_indices. reflexivity. }
    split; [lia|]. split; auto.
  Qed.
End Run.

(* ---------- consequences stated on specifications ---------- *)
Lemma nearest_unique X D ms i a b : nearest_medoid X D ms i a -> nearest_medoid X D ms i b -> a = b.
Proof.
  intros (A1 & A2 & A3) (B1 & B2 & B3). destruct (lt_eq_lt_dec a b) as [[H|H]|H]; auto.
  - specialize (B3 a H). specialize (A2 b B1). exfalso. pose proof (flt_irrefl (dist_j X D ms b i)).
    pose proof (flt_le_trans _ _ _ B3 A2). congruence.
  - specialize (A3 b H). specialize (B2 a A1). exfalso. pose proof (flt_irrefl (dist_j X D ms a i)).
    pose proof (flt_le_trans _ _ _ A3 B2). congruence.
Qed.

Lemma consistent_unique X D ms c c' : consistent X D ms c -> consistent X D ms c' -> c = c'.
Proof.
  intros (A1 & A2 & A3 & A4 & A5) (B1 & B2 & B3 & B4 & B5).
  assert (L : c_labels c = c_labels c').
  { apply nth_ext with (d := length ms) (d' := length ms); [congruence|]. intros i Hi. rewrite A1 in Hi.
    eapply nearest_unique; eauto. }
  destruct c as [l1 k1 t1 d1], c' as [l2 k2 t2 d2]. cbn in *. subst. reflexivity.
Qed.

Lemma consistent_get_cost X D ms c : instance X D -> valid_indices X ms -> ms <> [] -> dist_no_nan X D ->
  consistent X D ms c -> get_cost X D (mk X ms) = Ok c.
Proof.
  intros HI HV Hne HN Hc. destruct (get_cost_ok X D ms HI HV Hne) as (labels & E & _).
  rewrite E. f_equal. eapply consistent_unique; eauto. eapply get_cost_consistent; eauto.
Qed.

(* total cost as the sum of least distances *)
Local Open Scope Q_scope.
Definition qof (x : fnum) : Q := match x with Fin q => q | _ => 0%Q end.
Lemma is_fin_qof x : is_fin x = true -> x = Fin (qof x).
Proof. destruct x; cbn; intros; congruence. Qed.

Lemma qsum_plus {A} (f g : A -> Q) l : qsum (map (fun x => f x + g x) l) == qsum (map f l) + qsum (map g l).
Proof. induction l as [|a l IH]; cbn; [ring|]. rewrite IH. ring. Qed.
Lemma qsum_ext {A} (f g : A -> Q) l : (forall x, In x l -> f x == g x) -> qsum (map f l) == qsum (map g l).
Proof. induction l as [|a l IH]; intros H; cbn; [reflexivity|]. rewrite H by (left; auto). rewrite IH by (intros; apply H; right; auto). reflexivity. Qed.
Lemma qsum_zero {A} (l : list A) : qsum (map (fun _ => 0) l) == 0.
Proof. induction l as [|a l IH]; cbn; [reflexivity|]. rewrite IH. reflexivity. Qed.
Lemma qsum_pick (x : nat -> Q) a b k : (b <= a < b + k)%nat ->
  qsum (map (fun j => if (a =? j)%nat then x j else 0) (seq b k)) == x a.
Proof.
  revert b. induction k as [|k IH]; intros b H; [lia|]. cbn [seq map qsum].
  destruct (Nat.eqb_spec a b) as [->|Hne].
  - rewrite (qsum_ext _ (fun _ => 0)), qsum_zero; [ring|]. intros j Hj. apply in_seq in Hj.
    replace (b =? j)%nat with false by lia. reflexivity.
  - rewrite IH by lia. ring.
Qed.

Lemma qsum_by_label {A} (L : A -> nat) (d : nat -> A -> Q) k l : (forall i, In i l -> L i < k)%nat ->
  qsum (map (fun j => qsum (map (d j) (filter (fun i => L i =? j)%nat l))) (seq 0 k)) == qsum (map (fun i => d (L i) i) l).
Proof.
  induction l as [|a l IH]; intros H; cbn [filter map qsum].
  - apply qsum_zero.
  - rewrite <- IH by (intros; apply H; right; auto).
    rewrite (qsum_ext _ (fun j => (if (L a =? j)%nat then d j a else 0) + qsum (map (d j) (filter (fun i => L i =? j)%nat l)))).
    + rewrite qsum_plus, qsum_pick; [reflexivity|]. specialize (H a (or_introl eq_refl)). lia.
    + intros j _. destruct (L a =? j)%nat; cbn [map qsum]; ring.
Qed.

Lemma feqv_fsum_map {A} (f : A -> fnum) (g : A -> Q) l : (forall x, In x l -> feqv (f x) (Fin (g x))) ->
  feqv (fsum (map f l)) (Fin (qsum (map g l))).
Proof.
  intros H. transitivity (fsum (map Fin (map g l))); [|apply fsum_fin]. apply fsum_mor. rewrite map_map.
  induction l as [|a l IH]; cbn [map]; constructor; [apply H; left; auto|apply IH; intros; apply H; right; auto].
Qed.

Lemma total_is_sum_of_least X D ms c : valid_indices X ms -> dist_finite X D -> consistent X D ms c ->
  feqv (c_total c) (fsum (map (fun i => dist_j X D ms (nth i (c_labels c) (length ms)) i) (seq 0 (length X)))).
Proof.
  intros HV HF (C1 & C2 & C3 & C4 & C5). rewrite C4, C3.
  assert (F : forall j i, (j < length ms)%nat -> (i < length X)%nat -> dist_j X D ms j i = Fin (qof (dist_j X D ms j i))).
  { intros j i Hj Hi. apply is_fin_qof. apply HF; auto. assert (Hin : In (nth j ms 0%Z) ms) by (apply nth_In; auto). apply HV in Hin. lia. }
  set (L := fun i => nth i (c_labels c) (length ms)).
  assert (HL : forall i, In i (seq 0 (length X)) -> (L i < length ms)%nat).
  { intros i Hi. apply in_seq in Hi. apply C2. lia. }
  transitivity (Fin (qsum (map (fun j => qsum (map (fun i => qof (dist_j X D ms j i)) (filter (fun i => L i =? j)%nat (seq 0 (length X))))) (seq 0 (length ms))))).
  - apply feqv_fsum_map. intros j Hj. apply in_seq in Hj. unfold cluster_dists. apply feqv_fsum_map. intros i Hi.
    apply filter_In in Hi. destruct Hi as [Hi _]. apply in_seq in Hi. rewrite F by lia. cbn. reflexivity.
  - transitivity (Fin (qsum (map (fun i => qof (dist_j X D ms (L i) i)) (seq 0 (length X))))).
    + cbn. apply (qsum_by_label L (fun j i => qof (dist_j X D ms j i))). auto.
    + symmetry. apply feqv_fsum_map. intros i Hi. fold (L i). rewrite F; [cbn; reflexivity|apply HL; auto|apply in_seq in Hi; lia].
Qed.

(* a medoid belongs to its own cluster *)
Lemma own_cluster X D ms c : valid_indices X ms -> NoDup ms -> consistent X D ms c ->
  (forall a, In a ms -> feqb (sample_dist X D (Z.to_nat a) (Z.to_nat a)) (Fin 0) = true) ->
  (forall a b, In a ms -> In b ms -> a <> b -> flt (Fin 0) (sample_dist X D (Z.to_nat a) (Z.to_nat b)) = true) ->
  forall j, (j < length ms)%nat -> nth_error (c_labels c) (Z.to_nat (nth j ms 0%Z)) = Some j.
Proof.
  intros HV Hnd (C1 & C2 & _) H0 Hpos j Hj. set (i := Z.to_nat (nth j ms 0%Z)).
  assert (Hin : In (nth j ms 0%Z) ms) by (apply nth_In; auto).
  assert (Hi : (i < length X)%nat) by (apply HV in Hin; unfold i; lia).
  destruct (C2 i Hi) as (L1 & L2 & _). set (l := nth i (c_labels c) (length ms)) in *.
  assert (l = j).
  { destruct (Nat.eq_dec l j) as [|Hne]; auto. exfalso.
    assert (Hinl : In (nth l ms 0%Z) ms) by (apply nth_In; auto).
    specialize (L2 j Hj). unfold dist_j in L2. fold i in L2.
    assert (nth l ms 0%Z <> nth j ms 0%Z). { intros E. apply Hne. eapply NoDup_nth with (d := 0%Z); eauto. }
    specialize (Hpos _ _ Hinl Hin H). fold i in Hpos. specialize (H0 _ Hin). fold i in H0.
    destruct (sample_dist X D i i) as [| | |q]; try discriminate.
    destruct (sample_dist X D (Z.to_nat (nth l ms 0%Z)) i) as [| | |p]; try discriminate.
    cbn in *. apply Qltb_spec in Hpos. apply Qeq_bool_iff in H0. unfold fle in L2. cbn in L2.
    apply orb_true_iff in L2. destruct L2 as [L2|L2]; [apply Qltb_spec in L2|apply Qeq_bool_iff in L2]; lra. }
  transitivity (Some l); [|congruence]. unfold l. apply nth_error_nth'. lia.
Qed.

(* the report *)
Lemma report_ok k ms labels : (forall l, In l labels -> l < k)%nat -> length ms = k ->
  show_report (Z.of_nat k) ms labels = (if (length (nodup Nat.eq_dec labels) =? k)%nat then Ok tt else Raise IndexError).
Proof.
  intros Hl Hm. unfold show_report.
  assert (Hle : (length (nodup Nat.eq_dec labels) <= k)%nat).
  { rewrite <- (seq_length k 0). apply NoDup_incl_length; [apply NoDup_nodup|].
    intros x Hx. apply nodup_In in Hx. apply in_seq. apply Hl in Hx. lia. }
  set (nd := nodup Nat.eq_dec labels) in *. clearbody nd.
  assert (G : forall is, (forall i, In i is -> 0 <= i < Z.of_nat k)%Z ->
     foldM (fun _ i => _ <- getitem nd i ;; _ <- getitem ms i ;; Ok tt) is tt
     = if forallb (fun i => i <? Z.of_nat (length nd))%Z is then Ok tt else Raise IndexError).
  { induction is as [|i is IH]; intros H; cbn [foldM forallb]; auto.
    pose proof (H i (or_introl eq_refl)) as Hi.
    assert (Em : exists v, getitem ms i = Ok v).
    { unfold getitem. rewrite norm_index_in by lia. rewrite nth_error_nth' with (d := 0%Z) by lia. eauto. }
    destruct Em as [v Em]. destruct (Z.ltb_spec i (Z.of_nat (length nd))) as [Hlt|Hge].
    - assert (En : exists v, getitem nd i = Ok v).
      { unfold getitem. rewrite norm_index_in by lia. rewrite nth_error_nth' with (d := 0%nat) by lia. eauto. }
      destruct En as [w En]. rewrite En, Em. cbn [bind andb]. apply IH. intros; apply H; right; auto.
    - assert (En : getitem nd i = Raise IndexError).
      { unfold getitem. rewrite (proj2 (norm_index_none _ _)) by lia. reflexivity. }
      rewrite En. reflexivity. }
  rewrite G by (intros i Hi; apply in_zrange in Hi; lia).
  destruct (Nat.eqb_spec (length nd) k) as [E|E].
  - replace (forallb _ _) with true; auto. symmetry. apply forallb_forall. intros i Hi. apply in_zrange in Hi. lia.
  - replace (forallb _ _) with false; auto. symmetry. apply not_true_is_false. intros Hf.
    rewrite forallb_forall in Hf. specialize (Hf (Z.of_nat (length nd))).
    assert (In (Z.of_nat (length nd)) (zrange 0 (Z.of_nat k))) by (apply in_zrange; lia). apply Hf in H. lia.
Qed.

Lemma nodup_full k (labels : list nat) : (forall l, In l labels -> l < k)%nat ->
  (length (nodup Nat.eq_dec labels) = k <-> forall j, (j < k)%nat -> In j labels).
Proof.
  intros Hl. split.
  - intros E j Hj. apply (nodup_In Nat.eq_dec).
    assert (I : incl (seq 0 k) (nodup Nat.eq_dec labels)); [|apply I; apply in_seq; lia].
    apply NoDup_length_incl; [apply NoDup_nodup|rewrite seq_length; lia|].
    intros x Hx. apply nodup_In in Hx. apply in_seq. apply Hl in Hx. lia.
  - intros H. apply Nat.le_antisymm.
    + rewrite <- (seq_length k 0). apply NoDup_incl_length; [apply NoDup_nodup|].
      intros x Hx. apply nodup_In in Hx. apply in_seq. apply Hl in Hx. lia.
    + rewrite <- (seq_length k 0) at 1. apply NoDup_incl_length; [apply seq_NoDup|].
      intros x Hx. apply in_seq in Hx. apply nodup_In. apply H. lia.
Qed.
