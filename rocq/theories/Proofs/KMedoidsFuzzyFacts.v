(** Facts for Model/KMedoidsFuzzy.v. *)
From Coq Require Import ZifyBool ZifyNat Lqa.
From Verif Require Import Base.Py Base.PyFacts Base.Arr Base.ArrFacts Base.Float Base.FloatFacts
     Spec.Grid Model.Region Model.FuzzyMask Model.KMedoids Model.KMedoidsFuzzy Spec.Medoids Spec.Fuzzy
     Proofs.KMedoidsFacts Proofs.FuzzyMaskFacts.

Lemma enumerate_map {B} (f : nat -> B) n : enumerate (map f (seq 0 n)) = map (fun i => (i, f i)) (seq 0 n).
Proof.
  unfold enumerate. rewrite map_length, seq_length. rewrite <- (map_id (seq 0 n)) at 1. apply combine_map.
Qed.

Lemma fadd_PInf_l x : fadd PInf x = PInf \/ fadd PInf x = NaN.
Proof. destruct x; cbn; auto. Qed.
Lemma fold_fadd_pinf l acc : acc = PInf \/ acc = NaN -> let s := fold_left fadd l acc in s = PInf \/ s = NaN.
Proof.
  revert acc. induction l as [|x l IH]; intros acc H; cbn; auto. apply IH. destruct H as [->| ->]; [apply fadd_PInf_l|].
  right. destruct x; auto.
Qed.
Lemma fsum_pinf_nan l : In PInf l -> fsum l = PInf \/ fsum l = NaN.
Proof.
  unfold fsum. generalize (Fin 0). induction l as [|x l IH]; intros acc []; cbn.
  - subst. apply fold_fadd_pinf. destruct acc; cbn; auto.
  - apply IH; auto.
Qed.
Lemma fsum_pinf l : In PInf l -> (forall x, In x l -> x = PInf \/ is_fin x = true) -> fsum l = PInf.
Proof.
  unfold fsum. assert (G : forall l acc, acc = PInf -> (forall x, In x l -> x = PInf \/ is_fin x = true) -> fold_left fadd l acc = PInf).
  { clear. induction l as [|x l IH]; intros acc Ha H; cbn; auto. apply IH; [|intros; apply H; right; auto].
    subst. destruct (H x (or_introl eq_refl)) as [->|F]; auto. destruct x; try discriminate; auto. }
  assert (K : forall l acc, is_fin acc = true \/ acc = PInf -> In PInf l -> (forall x, In x l -> x = PInf \/ is_fin x = true) -> fold_left fadd l acc = PInf).
  { clear - G. induction l as [|x l IH]; intros acc Ha HE H; [destruct HE|]. cbn. destruct HE as [HE|HE].
    - subst. apply G; [|intros; apply H; right; auto]. destruct Ha as [Ha| ->]; auto. destruct acc; try discriminate; auto.
    - apply IH; auto; [|intros; apply H; right; auto]. destruct (H x (or_introl eq_refl)) as [->|F].
      + destruct Ha as [Ha| ->]; auto. destruct acc; try discriminate; auto.
      + destruct x; try discriminate. destruct Ha as [Ha| ->]; auto. destruct acc; try discriminate; auto. }
  intros. apply K; auto.
Qed.

Section Fcm.
  Variables (power : power_fn) (X : dataset) (m : Q) (D : distance) (tol : fnum).
  Hypothesis HI : instance X D.
  Hypothesis Hm : ~ (m == 1)%Q.
  Let pw := fun x => power x (1 / (m - 1))%Q.

  Lemma fcm_row_eq ms i : valid_indices X ms ->
    fcm_row power m (length X) ms i (map (fun j => dist_j X D ms j i) (seq 0 (length ms)))
    = map (membership X D pw ms i) (seq 0 (length ms)).
  Proof using.
    intros HV. unfold fcm_row. rewrite map_map.
    set (den := fsum _). rewrite <- (map_id ms) at 2. rewrite (map_nth_seq (fun x => x) ms 0%Z), combine_map, map_map.
    apply map_ext_in. intros j Hj. apply in_seq in Hj.
    assert (Hin : In (nth j ms 0%Z) ms) by (apply nth_In; lia). apply HV in Hin.
    rewrite norm_index_in by auto. reflexivity.
  Qed.

  Definition fcost_of (ms : list Z) : fcost :=
    mkfcost (memberships X D pw ms) (map (fuzzy_cost X D pw ms) (seq 0 (length ms))) (fuzzy_total X D pw ms)
      (map (fun i => map (fun j => dist_j X D ms j i) (seq 0 (length ms))) (seq 0 (length X))).

  Lemma fcm_eq ms : valid_indices X ms -> ms <> [] ->
    compute_membership_fcm power X m (mk X ms) D tol
    = if forallb (fun row => close_to_one tol (fsum row)) (memberships X D pw ms) then Ok (fcost_of ms) else Raise AssertionError.
  Proof using HI Hm.
    intros HV Hne. unfold compute_membership_fcm. rewrite mk_indices, mk_length, dist_to_medoids_spec by auto. cbn [bind].
    replace (length ms =? 0)%nat with false by (destruct ms; cbn; congruence).
    assert (Qeq_bool m 1 = false) as ->. { destruct (Qeq_bool m 1) eqn:E; auto. apply Qeq_bool_iff in E. contradiction. }
    rewrite map_length, seq_length, Nat.eqb_refl. cbn [bind].
    rewrite mapM_ok with (g := fun _ => tt).
    2:{ intros mi Hin. apply HV in Hin. rewrite norm_index_in by auto. reflexivity. }
    cbn [bind]. rewrite enumerate_map, map_map.
    assert (E : map (fun i => fcm_row power m (length X) ms i (map (fun j => dist_j X D ms j i) (seq 0 (length ms)))) (seq 0 (length X))
                = memberships X D pw ms).
    { apply map_ext. intros i. apply fcm_row_eq; auto. }
    rewrite E. unfold py_assert. destruct (forallb _ _); cbn [bind]; [|reflexivity].
    unfold fcost_of. unfold fuzzy_total.
    assert (Ec : map (fun i => fsum (map (fun '(u, d) => fmul (nth i u NaN) (nth i d NaN))
        (combine (memberships X D pw ms) (map (fun i0 => map (fun j => dist_j X D ms j i0) (seq 0 (length ms))) (seq 0 (length X))))))
        (seq 0 (length ms)) = map (fuzzy_cost X D pw ms) (seq 0 (length ms))).
    { apply map_ext_in. intros j Hj. apply in_seq in Hj. unfold fuzzy_cost, memberships. rewrite combine_map, map_map. f_equal.
      apply map_ext. intros i. rewrite !nth_map_lt with (d' := 0) by (rewrite seq_length; lia).
      rewrite !seq_nth by lia. reflexivity. }
    rewrite Ec. reflexivity.
  Qed.

  (** a sample at distance 0 from a medoid that is another sample *)
  Lemma fcm_duplicate ms a b : pw PInf = PInf -> valid_indices X ms -> In (Z.of_nat a) ms -> b < length X -> a <> b ->
    feqb (sample_dist X D a b) (Fin 0) = true ->
    compute_membership_fcm power X m (mk X ms) D tol = Raise AssertionError.
  Proof using HI Hm.
    intros Hp HV Ha Hb Hab H0. rewrite fcm_eq by (auto; intros ->; destruct Ha).
    replace (forallb _ _) with false; auto. symmetry. apply not_true_is_false. intros Hf. rewrite forallb_forall in Hf.
    apply In_nth with (d := 0%Z) in Ha. destruct Ha as (j & Hj & Ea).
    assert (Hd : dist_j X D ms j b = sample_dist X D a b) by (unfold dist_j; rewrite Ea, Nat2Z.id; auto).
    assert (Hw : fcm_weight X D pw ms b j = PInf).
    { unfold fcm_weight. rewrite Hd. destruct (sample_dist X D a b); try discriminate. cbn in *. rewrite H0. exact Hp. }
    assert (Hu : membership X D pw ms b j = NaN).
    { unfold membership. rewrite Ea, Nat2Z.id. replace (b =? a)%nat with false by lia. rewrite Hw.
      destruct (fsum_pinf_nan (map (fcm_weight X D pw ms b) (seq 0 (length ms)))) as [->| ->]; auto.
      apply in_map_iff. exists j. split; auto. apply in_seq; lia. }
    specialize (Hf (map (membership X D pw ms b) (seq 0 (length ms)))).
    rewrite fsum_nan in Hf.
    - specialize (Hf ltac:(apply in_map_iff; exists b; split; auto; apply in_seq; lia)). discriminate.
    - apply in_map_iff. exists j. split; auto. apply in_seq; lia.
  Qed.

  Section Separated.
    Hypothesis Hpw : power_contract pw.
    Hypothesis Hsep : separated X D.

    Lemma dist_j_sep ms i j : valid_indices X ms -> j < length ms -> i < length X ->
      if (i =? Z.to_nat (nth j ms 0%Z))%nat then feqb (dist_j X D ms j i) (Fin 0) = true
      else exists q, dist_j X D ms j i = Fin q /\ (0 < q)%Q.
    Proof using Hsep.
      intros HV Hj Hi. assert (Hin : In (nth j ms 0%Z) ms) by (apply nth_In; lia). apply HV in Hin.
      specialize (Hsep (Z.to_nat (nth j ms 0%Z)) i ltac:(lia) Hi). unfold dist_j. rewrite Nat.eqb_sym. exact Hsep.
    Qed.
    Lemma weight_sep ms i j : valid_indices X ms -> j < length ms -> i < length X ->
      if (i =? Z.to_nat (nth j ms 0%Z))%nat then fcm_weight X D pw ms i j = PInf
      else exists q p, dist_j X D ms j i = Fin q /\ (0 < q)%Q /\ fcm_weight X D pw ms i j = Fin p /\ (0 < p)%Q /\ pw (Fin (1 / q)) = Fin p.
    Proof using Hsep Hpw.
      intros HV Hj Hi. pose proof (dist_j_sep ms i j HV Hj Hi) as H. unfold fcm_weight.
      destruct (i =? Z.to_nat (nth j ms 0%Z))%nat.
      - destruct (dist_j X D ms j i); try discriminate. cbn in *. rewrite H. apply Hpw.
      - destruct H as (q & -> & Hq). exists q.
        assert (E : fdiv (Fin 1) (Fin q) = Fin (1 / q)).
        { cbn. destruct (Qeq_bool q 0) eqn:E; auto. apply Qeq_bool_iff in E. lra. }
        rewrite E. destruct Hpw as (_ & P2 & _). destruct (P2 (1 / q)%Q) as (p & Ep & Hp).
        { apply Qlt_shift_div_l; lra. }
        exists p. repeat split; auto.
    Qed.

    Lemma membership_medoid ms i j0 : valid_indices X ms -> NoDup ms -> j0 < length ms -> nth j0 ms 0%Z = Z.of_nat i ->
      forall j, j < length ms -> membership X D pw ms i j = if (j =? j0)%nat then Fin 1 else Fin 0.
    Proof using Hsep Hpw.
      intros HV Hnd Hj0 E j Hj. assert (Hi : i < length X).
      { assert (Hin : In (nth j0 ms 0%Z) ms) by (apply nth_In; auto). apply HV in Hin. lia. }
      unfold membership. destruct (Nat.eqb_spec i (Z.to_nat (nth j ms 0%Z))) as [Ei|Ei].
      - assert (j = j0). { eapply NoDup_nth with (d := 0%Z); eauto. rewrite E.
          assert (Hin : In (nth j ms 0%Z) ms) by (apply nth_In; auto). apply HV in Hin. lia. }
        subst. rewrite Nat.eqb_refl. auto.
      - destruct (Nat.eqb_spec j j0) as [->|Hne]; [exfalso; apply Ei; rewrite E, Nat2Z.id; auto|].
        pose proof (weight_sep ms i j HV Hj Hi) as W. replace (i =? Z.to_nat (nth j ms 0%Z))%nat with false in W by lia.
        destruct W as (q & p & _ & _ & -> & _). rewrite fsum_pinf; auto.
        + apply in_map_iff. exists j0. split; [|apply in_seq; lia].
          pose proof (weight_sep ms i j0 HV Hj0 Hi) as W. rewrite E, Nat2Z.id, Nat.eqb_refl in W. exact W.
        + intros x Hx. apply in_map_iff in Hx. destruct Hx as (l & <- & Hl). apply in_seq in Hl.
          pose proof (weight_sep ms i l HV ltac:(lia) Hi) as W. destruct (i =? _)%nat; auto.
          destruct W as (q' & p' & _ & _ & -> & _). auto.
    Qed.

    (* weights of a sample that is not a medoid, as rationals *)
    Definition wq ms i j := qof (fcm_weight X D pw ms i j).
    Lemma weight_q ms i j : valid_indices X ms -> i < length X -> ~ In (Z.of_nat i) ms -> j < length ms ->
      fcm_weight X D pw ms i j = Fin (wq ms i j) /\ (0 < wq ms i j)%Q.
    Proof using Hsep Hpw.
      intros HV Hi Hn Hj. pose proof (weight_sep ms i j HV Hj Hi) as W.
      assert (Hin : In (nth j ms 0%Z) ms) by (apply nth_In; auto).
      replace (i =? Z.to_nat (nth j ms 0%Z))%nat with false in W.
      2:{ symmetry. apply Nat.eqb_neq. intros ->. apply Hn. rewrite Z2Nat.id; auto. apply HV in Hin. lia. }
      destruct W as (q & p & _ & _ & E & Hp & _). unfold wq. rewrite E. auto.
    Qed.
    Lemma qsum_pos l : (forall x, In x l -> 0 < x)%Q -> l <> [] -> (0 < qsum l)%Q.
    Proof using.
      intros H Hne. assert (forall l, (forall x, In x l -> 0 < x)%Q -> (0 <= qsum l)%Q).
      { clear. induction l as [|x l IH]; intros H; cbn; [lra|]. pose proof (H x (or_introl eq_refl)).
        specialize (IH (fun y Hy => H y (or_intror Hy))). lra. }
      destruct l as [|x l]; [congruence|]. cbn. pose proof (H x (or_introl eq_refl)).
      specialize (H0 l (fun y Hy => H y (or_intror Hy))). lra.
    Qed.
    Lemma qsum_le l x : (forall x, In x l -> 0 < x)%Q -> In x l -> (x <= qsum l)%Q.
    Proof using.
      induction l as [|a l IH]; intros H []; cbn.
      - subst. destruct l as [|b l]; [cbn; lra|]. pose proof (qsum_pos (b :: l) (fun y Hy => H y (or_intror Hy)) ltac:(congruence)). cbn in *; lra.
      - specialize (IH (fun y Hy => H y (or_intror Hy)) H0). pose proof (H a (or_introl eq_refl)). lra.
    Qed.

    Lemma membership_other ms i : valid_indices X ms -> ms <> [] -> i < length X -> ~ In (Z.of_nat i) ms ->
      let S := qsum (map (wq ms i) (seq 0 (length ms))) in
      (0 < S)%Q /\ forall j, j < length ms -> exists v, membership X D pw ms i j = Fin v /\ (v == wq ms i j / S)%Q /\ (0 < v <= 1)%Q.
    Proof using Hsep Hpw.
      intros HV Hne Hi Hn S0. set (k := length ms) in *.
      assert (Hk : 0 < k) by (unfold k; destruct ms; cbn; [congruence|lia]).
      assert (Hpos : forall x, In x (map (wq ms i) (seq 0 k)) -> (0 < x)%Q).
      { intros x Hx. apply in_map_iff in Hx. destruct Hx as (j & <- & Hj). apply in_seq in Hj. apply weight_q; auto. unfold k in *; lia. }
      assert (HS : (0 < S0)%Q).
      { apply qsum_pos; auto. destruct k; [lia|discriminate]. }
      split; auto. intros j Hj.
      assert (Ed : feqv (fsum (map (fcm_weight X D pw ms i) (seq 0 k))) (Fin S0)).
      { apply feqv_fsum_map. intros l Hl. apply in_seq in Hl. rewrite (proj1 (weight_q ms i l HV Hi Hn ltac:(unfold k in *; lia))). cbn. reflexivity. }
      unfold membership. fold k.
      assert (Hin : In (nth j ms 0%Z) ms) by (apply nth_In; auto).
      replace (i =? Z.to_nat (nth j ms 0%Z))%nat with false.
      2:{ symmetry. apply Nat.eqb_neq. intros ->. apply Hn. rewrite Z2Nat.id; auto. apply HV in Hin. lia. }
      destruct (weight_q ms i j HV Hi Hn Hj) as [-> Hwp].
      destruct (fsum (map (fcm_weight X D pw ms i) (seq 0 k))) as [| | |s]; cbn in Ed; try contradiction.
      cbn [fdiv]. destruct (Qeq_bool s 0) eqn:E0; [apply Qeq_bool_iff in E0; lra|].
      exists (wq ms i j / s)%Q. split; auto.
      assert (Hle : (wq ms i j <= S0)%Q) by (apply qsum_le; auto; apply in_map_iff; exists j; split; auto; apply in_seq; lia).
      split; [rewrite Ed; reflexivity|]. rewrite Ed. split.
      - apply Qlt_shift_div_l; auto. lra.
      - apply Qle_shift_div_r; auto. lra.
    Qed.

    Lemma qsum_div (f : nat -> Q) s l : ~ (s == 0)%Q -> (qsum (map (fun x => f x / s) l) == qsum (map f l) / s)%Q.
    Proof using. intros Hs. induction l as [|x l IH]; cbn; [field; auto|]. rewrite IH. field. auto. Qed.

    Lemma row_sum ms i : valid_indices X ms -> NoDup ms -> ms <> [] -> i < length X ->
      feqv (fsum (map (membership X D pw ms i) (seq 0 (length ms)))) (Fin 1).
    Proof using Hsep Hpw.
      intros HV Hnd Hne Hi. destruct (in_dec Z.eq_dec (Z.of_nat i) ms) as [Hin|Hn].
      - apply In_nth with (d := 0%Z) in Hin. destruct Hin as (j0 & Hj0 & E).
        transitivity (Fin (qsum (map (fun j => if (j0 =? j)%nat then 1 else 0)%Q (seq 0 (length ms))))).
        + apply feqv_fsum_map. intros j Hj. apply in_seq in Hj. rewrite (membership_medoid ms i j0) by (auto; lia).
          rewrite Nat.eqb_sym. destruct (j0 =? j)%nat; cbn; reflexivity.
        + cbn. apply (qsum_pick (fun _ => 1%Q) j0 0 (length ms)). lia.
      - destruct (membership_other ms i HV Hne Hi Hn) as [HS P]. set (S0 := qsum _) in *.
        transitivity (Fin (qsum (map (fun j => wq ms i j / S0)%Q (seq 0 (length ms))))).
        + apply feqv_fsum_map. intros j Hj. apply in_seq in Hj. destruct (P j ltac:(lia)) as (v & -> & Hv & _). exact Hv.
        + cbn. rewrite qsum_div by lra. fold S0. field. lra.
    Qed.

    Lemma fcm_ok ms : fle (Fin 0) tol = true -> valid_indices X ms -> NoDup ms -> ms <> [] ->
      compute_membership_fcm power X m (mk X ms) D tol = Ok (fcost_of ms).
    Proof using Hsep Hpw HI Hm.
      intros Htol HV Hnd Hne. rewrite fcm_eq by auto. replace (forallb _ _) with true; auto. symmetry.
      apply forallb_forall. intros row Hr. unfold memberships in Hr. apply in_map_iff in Hr. destruct Hr as (i & <- & Hi).
      apply in_seq in Hi. pose proof (row_sum ms i HV Hnd Hne ltac:(lia)) as E. unfold close_to_one.
      destruct (fsum _) as [| | |s]; cbn in E; try contradiction. cbn [fsub fopp fadd fabs].
      eapply fle_trans; [|exact Htol]. apply fle_Fin. assert (Z : (s + - (1) == 0)%Q) by lra. rewrite Z. cbn. lra.
    Qed.

    Lemma membership_order ms i j j' : valid_indices X ms -> ms <> [] -> i < length X -> ~ In (Z.of_nat i) ms ->
      j < length ms -> j' < length ms -> flt (dist_j X D ms j i) (dist_j X D ms j' i) = true ->
      flt (membership X D pw ms i j') (membership X D pw ms i j) = true.
    Proof using Hsep Hpw.
      intros HV Hne Hi Hn Hj Hj' Hlt. destruct (membership_other ms i HV Hne Hi Hn) as [HS P]. set (S0 := qsum _) in *.
      destruct (P j Hj) as (v & -> & Hv & _), (P j' Hj') as (v' & -> & Hv' & _).
      assert (Hnj : forall l, l < length ms -> (i =? Z.to_nat (nth l ms 0%Z))%nat = false).
      { intros l Hl. apply Nat.eqb_neq. intros ->. apply Hn.
        assert (Hin : In (nth l ms 0%Z) ms) by (apply nth_In; auto). rewrite Z2Nat.id; auto. apply HV in Hin. lia. }
      pose proof (weight_sep ms i j HV Hj Hi) as W. rewrite Hnj in W by auto.
      pose proof (weight_sep ms i j' HV Hj' Hi) as W'. rewrite Hnj in W' by auto.
      destruct W as (q & p & Ed & Hq & Ew & Hp & Ep), W' as (q' & p' & Ed' & Hq' & Ew' & Hp' & Ep').
      rewrite Ed, Ed' in Hlt. apply flt_Fin in Hlt. apply flt_Fin.
      assert (p' < p)%Q.
      { destruct Hpw as (_ & _ & P3). apply (P3 (1 / q') (1 / q))%Q; auto.
        - apply Qlt_shift_div_l; lra.
        - apply Qlt_shift_div_l; auto. setoid_replace (1 / q' * q)%Q with (q / q')%Q by (field; lra).
          apply Qlt_shift_div_r; lra. }
      rewrite Hv, Hv'. unfold wq. rewrite Ew, Ew'. cbn [qof].
      apply Qlt_shift_div_l; auto. setoid_replace (p' / S0 * S0)%Q with p' by (field; lra). auto.
    Qed.
  End Separated.

  (* ---------- the search ---------- *)
  Section Search.
    Variable k : nat.
    Hypothesis Hk : 0 < k.
    Hypothesis Htol : fle (Fin 0) tol = true.
    Definition good (ms : list Z) := valid_indices X ms /\ NoDup ms /\ length ms = k.
    Hypothesis Hfcm : forall ms, good ms -> compute_membership_fcm power X m (mk X ms) D tol = Ok (fcost_of ms).

    Definition fok (st : fstate) (ms : list Z) : Prop :=
      good ms /\ fs_medoids st = mk X ms /\ fs_total st = fuzzy_total X D pw ms /\
      fs_costs st = map (fuzzy_cost X D pw ms) (seq 0 k) /\
      (fs_u st = None \/ fs_u st = Some (memberships X D pw ms)).

    Definition gain (ms ms' : list Z) : Prop := flt tol (fsub (fuzzy_total X D pw ms) (fuzzy_total X D pw ms')) = true.
    Definition better (ms : list Z) (st' : fstate) (ms' : list Z) : Prop := gain ms ms' /\ fs_u st' <> None.
    Definition imp (ms : list Z) (j i : nat) : Prop := ~ In (Z.of_nat i) ms /\ gain ms (replace_nth ms j (Z.of_nat i)).

    Lemma f_try_spec st ms sw i j : fok st ms -> j < k -> i < length X ->
      exists st' ms' sw', f_try_swap power X m D tol i (st, sw) j = Ok (st', sw') /\ fok st' ms' /\
        ((st' = st /\ ms' = ms /\ sw' = sw /\ ~ imp ms j i) \/ (sw' = true /\ better ms st' ms' /\ imp ms j i)).
    Proof using Hfcm Hk Htol.
      intros Hok Hj Hi. pose proof Hok as ((HV & Hnd & Hl) & Hmd & Ht & Hc & Hu). unfold f_try_swap. rewrite Hmd, mk_indices.
      destruct (existsb (Z.eqb (Z.of_nat i)) ms) eqn:E.
      - exists st, ms, sw. split; auto. split; auto. left. repeat split; auto. intros [Hn _]. apply Hn.
        apply existsb_exists in E. destruct E as (x & Hx & Ex). apply Z.eqb_eq in Ex. subst. auto.
      - assert (Hn : ~ In (Z.of_nat i) ms).
        { intros Hin. assert (existsb (Z.eqb (Z.of_nat i)) ms = true); [|congruence].
          apply existsb_exists. exists (Z.of_nat i). split; auto. apply Z.eqb_refl. }
        rewrite getitem_sample by lia. cbn [bind]. rewrite Nat2Z.id. rewrite mk_replace by (auto; lia). cbn [bind].
        set (ms' := replace_nth ms j (Z.of_nat i)).
        assert (Hg : good ms').
        { split; [apply replace_valid; auto|]. split; [apply replace_nodup; auto|]. unfold ms'. rewrite replace_nth_length; auto. }
        rewrite Hfcm by auto. cbn [bind]. cbn [f_total f_u f_costs fcost_of]. rewrite Ht.
        destruct (flt tol (fsub (fuzzy_total X D pw ms) (fuzzy_total X D pw ms'))) eqn:G.
        + exists (mkfst (mk X ms') (Some (memberships X D pw ms')) (map (fuzzy_cost X D pw ms') (seq 0 (length ms'))) (fuzzy_total X D pw ms')), ms', true.
          split; auto. split.
          * split; auto. destruct Hg as (_ & _ & Hl'). rewrite Hl'. repeat split; auto.
          * right. split; auto. split; [split; [exact G|cbn; discriminate]|split; auto].
        + exists st, ms, sw. split; auto. split; auto. left. repeat split; auto. intros [_ G']. unfold gain in G'. fold ms' in G'. congruence.
    Qed.

    Lemma better_trans ms st1 ms1 st2 ms2 : better ms st1 ms1 -> better ms1 st2 ms2 -> better ms st2 ms2.
    Proof using Htol. intros [G1 _] [G2 U]. split; auto. unfold gain in *. eapply gain_trans; eauto. Qed.

    (* fold of steps that each either change nothing or improve *)
    Lemma fold_steps {A} (f : fstate * bool -> A -> res (fstate * bool)) (P : list Z -> A -> Prop) l :
      (forall st ms sw a, In a l -> fok st ms -> exists st' ms' sw', f (st, sw) a = Ok (st', sw') /\ fok st' ms' /\
        ((st' = st /\ ms' = ms /\ sw' = sw /\ ~ P ms a) \/ (sw' = true /\ better ms st' ms' /\ P ms a))) ->
      forall st ms sw, fok st ms -> exists st' ms' sw', foldM f l (st, sw) = Ok (st', sw') /\ fok st' ms' /\
        ((st' = st /\ ms' = ms /\ sw' = sw /\ forall a, In a l -> ~ P ms a) \/ (sw' = true /\ better ms st' ms' /\ exists a, In a l /\ P ms a)).
    Proof using Htol.
      induction l as [|a l IH]; intros H st ms sw Hok; cbn [foldM].
      - exists st, ms, sw. split; auto. split; auto. left. repeat split; auto.
      - destruct (H st ms sw a (or_introl eq_refl) Hok) as (st1 & ms1 & sw1 & E1 & Hok1 & C1). rewrite E1. cbn [bind].
        destruct (IH (fun st ms sw b Hb => H st ms sw b (or_intror Hb)) st1 ms1 sw1 Hok1) as (st2 & ms2 & sw2 & E2 & Hok2 & C2).
        exists st2, ms2, sw2. split; auto. split; auto.
        destruct C1 as [(-> & -> & -> & N1)|(S1 & B1 & P1)], C2 as [(-> & -> & -> & N2)|(S2 & B2 & b & Hb & P2)].
        + left. repeat split; auto. intros b [<-|Hb]; auto.
        + right. split; auto. split; auto. exists b. split; [right|]; auto.
        + right. split; auto. split; auto. exists a. split; [left|]; auto.
        + right. split; auto. split; [eapply better_trans; eauto|]. exists a. split; [left|]; auto.
    Qed.

    Lemma f_pass_spec st ms : fok st ms -> exists st' ms' sw', f_one_pass power X (Z.of_nat k) m D tol st = Ok (st', sw') /\ fok st' ms' /\
      ((st' = st /\ ms' = ms /\ sw' = false /\ forall i j, i < length X -> j < k -> ~ imp ms j i) \/
       (sw' = true /\ better ms st' ms' /\ exists i j, i < length X /\ j < k /\ imp ms j i)).
    Proof using Htol Hfcm Hk.
      intros Hok. unfold f_one_pass. rewrite Nat2Z.id.
      destruct (fold_steps (fun s i => foldM (f_try_swap power X m D tol i) (seq 0 k) s)
        (fun ms i => exists j, j < k /\ imp ms j i) (seq 0 (length X))) with (st := st) (ms := ms) (sw := false) as (st' & ms' & sw' & E & Hok' & C); auto.
      - clear st ms Hok. intros st ms sw i Hi Hok. apply in_seq in Hi.
        destruct (fold_steps (f_try_swap power X m D tol i) (fun ms j => imp ms j i) (seq 0 k)) with (st := st) (ms := ms) (sw := sw)
          as (st' & ms' & sw' & E & Hok' & C); auto.
        + intros st0 ms0 sw0 j Hj Hok0. apply in_seq in Hj. apply f_try_spec; auto; lia.
        + exists st', ms', sw'. split; auto. split; auto. destruct C as [(-> & -> & -> & N)|(-> & B & j & Hj & I)].
          * left. repeat split; auto. intros (j & Hj & I). apply (N j); auto. apply in_seq; lia.
          * right. split; auto. split; auto. exists j. apply in_seq in Hj. split; auto; lia.
      - exists st', ms', sw'. split; auto. split; auto. destruct C as [(-> & -> & -> & N)|(-> & B & i & Hi & j & Hj & I)].
        + left. repeat split; auto. intros i j Hi Hj I. apply (N i); [apply in_seq; lia|eauto].
        + right. split; auto. split; auto. exists i, j. apply in_seq in Hi. split; [lia|auto].
    Qed.

    Definition optimal (ms : list Z) := forall i j, i < length X -> j < k -> ~ imp ms j i.

    Lemma f_loop_spec max_iter fuel : forall cc st ms, fok st ms -> (0 <= cc)%Z ->
      (max_iter + 2 - cc < Z.of_nat fuel)%Z -> 1 <= fuel ->
      exists st' ms' cc', f_loop fuel power X (Z.of_nat k) m D max_iter tol cc st = Ok (st', cc') /\ fok st' ms' /\
        ((st' = st /\ ms' = ms /\ optimal ms) \/ (better ms st' ms' /\ ~ optimal ms)) /\
        (cc <= cc')%Z /\ (cc' <= Z.max cc (max_iter + 1))%Z /\ ((cc' <= max_iter)%Z -> optimal ms').
    Proof using Htol Hfcm Hk.
      induction fuel as [|fuel IH]; intros cc st ms Hok Hcc Hf Hf1; [lia|]. cbn [f_loop].
      destruct (f_pass_spec st ms Hok) as (st1 & ms1 & sw & E & Hok1 & C). rewrite E. cbn [bind].
      destruct (Z.ltb_spec max_iter cc) as [Hlim|Hlim].
      - exists st1, ms1, cc. split; auto. split; auto. split.
        { destruct C as [(-> & -> & _ & N)|(_ & B & i & j & Hi & Hj & I)]; auto. right. split; auto. intros O. apply (O i j); auto. }
        split; [lia|]. split; lia.
      - destruct C as [(-> & -> & -> & N)|(-> & B & i & j & Hi & Hj & I)]; cbn [negb].
        + exists st, ms, cc. split; auto. split; auto. split; auto. split; [lia|]. split; [lia|]. intros _. exact N.
        + destruct (IH (cc + 1)%Z st1 ms1 Hok1 ltac:(lia) ltac:(lia) ltac:(lia)) as (st2 & ms2 & cc2 & E2 & Hok2 & C2 & B1 & B2 & O).
          exists st2, ms2, cc2. split; auto. split; auto. split; [|split; [lia|split; [lia|auto]]].
          right. split; [|intros O'; apply (O' i j); auto]. destruct C2 as [(-> & -> & _)|[B' _]]; auto. eapply better_trans; eauto.
    Qed.

    Lemma concat_length {A B} (f : B -> list A) w l : (forall b, length (f b) = w) -> length (concat (map f l)) = length l * w.
    Proof using. intros H. induction l as [|b l IH]; cbn; auto. rewrite app_length, H, IH. reflexivity. Qed.

    Lemma f_report_ok r ms : good ms -> fr_u r = memberships X D pw ms -> fr_medoids r = ms ->
      f_show_report (Z.of_nat k) r = Ok tt.
    Proof using Hk Htol Hfcm.
      intros (HV & Hnd & Hl) Hu Hr. unfold f_show_report. rewrite Hu, Hr.
      assert (Hn : 0 < length X).
      { destruct ms as [|z ms]; cbn in Hl; [lia|]. specialize (HV z (or_introl eq_refl)). lia. }
      assert (Hlen : length (memberships X D pw ms) = length X) by (unfold memberships; rewrite map_length, seq_length; auto).
      rewrite Hlen.
      assert (Hw : match memberships X D pw ms with [] => 0 | row :: _ => length row end = k).
      { unfold memberships. destruct (length X) eqn:E; [lia|]. cbn [seq map]. rewrite map_length, seq_length. auto. }
      rewrite Hw. set (arr := mk2 (length X) k (concat (memberships X D pw ms))).
      assert (Hwf : wf2 arr).
      { unfold wf2, arr. cbn. unfold memberships. rewrite concat_length with (w := k).
        - rewrite seq_length. auto.
        - intros i. rewrite map_length, seq_length. auto. }
      set (step := fun (_ : unit) i => mask <- from_uij_and_region arr 1 (length X) i (Fin 0) ;; _).
      assert (Hs : forall u i, (0 <= i < Z.of_nat k)%Z -> step u i = Ok tt).
      { intros u i Hi. unfold step.
        destruct (from_uij_spec arr 1 (length X) i (Fin 0) Hwf ltac:(cbn; lia) Hi eq_refl eq_refl) as (mk0 & E & Hmw & _).
        rewrite E. cbn [bind]. unfold fmask_cluster_len. rewrite fmask_for_spec by auto. cbn [snd bind].
        destruct (Nat.eqb_spec (length X) 0) as [|Hnz]; [lia|]. cbn [bind].
        unfold getitem. rewrite norm_index_in by (rewrite Hl; auto). rewrite nth_error_nth' with (d := 0%Z) by lia. reflexivity. }
      clearbody step.
      assert (G : forall is, (forall i, In i is -> 0 <= i < Z.of_nat k)%Z -> foldM step is tt = Ok tt).
      { induction is as [|i is IH]; intros H; cbn [foldM]; auto. rewrite Hs by (apply H; left; auto). cbn [bind].
        apply IH. intros; apply H; right; auto. }
      apply G. intros i Hi. apply in_zrange in Hi. lia.
    Qed.

    Theorem f_run_spec choice init max_iter ms0 :
      (match init with None | Some [] => choice (length X) (Z.of_nat k) | Some l => Ok l end) = Ok ms0 -> good ms0 ->
      (optimal ms0 /\ run_kmedoids_fuzzy power choice X (Z.of_nat k) m D init max_iter tol = Raise UnboundLocalError) \/
      (~ optimal ms0 /\ exists r, run_kmedoids_fuzzy power choice X (Z.of_nat k) m D init max_iter tol = Ok r /\
         good (fr_medoids r) /\ gain ms0 (fr_medoids r) /\ fr_u r = memberships X D pw (fr_medoids r) /\
         fr_costs r = map (fuzzy_cost X D pw (fr_medoids r)) (seq 0 k) /\ fr_total r = fuzzy_total X D pw (fr_medoids r) /\
         (0 <= fr_cc r <= Z.max 0 (max_iter + 1))%Z /\ ((fr_cc r <= max_iter)%Z -> optimal (fr_medoids r))).
    Proof using Htol Hfcm Hk.
      intros Hinit Hg. pose proof Hg as (HV & Hnd & Hl). unfold run_kmedoids_fuzzy, choose_initial_medoids. rewrite Hinit. cbn [bind].
      rewrite medoids_ok by auto. cbn [bind]. rewrite Hfcm by auto. cbn [bind]. cbn [f_costs f_total fcost_of]. rewrite Hl.
      set (st0 := mkfst _ _ _ _).
      assert (Hok : fok st0 ms0) by (split; auto; repeat split; auto).
      destruct (f_loop_spec max_iter (S (S (Z.to_nat (max_iter + 1)))) 0%Z st0 ms0 Hok ltac:(lia) ltac:(lia) ltac:(lia))
        as (st & ms & cc & E & Hok' & C & C1 & C2 & O).
      rewrite E. cbn [bind]. destruct C as [(-> & -> & Opt)|[[G U] NO]].
      - left. split; auto.
      - right. split; auto. pose proof Hok' as (Hg' & Hmd & Ht & Hc & Hu). destruct Hu as [Hu|Hu]; [contradiction|]. rewrite Hu.
        rewrite Hmd, mk_indices. rewrite (f_report_ok _ ms) by auto. cbn [bind]. eexists. split; [reflexivity|].
        cbn [fr_medoids fr_u fr_costs fr_total fr_cc]. do 5 (split; [assumption || reflexivity|]). split; [lia|auto].
    Qed.
  End Search.

  (* ---------- two samples at distance 0 ---------- *)
  Lemma foldM_must_raise {A S} (f : S -> A -> res S) (P : S -> Prop) e l a : In a l ->
    (forall s b, In b l -> P s -> (exists s', f s b = Ok s' /\ P s') \/ f s b = Raise e) ->
    (forall s, P s -> f s a = Raise e) -> forall s, P s -> foldM f l s = Raise e.
  Proof using.
    induction l as [|b l IH]; intros Hin Hstep Ha s Hs; [destruct Hin|]. cbn [foldM]. destruct Hin as [->|Hin].
    - rewrite Ha by auto. reflexivity.
    - destruct (Hstep s b (or_introl eq_refl) Hs) as [(s' & E & Hs')|E]; rewrite E; cbn [bind]; auto.
      apply IH; auto. intros s0 c Hc. apply Hstep. right; auto.
  Qed.
  Lemma foldM_may_raise {A S} (f : S -> A -> res S) (P : S -> Prop) e l :
    (forall s b, In b l -> P s -> (exists s', f s b = Ok s' /\ P s') \/ f s b = Raise e) ->
    forall s, P s -> (exists s', foldM f l s = Ok s' /\ P s') \/ foldM f l s = Raise e.
  Proof using.
    induction l as [|b l IH]; intros Hstep s Hs; cbn [foldM]; [eauto|].
    destruct (Hstep s b (or_introl eq_refl) Hs) as [(s' & E & Hs')|E]; rewrite E; cbn [bind]; auto.
    apply IH; auto. intros s0 c Hc. apply Hstep. right; auto.
  Qed.

  Theorem f_run_duplicate choice init max_iter k ms0 a b : pw PInf = PInf ->
    (match init with None | Some [] => choice (length X) (Z.of_nat k) | Some l => Ok l end) = Ok ms0 ->
    valid_indices X ms0 -> length ms0 = k -> 0 < k ->
    a < length X -> b < length X -> a <> b -> feqb (sample_dist X D a b) (Fin 0) = true ->
    run_kmedoids_fuzzy power choice X (Z.of_nat k) m D init max_iter tol = Raise AssertionError.
  Proof using HI Hm.
    intros Hp Hinit HV Hl Hk Ha Hb Hab H0. unfold run_kmedoids_fuzzy, choose_initial_medoids. rewrite Hinit. cbn [bind].
    rewrite medoids_ok by auto. cbn [bind].
    assert (Hcase : forall ms, valid_indices X ms -> length ms = k ->
      (exists c, compute_membership_fcm power X m (mk X ms) D tol = Ok c /\ ~ In (Z.of_nat a) ms) \/
      compute_membership_fcm power X m (mk X ms) D tol = Raise AssertionError).
    { intros ms HVm Hlm. destruct (in_dec Z.eq_dec (Z.of_nat a) ms) as [Hin|Hn].
      - right. eapply fcm_duplicate; eauto.
      - assert (ms <> []) by (intros ->; cbn in Hlm; lia). rewrite fcm_eq by auto. destruct (forallb _ _); eauto. }
    destruct (Hcase ms0 HV Hl) as [(c & Ec & Hna)|Ec]; rewrite Ec; cbn [bind]; auto.
    set (st0 := mkfst _ _ _ _).
    set (P := fun s : fstate * bool => exists ms, fs_medoids (fst s) = mk X ms /\ valid_indices X ms /\ length ms = k /\ ~ In (Z.of_nat a) ms).
    assert (Hstep : forall i s j, i < length X -> j < k -> P s ->
      (exists s', f_try_swap power X m D tol i s j = Ok s' /\ P s' /\ i <> a) \/ f_try_swap power X m D tol i s j = Raise AssertionError).
    { intros i [st sw] j Hi Hj (ms & Hmd & HVm & Hlm & Hn). cbn [fst] in Hmd. unfold f_try_swap. rewrite Hmd, mk_indices.
      destruct (existsb (Z.eqb (Z.of_nat i)) ms) eqn:E.
      - left. exists (st, sw). split; auto. split; [exists ms; auto|]. intros ->. apply Hn.
        apply existsb_exists in E. destruct E as (x & Hx & Ex). apply Z.eqb_eq in Ex. subst. auto.
      - rewrite getitem_sample by lia. cbn [bind]. rewrite Nat2Z.id, mk_replace by (auto; lia). cbn [bind].
        set (ms' := replace_nth ms j (Z.of_nat i)).
        assert (HV' : valid_indices X ms') by (apply replace_valid; auto).
        assert (Hl' : length ms' = k) by (unfold ms'; rewrite replace_nth_length; auto).
        destruct (Hcase ms' HV' Hl') as [(c' & Ec' & Hn')|Ec']; rewrite Ec'; cbn [bind]; auto. left.
        assert (i <> a).
        { intros ->. apply Hn'. apply nth_error_In with j. unfold ms'. rewrite nth_error_replace_nth.
          rewrite Nat.eqb_refl. replace (j <? length ms)%nat with true by lia. reflexivity. }
        destruct (flt _ _); eexists; (split; [reflexivity|]); split; auto; [exists ms'|exists ms]; auto. }
    set (fuel := S (S (Z.to_nat (max_iter + 1)))).
    assert (Hpass : f_one_pass power X (Z.of_nat k) m D tol st0 = Raise AssertionError).
    { unfold f_one_pass. rewrite Nat2Z.id. apply foldM_must_raise with (P := P) (a := a).
      - apply in_seq; lia.
      - intros s i Hi Hs. apply in_seq in Hi. apply foldM_may_raise; auto.
        intros s' j Hj Hs'. apply in_seq in Hj. destruct (Hstep i s' j ltac:(lia) ltac:(lia) Hs') as [(s1 & E1 & P1 & _)|E1]; eauto.
      - intros s Hs. destruct k as [|k']; [lia|]. cbn [seq foldM].
        destruct (Hstep a s 0 Ha Hk Hs) as [(s1 & _ & _ & Hne)|E1]; [congruence|]. rewrite E1. reflexivity.
      - exists ms0. auto. }
    unfold fuel. cbn [f_loop]. rewrite Hpass. reflexivity.
  Qed.
End Fcm.
