(** C158: fuzzy masks in floating point. *)
From Coq Require Import Lia Lqa QArith.
From Verif Require Import Base.Py Base.PyFacts Base.Arr Base.ArrFacts Base.Float Base.FloatFacts Spec.Grid Model.Region Model.FuzzyMask Model.Rounded Model.FuzzyMaskRounded
  Spec.Rounded Spec.Ieee Proofs.RegionFacts Proofs.FuzzyMaskFacts Proofs.FuzzyMaskRoundedFacts Proofs.RoundedFacts Proofs.IeeeFacts Props.Fuzzy.
From Coq Require Import ZifyBool ZifyNat.
Local Close Scope Q_scope.
Local Open Scope nat_scope.

Lemma fin_no_nan s : (forall v, In v s -> is_fin v = true) -> forall v, In v s -> is_nan v = false.
Proof. intros H v Hv. specialize (H v Hv). destruct v; try discriminate; reflexivity. Qed.

Lemma Qle_one o : (o == 1)%Q -> fle (Fin 1) (Fin o) = true.
Proof. intros H. apply fle_Fin. lra. Qed.

(** For finite memberships of a point: the point belongs to cluster c iff no membership exceeds that of c by a computed difference
    above the threshold. *)
Theorem C158_member_iff : forall rnd u c t m x y s, rounding rnd -> mk_fmask u c t = Ok m -> wf3 u -> in_grid (a3x u) (a3y u) (x, y) ->
  series3 u x y = Ok s -> (forall v, In v s -> is_fin v = true) ->
  exists uc b, nth_error s (Z.to_nat c) = Some uc /\ fmask_is_member_r rnd m (Some (x, y)) = Ok b /\
    (b = true <-> forall v, In v s -> fle (rsub rnd v uc) t = true).
Proof.
  intros rnd u c t m x y s HR Hm Hw Hg Hs Hf. apply mk_fmask_ok in Hm. destruct Hm as (-> & Hc & Ht0 & Ht1).
  assert (Hwf : fmask_wf (FMask u c t)) by (split; auto).
  destruct (is_member_value_r rnd _ Hwf (x, y) Hg) as (s' & best & ub & uc & Es & Ls & Eb & Eub & Euc & E).
  cbn [fm_u fst snd fm_cluster fm_threshold] in *. rewrite Hs in Es. injection Es as <-.
  exists uc, (fle (rsub rnd ub uc) t). split; auto. split; auto.
  destruct (np_argmax_spec s best (fin_no_nan s Hf) Eb) as (m0 & Em & P). rewrite Eub in Em. injection Em as <-.
  assert (Fub : is_fin ub = true) by (apply Hf; eapply nth_error_In; eauto).
  assert (Fuc : is_fin uc = true) by (apply Hf; eapply nth_error_In; eauto).
  destruct ub as [| | |qb]; try discriminate. destruct uc as [| | |qc]; try discriminate.
  split.
  - intros H v Hv. pose proof (Hf v Hv) as Fv. destruct v as [| | |q]; try discriminate.
    apply In_nth_error in Hv. destruct Hv as [n Hv]. destruct (P n _ Hv) as [L _]. apply fle_Fin in L.
    eapply fle_trans; [|exact H]. unfold rsub. cbn [fsub fopp fadd rounded]. apply (proj1 HR). lra.
  - intros H. apply H. eapply nth_error_In; eauto.
Qed.
Print Assumptions C158_member_iff.

(** Rounding loses no member when the threshold is a float; and with threshold 0 and gradual underflow, members are exactly
    those of exact arithmetic. *)
Theorem C158_exact_members : forall rnd u c q m x y s, rounding rnd -> mk_fmask u c (Fin q) = Ok m -> wf3 u -> in_grid (a3x u) (a3y u) (x, y) ->
  series3 u x y = Ok s -> (forall v, In v s -> is_fin v = true) -> feqv (rnd q) (Fin q) ->
  (fmask_is_member m (Some (x, y)) = Ok true -> fmask_is_member_r rnd m (Some (x, y)) = Ok true) /\
  ((q == 0)%Q -> apart rnd s -> fmask_is_member_r rnd m (Some (x, y)) = fmask_is_member m (Some (x, y))).
Proof.
  intros rnd u c q m x y s HR Hm Hw Hg Hs Hf Fq.
  destruct (C158_member_iff rnd u c (Fin q) m x y s HR Hm Hw Hg Hs Hf) as (uc & b & Euc & E & I).
  destruct (C33_member_iff u c (Fin q) m x y s Hm Hw Hg Hs Hf) as (uc' & b' & Euc' & E' & I'). rewrite Euc in Euc'. injection Euc' as <-.
  assert (Fuc : is_fin uc = true) by (apply Hf; eapply nth_error_In; eauto). destruct uc as [| | |qc]; try discriminate.
  assert (Dir : b' = true -> b = true).
  { intros Hb. apply I. intros v Hv. pose proof (proj1 I' Hb v Hv) as L. pose proof (Hf v Hv) as Fv. destruct v as [| | |p]; try discriminate.
    cbn [fsub fopp fadd] in L. apply fle_Fin in L. unfold rsub. cbn [fsub fopp fadd rounded].
    pose proof (proj1 HR _ _ L) as M. destruct (rnd q) as [| | |q']; try contradiction. cbn in Fq. eapply fle_trans; [ exact M | ]. apply fle_Fin. lra. }
  rewrite E, E'. split.
  - intros H. injection H as H. f_equal. auto.
  - intros Hq Ha. f_equal. destruct b' eqn:B'; [ auto | ]. destruct b eqn:B; [ | reflexivity ]. exfalso.
    assert (false = true); [ | discriminate ]. apply I'. intros v Hv. pose proof (proj1 I eq_refl v Hv) as L. pose proof (Hf v Hv) as Fv. destruct v as [| | |p]; try discriminate.
    cbn [fsub fopp fadd]. apply fle_Fin. destruct (Qlt_le_dec qc p) as [ G | G ]; [ exfalso | lra ].
    pose proof (Ha qc p (nth_error_In _ _ Euc) Hv G) as A. unfold rsub in L. cbn [fsub fopp fadd rounded] in L. change (p + - qc)%Q with (p - qc)%Q in L.
    pose proof (flt_le_trans _ _ _ A L) as K. apply flt_Fin in K. lra.
Qed.
Print Assumptions C158_exact_members.

(** Every point with finite memberships belongs to a cluster where its membership is largest, whatever the threshold. *)
Theorem C158_some_cluster : forall rnd u t x y s, rounding rnd -> wf3 u -> 0 < a3t u -> in_grid (a3x u) (a3y u) (x, y) ->
  fle (Fin 0) t = true -> fle t (Fin 1) = true ->
  series3 u x y = Ok s -> (forall v, In v s -> is_fin v = true) ->
  exists c m, mk_fmask u c t = Ok m /\ fmask_is_member_r rnd m (Some (x, y)) = Ok true /\
    (forall v, In v s -> fle v (nth (Z.to_nat c) s NaN) = true).
Proof.
  intros rnd u t x y s HR Hw Hk Hg Ht0 Ht1 Hs Hf. destruct (C33_some_cluster u t x y s Hw Hk Hg Ht0 Ht1 Hs Hf) as (c & m & Hm & _ & L).
  exists c, m. split; [ exact Hm | ]. split; [ | exact L ].
  destruct (C158_member_iff rnd u c t m x y s HR Hm Hw Hg Hs Hf) as (uc & b & Euc & E & I). rewrite E. f_equal. apply I.
  intros v Hv. specialize (L v Hv). rewrite (nth_error_nth _ _ _ Euc) in L. pose proof (Hf v Hv). pose proof (Hf uc (nth_error_In _ _ Euc)).
  destruct v as [| | |p]; try discriminate. destruct uc as [| | |q]; try discriminate. apply fle_Fin in L. unfold rsub. cbn [fsub fopp fadd rounded].
  pose proof (proj1 HR (p + - q)%Q 0%Q ltac:(lra)) as M. destruct HR as (_ & Z0 & _). destruct (rnd 0%Q) as [| | |z]; try contradiction. cbn in Z0.
  eapply fle_trans; [ exact M | ]. eapply fle_trans; [ | exact Ht0 ]. apply fle_Fin. lra.
Qed.
Print Assumptions C158_some_cluster.

(** A larger threshold keeps every member; threshold 1 puts every point with memberships from 0 to 1 in every cluster. *)
Theorem C158_thresholds : forall rnd u c, rounding rnd ->
  (forall t t' m m' pt, mk_fmask u c t = Ok m -> mk_fmask u c t' = Ok m' -> fle t t' = true ->
     fmask_is_member_r rnd m (Some pt) = Ok true -> fmask_is_member_r rnd m' (Some pt) = Ok true) /\
  (forall m x y s, mk_fmask u c (Fin 1) = Ok m -> wf3 u -> in_grid (a3x u) (a3y u) (x, y) ->
     series3 u x y = Ok s -> (forall v, In v s -> fle (Fin 0) v = true /\ fle v (Fin 1) = true) ->
     fmask_is_member_r rnd m (Some (x, y)) = Ok true).
Proof.
  intros rnd u c HR. split.
  - intros t t' m m' [x y] Hm Hm' Hle. apply mk_fmask_ok in Hm, Hm'. destruct Hm as (-> & _), Hm' as (-> & _).
    cbn [fmask_is_member_r fm_u fm_cluster fm_threshold].
    destruct (series3 u x y) as [s|]; [|discriminate]. cbn [bind]. destruct (np_argmax s) as [best|]; [|discriminate]. cbn [bind].
    destruct (getitem s (Z.of_nat best)) as [ub|]; [|discriminate]. cbn [bind].
    destruct (getitem s c) as [uc|]; [|discriminate]. cbn [bind]. intros H. injection H as H. f_equal. eapply fle_trans; eauto.
  - intros m x y s Hm Hw Hg Hs Hr.
    assert (Hf : forall v, In v s -> is_fin v = true) by (intros v Hv; destruct (Hr v Hv) as [H1 H2]; destruct v; auto; discriminate).
    apply (C158_exact_members rnd u c 1%Q m x y s HR Hm Hw Hg Hs Hf); [ apply HR | ]. eapply C33_threshold_one; eauto.
Qed.
Print Assumptions C158_thresholds.

(** A point with membership 1 in one cluster and 0 in all others, as medoids have, belongs to that cluster only, for every threshold
    below 1. *)
Theorem C158_medoid : forall rnd u c t m x y s c0, rounding rnd -> mk_fmask u c t = Ok m -> wf3 u -> in_grid (a3x u) (a3y u) (x, y) ->
  series3 u x y = Ok s -> flt t (Fin 1) = true -> c0 < a3t u ->
  (forall j v, nth_error s j = Some v -> feqv v (Fin (if (c0 =? j)%nat then 1 else 0)%Q)) ->
  fmask_is_member_r rnd m (Some (x, y)) = Ok (c =? Z.of_nat c0)%Z.
Proof.
  intros rnd u c t m x y s c0 HR Hm Hw Hg Hs Ht Hc0 Hv. pose proof Hm as Hm'. apply mk_fmask_ok in Hm'. destruct Hm' as (_ & Hc & Ht0 & _).
  destruct (series3_ok u x y Hw (proj1 Hg) (proj2 Hg)) as (s' & Es & Ls & _). rewrite Hs in Es. injection Es as <-.
  assert (Hf : forall v, In v s -> is_fin v = true).
  { intros v H. apply In_nth_error in H. destruct H as [j H]. specialize (Hv j v H). destruct v; try contradiction; reflexivity. }
  destruct (C158_member_iff rnd u c t m x y s HR Hm Hw Hg Hs Hf) as (uc & b & Euc & E & I). rewrite E. f_equal.
  pose proof (Hv _ _ Euc) as Vc. destruct uc as [| | |q]; try contradiction. cbn [feqv] in Vc.
  destruct (Z.eqb_spec c (Z.of_nat c0)) as [ -> | Hn ].
  - rewrite Nat2Z.id, Nat.eqb_refl in Vc. apply I. intros v H. apply In_nth_error in H. destruct H as [j H]. specialize (Hv j v H).
    destruct v as [| | |p]; try contradiction. cbn [feqv] in Hv. unfold rsub. cbn [fsub fopp fadd rounded].
    pose proof (proj1 HR (p + - q)%Q 0%Q ltac:(destruct (c0 =? j)%nat; lra)) as M. destruct HR as (_ & Z0 & _). destruct (rnd 0%Q) as [| | |z]; try contradiction. cbn in Z0.
    eapply fle_trans; [ exact M | ]. eapply fle_trans; [ | exact Ht0 ]. apply fle_Fin. lra.
  - replace (c0 =? Z.to_nat c)%nat with false in Vc by (symmetry; apply Nat.eqb_neq; lia). destruct b; [ exfalso | reflexivity ].
    destruct (nth_error s c0) as [ v | ] eqn:E0; [ | apply nth_error_None in E0; lia ]. pose proof (proj1 I eq_refl v (nth_error_In _ _ E0)) as L.
    specialize (Hv c0 v E0). rewrite Nat.eqb_refl in Hv. destruct v as [| | |p]; try contradiction. cbn [feqv] in Hv. unfold rsub in L. cbn [fsub fopp fadd rounded] in L.
    pose proof (proj1 HR 1%Q (p + - q)%Q ltac:(lra)) as M. destruct HR as (_ & _ & R1). destruct (rnd 1%Q) as [| | |o]; try contradiction. cbn in R1.
    pose proof (fle_trans _ _ _ M L) as K. pose proof (flt_le_trans _ _ _ Ht (Qle_one o R1)) as K2. pose proof (flt_le_trans _ _ _ K2 K) as K3. rewrite flt_irrefl in K3. discriminate.
Qed.
Print Assumptions C158_medoid.

(** Iterating a mask gives its members in row-major order, cluster_len counts them, and both can be repeated. *)
Theorem C158_iteration_and_length : forall rnd u c t m, mk_fmask u c t = Ok m -> wf3 u ->
  exists members, fmask_for_r rnd m 0 = (0, Ok members) /\ fmask_cluster_len_r rnd m 0 = (0, Ok (length members)) /\
    exists keep, members = filter keep (grid (a3x u) (a3y u)) /\
      forall pt, in_grid (a3x u) (a3y u) pt -> fmask_is_member_r rnd m (Some pt) = Ok (keep pt).
Proof.
  intros rnd u c t m Hm Hw. apply mk_fmask_ok in Hm. destruct Hm as (-> & Hc & Ht0 & Ht1).
  assert (Hwf : fmask_wf (FMask u c t)) by (split; auto).
  exists (filter (memb_r rnd (FMask u c t)) (grid (a3x u) (a3y u))).
  unfold fmask_cluster_len_r. rewrite fmask_for_spec_r by auto. cbn [fm_u skipn]. split; auto. split; auto.
  exists (memb_r rnd (FMask u c t)). split; auto. intros pt Hpt. apply is_member_memb_r; auto.
Qed.
Print Assumptions C158_iteration_and_length.

(** three binary digits; one point with two memberships *)
Definition r3 : Q -> fnum := float_round 3 10 10.
Definition m_u : arr3 fnum := mk3 2 1 1 [Fin (7 # 8); Fin (5 # 64)].
Lemma r3_rounding : rounding r3.
Proof. apply float_rounding; lia. Qed.
Lemma m_wf : wf3 m_u /\ in_grid (a3x m_u) (a3y m_u) (0, 0)%Z /\ series3 m_u 0 0 = Ok [Fin (7 # 8); Fin (5 # 64)].
Proof. split; [ reflexivity | ]. split; [ split; cbn; lia | reflexivity ]. Qed.
Example C158_ex : exists m, mk_fmask m_u 1 (Fin (3 # 4)) = Ok m /\ fmask_for_r r3 m 0 = (0, Ok [(0, 0)]%Z) /\ feqv (r3 (3 # 4)) (Fin (3 # 4)).
Proof. eexists. split; [ reflexivity | ]. split; vm_compute; reflexivity. Qed.
Example C158_medoid_ex : exists m, mk_fmask (mk3 2 1 1 [Fin 1; Fin 0]) 1 (Fin (3 # 4)) = Ok m /\ fmask_is_member_r r3 m (Some (0, 0)%Z) = Ok false.
Proof. eexists. split; [ reflexivity | ]. vm_compute. reflexivity. Qed.

(** The converse fails: rounding can bring a difference down to the threshold, so that a point is a member although its
    memberships differ by more than the threshold. *)
Theorem C158_exact_members_only_refuted : ~ (forall p k emax u c q m x y s, rounding (float_round p k emax) -> mk_fmask u c (Fin q) = Ok m -> wf3 u ->
  in_grid (a3x u) (a3y u) (x, y) -> series3 u x y = Ok s -> (forall v, In v s -> exists a, v = Fin a /\ is_float p k emax a) -> is_float p k emax q ->
  fmask_is_member_r (float_round p k emax) m (Some (x, y)) = Ok true -> fmask_is_member m (Some (x, y)) = Ok true).
Proof.
  intros H. destruct m_wf as (W & G & S). specialize (H 3%Z 10%Z 10%Z m_u 1%Z (3 # 4)%Q (FMask m_u 1 (Fin (3 # 4))) 0%Z 0%Z _ r3_rounding eq_refl W G S).
  assert (E : fmask_is_member (FMask m_u 1 (Fin (3 # 4))) (Some (0, 0)%Z) = Ok true).
  { apply H; [ | exists 3%Z, 8%Z; repeat split; vm_compute; first [ discriminate | reflexivity ] | vm_compute; reflexivity ].
    intros v [ <- | [ <- | [] ] ]; eexists; (split; [ reflexivity | ]); [ exists 7%Z, 7%Z | exists 5%Z, 4%Z ]; repeat split; vm_compute; first [ discriminate | reflexivity ]. }
  vm_compute in E. discriminate.
Qed.
Print Assumptions C158_exact_members_only_refuted.
