(** Sums in floating point that do not overflow. *)
From Coq Require Import Lia Lqa QArith Qabs Qpower Permutation.
From Verif Require Import Base.Py Base.PyFacts Base.Arr Base.Float Base.FloatFacts Model.KMedoids Model.Rounded Model.RoundedErrors Model.KMedoidsRounded
  Spec.Medoids Spec.Rounded Spec.KMedoidsRounded Proofs.KMedoidsFacts Proofs.RoundedFacts Proofs.SummationFacts.
From Coq Require Import ZifyBool ZifyNat.
Local Close Scope Q_scope.
Local Open Scope nat_scope.

Lemma nonneg_z n : (0 <= inject_Z (Z.of_nat n))%Q.
Proof. change 0%Q with (inject_Z 0). rewrite <- Zle_Qle. lia. Qed.
Lemma qsum_nonneg {A} (f : A -> Q) l : (forall a, In a l -> (0 <= f a)%Q) -> (0 <= qsum (map f l))%Q.
Proof. induction l as [ | a l IH ]; intros H; cbn; [ lra | ]. pose proof (H a (or_introl eq_refl)). specialize (IH (fun x Hx => H x (or_intror Hx))). lra. Qed.

Section Small.
Variables (u e M : Q) (rnd : Q -> fnum).
Hypothesis Hu : (0 <= u <= 1)%Q.
Hypothesis He : (0 <= e)%Q.
Hypothesis HR : rounding rnd.
Hypothesis HA : accurate u e rnd.
Hypothesis HM : forall q, (0 <= q <= M)%Q -> is_fin (rnd q) = true.

Lemma sum_small (l : list fnum) (q : nat -> Q) h : forall o, height o <= h ->
  (forall i, In i (positions o) -> nth i l (Fin 0) = Fin (q i) /\ (0 <= q i)%Q) ->
  (qpow (1 + u) h * (qsum (map q (positions o)) + e * inject_Z (Z.of_nat (additions o))) <= M)%Q -> is_fin (sum_in rnd o l) = true.
Proof using Hu He HR HA HM.
  pose proof (qpow_ge1 (1 + u) h ltac:(lra)) as Pw. set (w := qpow (1 + u) h) in *.
  induction o as [ | i | a IHa b IHb ]; intros Hh Hp HB; cbn [sum_in positions additions height] in *.
  - reflexivity.
  - destruct (Hp i (or_introl eq_refl)) as [ -> _ ]. reflexivity.
  - assert (Pa : forall i, In i (positions a) -> nth i l (Fin 0) = Fin (q i) /\ (0 <= q i)%Q) by (intros; apply Hp; apply in_or_app; auto).
    assert (Pb : forall i, In i (positions b) -> nth i l (Fin 0) = Fin (q i) /\ (0 <= q i)%Q) by (intros; apply Hp; apply in_or_app; auto).
    rewrite map_app, qsum_app in HB. pose proof (qsum_nonneg q (positions a) (fun i Hi => proj2 (Pa i Hi))) as Sa. pose proof (qsum_nonneg q (positions b) (fun i Hi => proj2 (Pb i Hi))) as Sb.
    pose proof (sum_bounds u e rnd Hu He HR HA l q a Pa) as Ba. pose proof (sum_bounds u e rnd Hu He HR HA l q b Pb) as Bb.
    specialize (fun H => IHa H Pa). specialize (fun H => IHb H Pb).
    assert (Ec : (e * inject_Z (Z.of_nat (S (additions a + additions b))) == e + e * inject_Z (Z.of_nat (additions a)) + e * inject_Z (Z.of_nat (additions b)))%Q).
    { replace (Z.of_nat (S (additions a + additions b))) with (1 + Z.of_nat (additions a) + Z.of_nat (additions b))%Z by lia. rewrite !inject_Z_plus. change (inject_Z 1) with 1%Q. ring. }
    rewrite Ec in HB.
    pose proof (Qmult_le_0_compat _ _ He (nonneg_z (additions a))) as Ga. pose proof (Qmult_le_0_compat _ _ He (nonneg_z (additions b))) as Gb.
    assert (Ua : forall r, sum_in rnd a l = Fin r -> (0 <= r <= w * (qsum (map q (positions a)) + e * inject_Z (Z.of_nat (additions a))))%Q).
    { intros r Er. destruct Ba as [ E | (r' & E & P & B) ]; [ congruence | ]. rewrite E in Er. injection Er as <-. split; [ exact P | ]. apply (B h ltac:(lia)). }
    assert (Ub : forall r, sum_in rnd b l = Fin r -> (0 <= r <= w * (qsum (map q (positions b)) + e * inject_Z (Z.of_nat (additions b))))%Q).
    { intros r Er. destruct Bb as [ E | (r' & E & P & B) ]; [ congruence | ]. rewrite E in Er. injection Er as <-. split; [ exact P | ]. apply (B h ltac:(lia)). }
    clear Ba Bb. revert IHa IHb Ua Ub HB Ga Gb Sa Sb. generalize (e * inject_Z (Z.of_nat (additions a)))%Q, (e * inject_Z (Z.of_nat (additions b)))%Q, (qsum (map q (positions a))), (qsum (map q (positions b))).
    intros xa xb ta tb IHa IHb Ua Ub HB Ga Gb Sa Sb.
    assert (W1 : (0 <= w * e)%Q) by (apply Qmult_le_0_compat; lra). assert (W2 : (0 <= w * (ta + xa))%Q) by (apply Qmult_le_0_compat; lra). assert (W3 : (0 <= w * (tb + xb))%Q) by (apply Qmult_le_0_compat; lra).
    specialize (IHa ltac:(lia) ltac:(lra)). specialize (IHb ltac:(lia) ltac:(lra)).
    destruct (sum_in rnd a l) as [ | | | ra ]; try discriminate. destruct (sum_in rnd b l) as [ | | | rb ]; try discriminate.
    specialize (Ua ra eq_refl). specialize (Ub rb eq_refl). unfold radd. cbn [fadd rounded]. apply HM. lra.
Qed.
Lemma sum_by_small ord N h (ql : list Q) (l : list fnum) : summation ord N h -> length ql <= N -> l = map Fin ql -> (forall v, In v ql -> (0 <= v)%Q) ->
  (qpow (1 + u) h * (qsum ql + e * inject_Z (Z.of_nat (length ql))) <= M)%Q ->
  exists r, sum_by rnd ord l = Fin r /\ (0 <= r)%Q /\ (r <= qpow (1 + u) h * (qsum ql + e * inject_Z (Z.of_nat (length ql))))%Q.
Proof using Hu He HR HA HM.
  intros Ho HNl E Hq HB.
  assert (HF : is_fin (sum_by rnd ord l) = true).
  { subst l. destruct (Ho (length ql) HNl) as (Hp & Hn & Hh). unfold sum_by. rewrite map_length. apply (sum_small _ (fun i => nth i ql 0%Q) h); [ exact Hh | | ].
    - intros i Hi. apply (Permutation_in _ Hp) in Hi. apply in_seq in Hi. split; [ apply map_nth | ]. apply Hq, nth_In. lia.
    - assert (Es : (qsum (map (fun i => nth i ql 0%Q) (positions (ord (length ql)))) == qsum ql)%Q).
      { rewrite (qsum_perm _ _ (Permutation_map (fun i => nth i ql 0%Q) Hp)). rewrite <- (map_nth_seq (fun v => v) ql 0%Q), map_id. reflexivity. }
      rewrite Es. eapply Qle_trans; [ | exact HB ]. rewrite !(Qmult_comm (qpow _ _)). apply Qmult_le_compat_r; [ | apply qpow_pos; lra ].
      apply Qplus_le_r. rewrite !(Qmult_comm e). apply Qmult_le_compat_r; [ | exact He ]. rewrite <- Zle_Qle. lia. }
  destruct (sum_by_bounds u e rnd Hu He HR HA ord N h ql l Ho HNl E Hq) as [ H | (r & H & P & _ & U) ]; [ rewrite H in HF; discriminate | ].
  exists r. split; [ exact H | split; assumption ].
Qed.

Lemma total_small ord N h X D ms c x q : summation ord N h -> length X <= N -> length ms <= N -> valid_indices X ms -> dist_finite X D ->
  (forall a b, a < length X -> b < length X -> fle (Fin 0) (sample_dist X D a b) = true) ->
  consistent_by (sum_by rnd ord) X D ms c -> consistent X D ms x -> c_total x = Fin q ->
  (qpow (1 + u) (h + h) * (q + e * inject_Z (Z.of_nat (length X + length ms))) <= M)%Q -> is_fin (c_total c) = true.
Proof using Hu He HR HA HM.
  intros Ho HN1 HN2 HV HF Hpos (A1 & A2 & A3 & A4 & _) (B1 & B2 & B3 & B4 & _) Eq HB.
  assert (L : c_labels c = c_labels x).
  { apply nth_ext with (d := length ms) (d' := length ms); [ congruence | ]. intros i Hi. rewrite A1 in Hi. eapply nearest_unique; eauto. }
  rewrite <- L in *. set (lab := fun i => nth i (c_labels c) (length ms)) in *.
  assert (F : forall j i, j < length ms -> i < length X -> dist_j X D ms j i = Fin (qof (dist_j X D ms j i)) /\ (0 <= qof (dist_j X D ms j i))%Q).
  { intros j i Hj Hi. pose proof (HV _ (nth_In _ 0%Z Hj)) as Hz. assert (H1 : Z.to_nat (nth j ms 0%Z) < length X) by lia.
    pose proof (is_fin_qof _ (HF _ _ H1 Hi)) as E. pose proof (Hpos _ _ H1 Hi) as P. split; [ exact E | ]. unfold dist_j. rewrite E in P. apply fle_Fin in P. exact P. }
  set (mem := fun j => filter (fun i => lab i =? j)%nat (seq 0 (length X))).
  set (qd := fun j => map (fun i => qof (dist_j X D ms j i)) (mem j)).
  assert (Hm : forall j i, In i (mem j) -> i < length X) by (intros j i Hi; unfold mem in Hi; apply filter_In in Hi; destruct Hi as [ Hi _ ]; apply in_seq in Hi; lia).
  assert (Hcd : forall j, j < length ms -> cluster_dists X D ms (c_labels c) j = map Fin (qd j) /\ forall v, In v (qd j) -> (0 <= v)%Q).
  { intros j Hj. split.
    - unfold qd. rewrite map_map. unfold cluster_dists. apply map_ext_in. intros i Hi. apply F; [ exact Hj | apply (Hm j); exact Hi ].
    - intros v Hv. unfold qd in Hv. apply in_map_iff in Hv. destruct Hv as (i & <- & Hi). apply F; [ exact Hj | eapply Hm; exact Hi ]. }
  assert (Hql : forall j, j < length ms -> length (qd j) <= N).
  { intros j _. unfold qd, mem. rewrite map_length. eapply Nat.le_trans; [ apply kept_length | ]. rewrite seq_length. exact HN1. }
  assert (Hx : exists q, c_total x = Fin q /\ (q == qsum (map (fun j => qsum (qd j)) (seq 0 (length ms))))%Q).
  { assert (E : feqv (c_total x) (Fin (qsum (map (fun j => qsum (qd j)) (seq 0 (length ms)))))).
    { rewrite B4, B3. apply feqv_fsum_map. intros j Hj. apply in_seq in Hj. destruct (Hcd j ltac:(lia)) as [ -> _ ]. apply fsum_fin. }
    destruct (c_total x) as [ | | | q1 ]; cbn in E; try contradiction. eauto. }
  destruct Hx as (q' & Eq' & Hq). rewrite Eq in Eq'. injection Eq' as <-.
  assert (Hq0 : forall j, In j (seq 0 (length ms)) -> (0 <= qsum (qd j))%Q).
  { intros j Hj. apply in_seq in Hj. destruct (Hcd j ltac:(lia)) as [ _ P ]. revert P. generalize (qd j). intros l P. induction l as [ | v l IH ]; cbn; [ lra | ].
    pose proof (P v (or_introl eq_refl)). specialize (IH (fun w Hw => P w (or_intror Hw))). lra. }
  assert (Hn : (qsum (map (fun j => inject_Z (Z.of_nat (length (mem j)))) (seq 0 (length ms))) == inject_Z (Z.of_nat (length X)))%Q).
  { rewrite (qsum_ext _ (fun j => qsum (map (fun _ => 1%Q) (mem j)))) by (intros; apply length_qsum).
    unfold mem. rewrite (qsum_by_label lab (fun _ _ => 1%Q)).
    - rewrite <- (length_qsum (seq 0 (length X))), seq_length. reflexivity.
    - intros i Hi. apply in_seq in Hi. apply A2. lia. }
  pose proof (qpow_ge1 (1 + u) h ltac:(lra)) as P3. rewrite qpow_add in HB. rewrite Nat2Z.inj_add, inject_Z_plus in HB.
  set (w := qpow (1 + u) h) in *. set (n := inject_Z (Z.of_nat (length X))) in *. set (kk := inject_Z (Z.of_nat (length ms))) in *.
  assert (Ek : (0 <= e * kk)%Q) by (apply Qmult_le_0_compat; [ exact He | apply nonneg_z ]).
  assert (Hall : (qsum (map (fun j => w * (qsum (qd j) + e * inject_Z (Z.of_nat (length (mem j)))))%Q (seq 0 (length ms))) == w * (q + e * n))%Q).
  { rewrite qsum_scale, qsum_plus, qsum_scale, Hn, Hq. reflexivity. }
  assert (Ht : forall j, In j (seq 0 (length ms)) -> (0 <= w * (qsum (qd j) + e * inject_Z (Z.of_nat (length (mem j)))))%Q).
  { intros j Hj. apply Qmult_le_0_compat; [ lra | ]. pose proof (Hq0 j Hj). pose proof (Qmult_le_0_compat _ _ He (nonneg_z (length (mem j)))). lra. }
  assert (Wn : (0 <= w * (q + e * n))%Q) by (rewrite <- Hall; apply qsum_nonneg; exact Ht).
  assert (HB1 : (w * (w * (q + e * n) + e * kk) <= M)%Q).
  { eapply Qle_trans; [ | exact HB ]. assert (E0 : (w * w * (q + e * (n + kk)) == w * (w * (q + e * n) + w * (e * kk)))%Q) by ring. rewrite E0.
    rewrite !(Qmult_comm w (_ + _)). apply Qmult_le_compat_r; [ | lra ]. assert (0 <= (w - 1) * (e * kk))%Q by (apply Qmult_le_0_compat; lra). lra. }
  assert (HB0 : (w * (q + e * n) <= M)%Q).
  { assert (0 <= (w - 1) * (w * (q + e * n)))%Q by (apply Qmult_le_0_compat; lra). assert (0 <= w * (e * kk))%Q by (apply Qmult_le_0_compat; lra). lra. }
  assert (Hone : forall j, In j (seq 0 (length ms)) -> exists r, sum_by rnd ord (cluster_dists X D ms (c_labels c) j) = Fin r /\ (0 <= r)%Q /\
     (r <= w * (qsum (qd j) + e * inject_Z (Z.of_nat (length (mem j)))))%Q).
  { intros j Hj. assert (Hj' : j < length ms) by (apply in_seq in Hj; lia). destruct (Hcd j Hj') as [ E P ].
    assert (Ll : length (qd j) = length (mem j)) by (unfold qd; apply map_length). rewrite <- Ll.
    apply (sum_by_small ord N h (qd j) _ Ho (Hql j Hj') E P). rewrite Ll. fold w. eapply Qle_trans; [ | exact HB0 ]. rewrite <- Hall.
    revert Ht Hj. clear. generalize (seq 0 (length ms)). intros s Ht Hj. induction s as [ | a s IH ]; [ destruct Hj | ]. cbn [map qsum].
    pose proof (Ht a (or_introl eq_refl)). pose proof (qsum_nonneg _ s (fun x Hx => Ht x (or_intror Hx))). destruct Hj as [ <- | Hj ]; [ lra | ].
    specialize (IH (fun x Hx => Ht x (or_intror Hx)) Hj). lra. }
  assert (Hqc : exists qc, c_costs c = map Fin qc /\ (forall v, In v qc -> (0 <= v)%Q) /\ length qc = length ms /\ (qsum qc <= w * (q + e * n))%Q).
  { rewrite A3. exists (map (fun j => qof (sum_by rnd ord (cluster_dists X D ms (c_labels c) j))) (seq 0 (length ms))). rewrite map_map, !map_length, seq_length.
    split; [ | split; [ | split; [ reflexivity | ] ] ].
    - apply map_ext_in. intros j Hj. destruct (Hone j Hj) as (r & -> & _). reflexivity.
    - intros v Hv. apply in_map_iff in Hv. destruct Hv as (j & <- & Hj). destruct (Hone j Hj) as (r & -> & P & _). exact P.
    - rewrite <- Hall. apply map_qsum_le. intros j Hj. destruct (Hone j Hj) as (r & -> & _ & P). exact P. }
  destruct Hqc as (qc & Eqc & Pqc & Lc & Sc). rewrite A4.
  destruct (sum_by_small ord N h qc (c_costs c) Ho ltac:(lia) Eqc Pqc) as (r & -> & _); [ | reflexivity ].
  rewrite Lc. fold w kk. eapply Qle_trans; [ | exact HB1 ]. rewrite !(Qmult_comm w (_ + _)). apply Qmult_le_compat_r; lra.
Qed.
End Small.
