(** C156: the memberships of fuzzy k-medoids in floating point. *)
From Coq Require Import Lia Lqa QArith Qabs Permutation.
From Verif Require Import Base.Py Base.PyFacts Base.Arr Base.ArrFacts Base.Float Base.FloatFacts Model.KMedoids Model.KMedoidsFuzzy Model.Rounded Model.RoundedErrors Model.FuzzyRounded
  Spec.Medoids Spec.Rounded Spec.Ieee Spec.KMedoidsRounded Spec.FuzzyRounded Proofs.KMedoidsFacts Proofs.RoundedFacts Proofs.IeeeFacts Proofs.SummationFacts Proofs.FuzzyRoundedFacts Props.Ieee Props.KMedoidsRounded.
From Coq Require Import ZifyBool ZifyNat.
Local Close Scope Q_scope.
Local Open Scope nat_scope.

(** Every operation has a relative error of at most [u], and [e] near zero; a row is summed at most [h] additions deep.  Different
    samples have powers that are not tiny, the power of a sample at its own medoid is infinite, and the sums of powers do not
    overflow.  Then the check of the sums of the memberships passes for every tolerance above the rounding errors;
    memberships are not negative, the computed sum of a row is within the rounding errors of 1, and a medoid has 1 in its own cluster
    and 0 in the others. *)
Theorem C156_memberships : forall u e rnd ord N h power X m D tol ms,
  (0 <= u <= 1)%Q -> (0 <= e)%Q -> rounding rnd -> accurate u e rnd -> small_finite rnd -> summation ord N h -> length ms <= N ->
  instance X D -> ~ (m == 1)%Q -> valid_indices X ms -> NoDup ms -> ms <> [] ->
  (forall i j, i < length X -> j < length ms -> nth j ms 0%Z <> Z.of_nat i -> exists p, computed_power rnd power X D m ms i j = Fin p /\ (0 < p)%Q /\ (e <= u * p)%Q) ->
  (forall i j, i < length X -> j < length ms -> nth j ms 0%Z = Z.of_nat i -> computed_power rnd power X D m ms i j = PInf) ->
  (forall i, i < length X -> ~ In (Z.of_nat i) ms -> is_fin (computed_sum rnd power X D m ms i) = true) ->
  let w := (u * inject_Z (Z.of_nat (h + length ms + 2)) + 2 * e * inject_Z (Z.of_nat (length ms)))%Q in
  (w <= 1 # 2)%Q -> fle (Fin (4 * w + e)) tol = true ->
  exists c, compute_membership_fcm_r rnd (sum_by rnd ord) power X m (map (fun i => (i, nth (Z.to_nat i) X [])) ms) D tol = Ok c /\ length (f_u c) = length X /\
    forall i row, nth_error (f_u c) i = Some row -> length row = length ms /\ (forall v, In v row -> is_fin v = true /\ fle (Fin 0) v = true) /\
      (exists s, sum_by rnd ord row = Fin s /\ (Qabs (s - 1) <= 2 * w)%Q) /\
      (forall j0 j v, nth_error ms j0 = Some (Z.of_nat i) -> nth_error row j = Some v -> feqv v (Fin (if (j0 =? j)%nat then 1 else 0)%Q)).
Proof.
  intros u e rnd ord N h power X m D tol ms Hu He HR HA Hs Ho HN HI Hm HV Hnd Hne Hoth Hown Hfin w Hw Ht.
  set (w' := (nq h * u + (nq (length ms) + 1) * u + u + 2 * (e * nq (length ms)))%Q).
  assert (Ew : (w' == w)%Q).
  { unfold w', w, nq. rewrite !Nat2Z.inj_add, !inject_Z_plus. change (inject_Z (Z.of_nat 2)) with 2%Q. ring. }
  assert (Hw' : (w' <= 1 # 2)%Q) by lra.
  pose proof (row_near rnd (sum_by rnd ord) power X m D tol HI Hm u e ord N h Hu He HR HA Hs Ho ms HV Hne Hnd HN Hoth Hown Hfin Hw') as RN. fold w' in RN.
  destruct (fcm_r_eq rnd (sum_by rnd ord) power X m D tol HI Hm ms HV Hne) as (c & Ec & E).
  exists c. split; [ | split ].
  - change (map (fun i => (i, nth (Z.to_nat i) X [])) ms) with (mk X ms). rewrite E. replace (forallb _ _) with true; [ reflexivity | ]. symmetry. apply forallb_forall.
    intros row Hr. unfold memberships_r in Hr. apply in_map_iff in Hr. destruct Hr as (i & <- & Hi). apply in_seq in Hi.
    destruct (RN i ltac:(lia)) as (ql & r & -> & _ & -> & B). unfold close_to_one_r, rsub. cbn [fsub fopp fadd rounded].
    assert (B4 : (Qabs (r + - (1)) <= 2 * w)%Q) by (rewrite <- Ew; exact B).
    assert (Pw : (0 <= w)%Q). { pose proof (Qabs_nonneg (r + - (1))). lra. }
    pose proof (Hs (r + - (1))%Q ltac:(lra)) as F. destruct (HA (r + - (1))%Q) as [ I | (x & Ex & Bx) ]; [ destruct (rnd (r + - (1))%Q); discriminate | ].
    rewrite Ex. cbn [fabs]. eapply fle_trans; [ | exact Ht ]. apply fle_Fin.
    assert (Tr : (Qabs x <= Qabs (x - (r + - (1))) + Qabs (r + - (1)))%Q).
    { setoid_replace x with ((x - (r + - (1))) + (r + - (1)))%Q at 1 by ring. apply Qabs_triangle. }
    assert (A : (u * Qabs (r + - (1)) <= 1 * Qabs (r + - (1)))%Q) by (apply Qmult_le_compat_r; [ lra | apply Qabs_nonneg ]). lra.
  - rewrite Ec. unfold memberships_r. rewrite map_length, seq_length. reflexivity.
  - rewrite Ec. intros i row Hr. unfold memberships_r in Hr. rewrite nth_error_map in Hr.
    destruct (nth_error (seq 0 (length X)) i) as [ i' | ] eqn:Ei; [ | discriminate ]. cbn in Hr. injection Hr as <-.
    assert (Hi : i < length X) by (rewrite <- (seq_length (length X) 0); apply nth_error_Some; congruence).
    pose proof (nth_error_nth _ _ 0 Ei) as Ei'. rewrite seq_nth in Ei' by exact Hi. cbn in Ei'. subst i'.
    destruct (RN i Hi) as (ql & r & El & Pq & Er & B). split; [ rewrite map_length, seq_length; reflexivity | ]. split; [ | split ].
    + rewrite El. intros v Hv. apply in_map_iff in Hv. destruct Hv as (q & <- & Hq). split; [ reflexivity | ]. apply fle_Fin. apply Pq, Hq.
    + rewrite El. exists r. split; [ exact Er | ]. rewrite <- Ew. exact B.
    + intros j0 j v H0 Hj. rewrite nth_error_map in Hj. destruct (nth_error (seq 0 (length ms)) j) as [ j' | ] eqn:Ej; [ | discriminate ]. cbn in Hj. injection Hj as <-.
      assert (Hlj : j < length ms) by (rewrite <- (seq_length (length ms) 0); apply nth_error_Some; congruence).
      pose proof (nth_error_nth _ _ 0 Ej) as Ej'. rewrite seq_nth in Ej' by exact Hlj. cbn in Ej'. subst j'.
      assert (Hl0 : j0 < length ms) by (apply nth_error_Some; congruence). apply (nth_error_nth _ _ 0%Z) in H0.
      destruct (medoid_entry rnd (sum_by rnd ord) power X m D tol HI Hm u e ord N h Hu He HR HA Hs Ho ms HV Hne Hnd HN Hoth Hown Hfin Hw' i j j0 Hi Hlj Hl0 H0) as (x & -> & Vx).
      exact Vx.
Qed.
Print Assumptions C156_memberships.

(** If powers are floats, no membership exceeds 1, whatever the accuracy. *)
Theorem C156_at_most_one : forall rnd sum power X m D tol ms c,
  rounding rnd -> rounds_once rnd -> instance X D -> ~ (m == 1)%Q -> valid_indices X ms -> ms <> [] ->
  (forall i j, i < length X -> j < length ms -> nth j ms 0%Z <> Z.of_nat i ->
     exists p, computed_power rnd power X D m ms i j = Fin p /\ (0 < p)%Q /\ feqv (rnd p) (Fin p)) ->
  (forall i, i < length X -> ~ In (Z.of_nat i) ms -> is_fin (computed_sum rnd power X D m ms i) = true) ->
  compute_membership_fcm_r rnd sum power X m (map (fun i => (i, nth (Z.to_nat i) X [])) ms) D tol = Ok c ->
  forall i row v, nth_error (f_u c) i = Some row -> ~ In (Z.of_nat i) ms -> In v row -> fle (Fin 0) v = true /\ fle v (Fin 1) = true.
Proof.
  intros rnd sum power X m D tol ms c HR H1 HI Hm HV Hne Hoth Hfin E i row v Hr Hn Hv.
  destruct (fcm_r_eq rnd sum power X m D tol HI Hm ms HV Hne) as (c' & Ec & E'). change (map (fun i => (i, nth (Z.to_nat i) X [])) ms) with (mk X ms) in E.
  rewrite E in E'. destruct (forallb _ _); [ | discriminate ]. injection E' as <-. rewrite Ec in Hr. unfold memberships_r in Hr. rewrite nth_error_map in Hr.
  destruct (nth_error (seq 0 (length X)) i) as [ i' | ] eqn:Ei; [ | discriminate ]. cbn in Hr. injection Hr as <-.
  assert (Hi : i < length X) by (rewrite <- (seq_length (length X) 0); apply nth_error_Some; congruence).
  pose proof (nth_error_nth _ _ 0 Ei) as Ei'. rewrite seq_nth in Ei' by exact Hi. cbn in Ei'. subst i'.
  apply in_map_iff in Hv. destruct Hv as (j & <- & Hj). apply in_seq in Hj. destruct Hj as [ _ Hj ]. cbn in Hj.
  assert (Hown : forall l, l < length ms -> nth l ms 0%Z <> Z.of_nat i) by (intros l Hl El; apply Hn; rewrite <- El; apply nth_In; exact Hl).
  unfold membership_r. replace (i =? Z.to_nat (nth j ms 0%Z))%nat with false.
  2:{ symmetry. apply Nat.eqb_neq. intros El. apply (Hown j Hj). assert (Hin : In (nth j ms 0%Z) ms) by (apply nth_In; exact Hj). apply HV in Hin. lia. }
  destruct (Hoth i j Hi Hj (Hown j Hj)) as (p & Ep & Pp & Fp).
  specialize (Hfin i Hi Hn). destruct (computed_sum rnd power X D m ms i) as [ | | | den ] eqn:Ed; try discriminate.
  assert (Hle : (p <= den)%Q).
  { apply (fold_ge rnd HR H1 (map (computed_power rnd power X D m ms i) (seq 0 (length ms))) 0%Q den); [ lra | apply HR | | exact Ed | ].
    - intros w Hw. apply in_map_iff in Hw. destruct Hw as (l & <- & Hl). apply in_seq in Hl. destruct (Hoth i l Hi ltac:(lia) (Hown l ltac:(lia))) as (q & Eq & Pq & Fq). exists q. split; [ exact Eq | split; [ lra | exact Fq ] ].
    - rewrite <- Ep. apply in_map. apply in_seq. lia. }
  rewrite Ep. unfold rdiv. cbn [fdiv]. destruct (Qeq_bool den 0) eqn:E0; [ apply Qeq_bool_iff in E0; lra | ]. cbn [rounded].
  split.
  - apply rnd_nonneg; [ exact HR | ]. apply Qle_shift_div_l; lra.
  - pose proof (proj1 HR (p / den)%Q 1%Q ltac:(apply Qle_shift_div_r; lra)) as M. destruct HR as (_ & _ & R1). destruct (rnd 1%Q) as [ | | | o ]; try contradiction. cbn in R1.
    eapply fle_trans; [ exact M | ]. apply fle_Fin. lra.
Qed.
Print Assumptions C156_at_most_one.

Lemma float_small_finite p k emax : (1 <= p)%Z -> (0 <= k)%Z -> (3 <= emax)%Z -> small_finite (float_round p k emax).
Proof.
  intros Hp Hk He q Hq. apply Qabs_Qle_condition in Hq.
  pose proof (pow_pos k Hk) as HU.
  assert (F : forall z, (Z.abs z = 1)%Z -> feqv (float_round p k emax (inject_Z (4 * z))) (Fin (inject_Z (4 * z)))).
  { intros z Hz. apply float_exact; [ lia | lia | ]. exists z, (k + 2)%Z. rewrite Hz. split; [ apply (Z.pow_gt_1 2 p); lia | ]. split; [ lia | ]. split.
    - rewrite Z.mul_1_l. apply Z.pow_lt_mono_r; lia.
    - rewrite Z.pow_add_r by lia. change (2 ^ 2)%Z with 4%Z. rewrite !inject_Z_mult. field. intros E. assert (0 < inject_Z (2 ^ k))%Q by (unfold Qlt; cbn; lia). lra. }
  pose proof (F 1%Z eq_refl) as F1. pose proof (F (-1)%Z eq_refl) as F2.
  pose proof (float_mono p k emax ltac:(lia) ltac:(lia) ltac:(lia) q (inject_Z (4 * 1)) ltac:(apply Hq)) as M1.
  pose proof (float_mono p k emax ltac:(lia) ltac:(lia) ltac:(lia) (inject_Z (4 * -1)) q ltac:(apply Hq)) as M2.
  destruct (float_round p k emax (inject_Z (4 * 1))) as [ | | | a ]; try contradiction. destruct (float_round p k emax (inject_Z (4 * -1))) as [ | | | b ]; try contradiction.
  destruct (float_round p k emax q); try discriminate; reflexivity.
Qed.
Lemma float_rounds_once p k emax : (1 <= p)%Z -> (0 <= k)%Z -> (1 <= emax)%Z -> rounds_once (float_round p k emax).
Proof. intros Hp Hk He q r E. apply float_exact; [ lia | lia | ]. apply (float_nearest p k emax q r Hp Hk He E). Qed.

(** In double precision, with the tolerance 0.001 of the code: the call succeeds whenever powers are at least 2^-1022 and
    their sums do not overflow, for up to 2^40 medoids and additions. *)
Theorem C156_double : forall ord N h power X m D ms,
  summation ord N h -> length ms <= N -> (Z.of_nat (h + length ms + 2) <= 2 ^ 40)%Z ->
  instance X D -> ~ (m == 1)%Q -> valid_indices X ms -> NoDup ms -> ms <> [] ->
  (forall i j, i < length X -> j < length ms -> nth j ms 0%Z <> Z.of_nat i ->
     exists p, computed_power double power X D m ms i j = Fin p /\ is_double p /\ (/ inject_Z (2 ^ 1022) <= p)%Q) ->
  (forall i j, i < length X -> j < length ms -> nth j ms 0%Z = Z.of_nat i -> computed_power double power X D m ms i j = PInf) ->
  (forall i, i < length X -> ~ In (Z.of_nat i) ms -> is_fin (computed_sum double power X D m ms i) = true) ->
  exists c, compute_membership_fcm_r double (sum_by double ord) power X m (map (fun i => (i, nth (Z.to_nat i) X [])) ms) D (Fin (1 # 1000)) = Ok c /\ length (f_u c) = length X /\
    forall i row, nth_error (f_u c) i = Some row -> length row = length ms /\ (forall v, In v row -> fle (Fin 0) v = true /\ fle v (Fin 1) = true) /\
      (exists s, sum_by double ord row = Fin s /\ (Qabs (s - 1) <= inject_Z (Z.of_nat (h + length ms + 3)) / inject_Z (2 ^ 52))%Q) /\
      (forall j0 j v, nth_error ms j0 = Some (Z.of_nat i) -> nth_error row j = Some v -> feqv v (Fin (if (j0 =? j)%nat then 1 else 0)%Q)).
Proof.
  intros ord N h power X m D ms Ho HN Hb HI Hm HV Hnd Hne Hoth Hown Hfin.
  set (u := (/ inject_Z (2 ^ 53))%Q). set (e := ((1 # 2) / inject_Z (2 ^ 1074))%Q).
  assert (Hu : (0 <= u <= 1)%Q) by (split; vm_compute; discriminate).
  assert (He : (0 <= e)%Q) by (vm_compute; discriminate).
  assert (HA : accurate u e double) by (apply float_accurate; lia).
  assert (Hs : small_finite double) by (apply float_small_finite; lia).
  assert (H1 : rounds_once double) by (apply float_rounds_once; lia).
  assert (En : (e == u * / inject_Z (2 ^ 1022))%Q) by (vm_compute; reflexivity).
  assert (Pn : (0 < / inject_Z (2 ^ 1022))%Q) by (vm_compute; reflexivity).
  set (T := inject_Z (Z.of_nat (h + length ms + 2))). set (K := inject_Z (Z.of_nat (length ms))).
  assert (B1 : (0 <= T)%Q) by (unfold T, Qle; cbn; lia). assert (B2 : (T <= inject_Z (2 ^ 40))%Q) by (unfold T; rewrite <- Zle_Qle; exact Hb).
  assert (B3 : (0 <= K <= T)%Q) by (unfold K, T; split; [ unfold Qle; cbn; lia | rewrite <- Zle_Qle; lia ]).
  set (t := inject_Z (2 ^ 40)) in *.
  assert (C1 : (u * t <= 1 # 8000)%Q) by (vm_compute; discriminate).
  assert (C2 : (2 * e * t <= (1 # 2) * u)%Q) by (vm_compute; discriminate).
  assert (C3 : (u <= 1 # 100000)%Q) by (vm_compute; discriminate).
  assert (C4 : (e <= 1 # 100000)%Q) by (vm_compute; discriminate).
  set (w := (u * T + 2 * e * K)%Q).
  assert (M1 : (u * T <= u * t)%Q) by (rewrite !(Qmult_comm u); apply Qmult_le_compat_r; [ exact B2 | lra ]).
  assert (M2 : (2 * e * K <= 2 * e * t)%Q) by (rewrite !(Qmult_comm (2 * e)); apply Qmult_le_compat_r; lra).
  assert (Hoth' : forall i j, i < length X -> j < length ms -> nth j ms 0%Z <> Z.of_nat i -> exists p, computed_power double power X D m ms i j = Fin p /\ (0 < p)%Q /\ (e <= u * p)%Q).
  { intros i j Hi Hj Hn. destruct (Hoth i j Hi Hj Hn) as (p & Ep & _ & Lp). exists p. split; [ exact Ep | ]. split; [ eapply Qlt_le_trans; [ exact Pn | exact Lp ] | ].
    rewrite En, !(Qmult_comm u). apply Qmult_le_compat_r; [ exact Lp | apply Hu ]. }
  assert (Hoth2 : forall i j, i < length X -> j < length ms -> nth j ms 0%Z <> Z.of_nat i -> exists p, computed_power double power X D m ms i j = Fin p /\ (0 < p)%Q /\ feqv (double p) (Fin p)).
  { intros i j Hi Hj Hn. destruct (Hoth i j Hi Hj Hn) as (p & Ep & Dp & Lp). exists p. split; [ exact Ep | ]. split; [ eapply Qlt_le_trans; [ exact Pn | exact Lp ] | ].
    apply float_exact; [ lia | lia | exact Dp ]. }
  assert (E52 : (/ inject_Z (2 ^ 52) == 2 * u)%Q) by (vm_compute; reflexivity).
  clearbody u e t.
  assert (W1 : (w <= 1 # 2)%Q) by (unfold w; lra).
  assert (W2 : fle (Fin (4 * w + e)) (Fin (1 # 1000)) = true) by (apply fle_Fin; unfold w; lra).
  destruct (C156_memberships u e double ord N h power X m D (Fin (1 # 1000)) ms Hu He double_rounding HA Hs Ho HN HI Hm HV Hnd Hne Hoth' Hown Hfin W1 W2) as (c & Ec & Lc & R).
  exists c. split; [ exact Ec | ]. split; [ exact Lc | ]. intros i row Hr. destruct (R i row Hr) as (Lr & Pr & (s & Es & Bs) & Md). split; [ exact Lr | ]. split; [ | split; [ | exact Md ] ].
  - intros v Hv. destruct (in_dec Z.eq_dec (Z.of_nat i) ms) as [ Hin | Hn ].
    + split; [ apply (Pr v Hv) | ]. apply (In_nth_error) in Hin. destruct Hin as (j0 & E0). apply In_nth_error in Hv. destruct Hv as (j & Ej). specialize (Md j0 j v E0 Ej).
      destruct v as [ | | | q ]; try contradiction. cbn in Md. apply fle_Fin. rewrite Md. destruct (j0 =? j)%nat; lra.
    + exact (C156_at_most_one double (sum_by double ord) power X m D (Fin (1 # 1000)) ms c double_rounding H1 HI Hm HV Hne Hoth2 Hfin Ec i row v Hr Hn Hv).
  - exists s. split; [ exact Es | ]. eapply Qle_trans; [ exact Bs | ]. unfold Qdiv. rewrite E52.
    assert (ET : (inject_Z (Z.of_nat (h + length ms + 3)) == T + 1)%Q) by (unfold T; replace (h + length ms + 3) with ((h + length ms + 2) + 1) by lia; rewrite (Nat2Z.inj_add (h + length ms + 2) 1), inject_Z_plus; reflexivity).
    rewrite ET. fold T. fold K. lra.
Qed.
Print Assumptions C156_double.

(** numbers of eight binary digits; three samples, two medoids *)
Definition r8 : Q -> fnum := float_round 8 10 10.
Definition f_X : dataset := repeat [] 3.
Definition f_D : distance := DMatrix (mk2 3 3 (map Fin [0; 5; 4; 5; 0; 7; 4; 7; 0]%Q)).
Definition f_power : power_fn := fun x _ => x.
Lemma r8_rounding : rounding r8.
Proof. apply float_rounding; lia. Qed.
Lemma f_nodup : NoDup [0; 2]%Z.
Proof. constructor; [ intros [ E | [] ]; lia | constructor; [ intros [] | constructor ] ]. Qed.
Lemma f_valid : valid_indices f_X [0; 2]%Z.
Proof. intros z [ <- | [ <- | [] ] ]; cbn; lia. Qed.
Lemma f_others : forall i j, i < length f_X -> j < length [0; 2]%Z -> nth j [0; 2]%Z 0%Z <> Z.of_nat i ->
  exists p, computed_power r8 f_power f_X f_D 2 [0; 2]%Z i j = Fin p /\ (0 < p)%Q /\ ((1 # 2) / inject_Z (2 ^ 10) <= / inject_Z (2 ^ 8) * p)%Q.
Proof.
  intros i j Hi Hj Hn. cbn in Hi, Hj. destruct j as [ | [ | j ] ]; [ | | lia ]; (destruct i as [ | [ | [ | i ] ] ]; [ | | | lia ]); cbn in Hn; try lia;
    (eexists; split; [ vm_compute; reflexivity | split; vm_compute; first [ reflexivity | discriminate ] ]).
Qed.
Lemma f_own : forall i j, i < length f_X -> j < length [0; 2]%Z -> nth j [0; 2]%Z 0%Z = Z.of_nat i -> computed_power r8 f_power f_X f_D 2 [0; 2]%Z i j = PInf.
Proof.
  intros i j Hi Hj Hn. cbn in Hi, Hj. destruct j as [ | [ | j ] ]; [ | | lia ]; (destruct i as [ | [ | [ | i ] ] ]; [ | | | lia ]); cbn in Hn; try lia; vm_compute; reflexivity.
Qed.
Lemma f_sums : forall i, i < length f_X -> ~ In (Z.of_nat i) [0; 2]%Z -> is_fin (computed_sum r8 f_power f_X f_D 2 [0; 2]%Z i) = true.
Proof. intros i Hi Hn. cbn in Hi. destruct i as [ | [ | [ | i ] ] ]; [ cbn in Hn; tauto | vm_compute; reflexivity | cbn in Hn; tauto | lia ]. Qed.
(** the hypotheses of the theorem hold *)
Example C156_ex : exists c, compute_membership_fcm_r r8 (sum_by r8 one_by_one) f_power f_X 2 (map (fun i => (i, nth (Z.to_nat i) f_X [])) [0; 2]%Z) f_D (Fin (1 # 8)) = Ok c /\
  length (f_u c) = 3 /\ exists row, nth_error (f_u c) 1 = Some row /\ exists s, sum_by r8 one_by_one row = Fin s /\ (Qabs (s - 1) <= 1 # 16)%Q.
Proof.
  destruct (C156_memberships (/ inject_Z (2 ^ 8)) ((1 # 2) / inject_Z (2 ^ 10)) r8 one_by_one 2 2 f_power f_X 2 f_D (Fin (1 # 8)) [0; 2]%Z) as (c & Ec & Lc & R).
  - split; vm_compute; discriminate.
  - vm_compute; discriminate.
  - exact r8_rounding.
  - apply float_accurate; lia.
  - apply float_small_finite; lia.
  - apply one_by_one_summation.
  - cbn. lia.
  - cbn. repeat split.
  - vm_compute. discriminate.
  - exact f_valid.
  - exact f_nodup.
  - discriminate.
  - exact f_others.
  - exact f_own.
  - exact f_sums.
  - vm_compute. discriminate.
  - vm_compute. reflexivity.
  - exists c. split; [ exact Ec | ]. split; [ exact Lc | ]. destruct (nth_error (f_u c) 1) as [ row | ] eqn:Er.
    + exists row. split; [ reflexivity | ]. destruct (R 1 row Er) as (_ & _ & (s & Es & Bs) & _). exists s. split; [ exact Es | ]. eapply Qle_trans; [ exact Bs | ]. vm_compute. discriminate.
    + apply nth_error_None in Er. rewrite Lc in Er. cbn in Er. lia.
Qed.

(** Computed memberships need not add up to exactly 1: a tolerance of zero, which exact arithmetic always meets (C31), makes the call
    fail although nothing overflows and all distances are ordinary. *)
Theorem C156_exact_sum_refuted : ~ (forall p k emax ord N power X m D ms,
  rounding (float_round p k emax) -> summation ord N N -> length ms <= N -> instance X D -> ~ (m == 1)%Q -> valid_indices X ms -> NoDup ms -> ms <> [] ->
  (forall i j, i < length X -> j < length ms -> nth j ms 0%Z <> Z.of_nat i -> exists q, computed_power (float_round p k emax) power X D m ms i j = Fin q /\ (0 < q)%Q) ->
  (forall i j, i < length X -> j < length ms -> nth j ms 0%Z = Z.of_nat i -> computed_power (float_round p k emax) power X D m ms i j = PInf) ->
  (forall i, i < length X -> ~ In (Z.of_nat i) ms -> is_fin (computed_sum (float_round p k emax) power X D m ms i) = true) ->
  exists c, compute_membership_fcm_r (float_round p k emax) (sum_by (float_round p k emax) ord) power X m (map (fun i => (i, nth (Z.to_nat i) X [])) ms) D (Fin 0) = Ok c).
Proof.
  intros H. destruct (H 8%Z 10%Z 10%Z one_by_one 2 f_power f_X 2%Q f_D [0; 2]%Z) as (c & E).
  - exact r8_rounding.
  - apply one_by_one_summation.
  - cbn. lia.
  - cbn. repeat split.
  - vm_compute. discriminate.
  - exact f_valid.
  - exact f_nodup.
  - discriminate.
  - intros i j Hi Hj Hn. destruct (f_others i j Hi Hj Hn) as (q & Eq & Pq & _). exists q. split; [ exact Eq | exact Pq ].
  - exact f_own.
  - exact f_sums.
  - vm_compute in E. discriminate.
Qed.
Print Assumptions C156_exact_sum_refuted.

(** the same instance in double precision *)
Lemma fin_value v : is_fin v = true -> exists q, v = Fin q.
Proof. destruct v; intros E; try discriminate. eauto. Qed.
Lemma f_power_double : computed_power double f_power f_X f_D 2 [0; 2]%Z 1 0 = double (1 / 5)%Q.
Proof.
  unfold computed_power, f_power. replace (dist_j f_X f_D [0; 2]%Z 0 1) with (Fin 5) by reflexivity. unfold rdiv. cbn [fdiv].
  replace (Qeq_bool 5 0) with false by reflexivity. cbn [rounded]. reflexivity.
Qed.
Lemma at_least_eighth v p : feqv v (Fin (1 / 8)) -> fle v (Fin p) = true -> (1 / 8 <= p)%Q.
Proof. destruct v as [ | | | z ]; intros Gz Mz; try contradiction. apply fle_Fin in Mz. unfold feqv in Gz. rewrite Gz in Mz. exact Mz. Qed.
Example C156_double_ex :
  (exists p, computed_power double f_power f_X f_D 2 [0; 2]%Z 1 0 = Fin p /\ is_double p /\ (/ inject_Z (2 ^ 1022) <= p)%Q) /\
  computed_power double f_power f_X f_D 2 [0; 2]%Z 0 0 = PInf.
Proof.
  split; [ | reflexivity ]. rewrite f_power_double.
  pose proof (float_small_finite 53 1074 1024 ltac:(lia) ltac:(lia) ltac:(lia) (1 / 5)%Q ltac:(vm_compute; discriminate)) as F.
  destruct (fin_value _ F) as (p & E). exists p. split; [ exact E | ]. split.
  - exact (proj1 (proj1 (C151_rounds_to_nearest (1 / 5)%Q) p E)).
  - pose proof (C151_rounds_to_nearest (1 / 8)%Q) as [ _ G ].
    assert (I : is_double (1 / 8)%Q) by (exists 1%Z, 1071%Z; repeat split; vm_compute; first [ discriminate | reflexivity ]).
    specialize (G I). pose proof (proj1 double_rounding (1 / 8)%Q (1 / 5)%Q ltac:(vm_compute; discriminate)) as M.
    pose proof (eq_ind _ (fun v => fle (double (1 / 8)%Q) v = true) M _ E) as M'.
    eapply Qle_trans; [ | exact (at_least_eighth _ _ G M') ]. vm_compute. discriminate.
Qed.
