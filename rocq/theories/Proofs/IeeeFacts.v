(** Rounding to the nearest float keeps the order, and is accurate. *)
From Coq Require Import QArith Qabs Qround Lqa ZifyBool Lia.
From Verif Require Import Base.Py Base.Float Base.FloatFacts Spec.Rounded Spec.Ieee.
Local Open Scope Z_scope.

Lemma ne_bounds x : Qfloor x <= nearest_even x <= Qfloor x + 1.
Proof. unfold nearest_even. destruct (Qcompare _ _); [destruct (Z.even _)|..]; lia. Qed.
Lemma floor_frac x : (0 <= x - inject_Z (Qfloor x) /\ x - inject_Z (Qfloor x) < 1)%Q.
Proof. pose proof (Qfloor_le x). pose proof (Qlt_floor x) as U. rewrite inject_Z_plus in U. change (inject_Z 1) with 1%Q in U. lra. Qed.
Lemma ne_mono x y : (x <= y)%Q -> nearest_even x <= nearest_even y.
Proof.
  intros H. pose proof (Qfloor_resp_le _ _ H) as F. destruct (Z.eq_dec (Qfloor x) (Qfloor y)) as [E|E].
  - unfold nearest_even. rewrite <- E. set (f := Qfloor x).
    assert (L : (x - inject_Z f <= y - inject_Z f)%Q) by lra.
    destruct (Qcompare (x - inject_Z f) (1 # 2)) eqn:C1, (Qcompare (y - inject_Z f) (1 # 2)) eqn:C2; try (destruct (Z.even f)); try lia;
      exfalso; rewrite <- ?Qeq_alt, <- ?Qlt_alt, <- ?Qgt_alt in C1; rewrite <- ?Qeq_alt, <- ?Qlt_alt, <- ?Qgt_alt in C2; lra.
  - pose proof (ne_bounds x). pose proof (ne_bounds y). lia.
Qed.
Lemma ne_int x n : (x == inject_Z n)%Q -> nearest_even x = n.
Proof.
  intros E. unfold nearest_even. assert (F : Qfloor x = n) by (rewrite E; apply Qfloor_Z). rewrite F.
  assert (C : Qcompare (x - inject_Z n) (1 # 2) = Lt) by (rewrite <- Qlt_alt; rewrite E; lra). rewrite C. reflexivity.
Qed.
Lemma ne_half x : (Qabs (inject_Z (nearest_even x) - x) <= 1 # 2)%Q.
Proof.
  pose proof (floor_frac x) as [F0 F1]. apply Qabs_Qle_condition. unfold nearest_even.
  destruct (Qcompare (x - inject_Z (Qfloor x)) (1 # 2)) eqn:C.
  - rewrite <- Qeq_alt in C. destruct (Z.even (Qfloor x)); rewrite ?inject_Z_plus; change (inject_Z 1) with 1%Q; lra.
  - rewrite <- Qlt_alt in C. lra.
  - rewrite <- Qgt_alt in C. rewrite inject_Z_plus; change (inject_Z 1) with 1%Q; lra.
Qed.

Lemma inj_pos z : 0 < z -> (0 < inject_Z z)%Q.
Proof. intros H. change 0%Q with (inject_Z 0). rewrite <- Zlt_Qlt. exact H. Qed.
Lemma inj_le a b : a <= b -> (inject_Z a <= inject_Z b)%Q.
Proof. intros H. rewrite <- Zle_Qle. exact H. Qed.
Lemma inj_lt a b : a < b -> (inject_Z a < inject_Z b)%Q.
Proof. intros H. rewrite <- Zlt_Qlt. exact H. Qed.
Lemma pow_split a b : 0 <= b <= a -> 2 ^ a = 2 ^ (a - b) * 2 ^ b.
Proof. intros H. rewrite <- Z.pow_add_r by lia. f_equal. lia. Qed.
Lemma pow_pos a : 0 <= a -> 0 < 2 ^ a.
Proof. intros. apply Z.pow_pos_nonneg; lia. Qed.

(** rounding of the magnitude, in units *)
Definition rmag (p : Z) (a : Q) : Z :=
  let s := Z.max 0 (Z.log2 (Qfloor a) + 1 - p) in nearest_even (a / inject_Z (2 ^ s)) * 2 ^ s.

Section Mag.
Context (p : Z) (Hp : 1 <= p).
Local Notation sh a := (Z.max 0 (Z.log2 (Qfloor a) + 1 - p)).

Lemma div_exact (a : Q) s z : 0 <= s -> (a == inject_Z (z * 2 ^ s))%Q -> (a / inject_Z (2 ^ s) == inject_Z z)%Q.
Proof. intros Hs E. rewrite E, inject_Z_mult. pose proof (inj_pos _ (pow_pos s Hs)). field. lra. Qed.

Lemma rmag_upper a b s z : 0 <= s -> s = sh a -> b = z * 2 ^ s -> (a <= inject_Z b)%Q -> rmag p a <= b.
Proof.
  intros Hs Es Eb H. unfold rmag. rewrite <- Es. subst b. apply Z.mul_le_mono_nonneg_r; [apply Z.pow_nonneg; lia|].
  rewrite <- (ne_int (inject_Z (z * 2 ^ s) / inject_Z (2 ^ s)) z) by (apply div_exact; [exact Hs|reflexivity]).
  apply ne_mono. pose proof (inj_pos _ (pow_pos s Hs)). unfold Qdiv. apply Qmult_le_compat_r; [exact H|]. apply Qlt_le_weak, Qinv_lt_0_compat. exact H0.
Qed.
Lemma rmag_lower a b s z : 0 <= s -> s = sh a -> b = z * 2 ^ s -> (inject_Z b <= a)%Q -> b <= rmag p a.
Proof.
  intros Hs Es Eb H. unfold rmag. rewrite <- Es. subst b. apply Z.mul_le_mono_nonneg_r; [apply Z.pow_nonneg; lia|].
  rewrite <- (ne_int (inject_Z (z * 2 ^ s) / inject_Z (2 ^ s)) z) by (apply div_exact; [exact Hs|reflexivity]).
  apply ne_mono. pose proof (inj_pos _ (pow_pos s Hs)). unfold Qdiv. apply Qmult_le_compat_r; [exact H|]. apply Qlt_le_weak, Qinv_lt_0_compat. exact H0.
Qed.

Lemma rmag_mono a b : (0 <= a)%Q -> (a <= b)%Q -> rmag p a <= rmag p b.
Proof.
  intros Ha H. pose proof (Qfloor_resp_le _ _ H) as F. assert (F0 : 0 <= Qfloor a) by (change 0 with (Qfloor 0); apply Qfloor_resp_le; exact Ha).
  pose proof (Z.log2_le_mono _ _ F) as L. destruct (Z.eq_dec (sh a) (sh b)) as [E|E].
  - unfold rmag. rewrite <- E. apply Z.mul_le_mono_nonneg_r; [apply Z.pow_nonneg; lia|]. apply ne_mono.
    pose proof (inj_pos _ (pow_pos (sh a) ltac:(lia))). unfold Qdiv. apply Qmult_le_compat_r; [exact H|]. apply Qlt_le_weak, Qinv_lt_0_compat. exact H0.
  - (* a power of two lies between *)
    set (la := Z.log2 (Qfloor a)) in *. set (lb := Z.log2 (Qfloor b)) in *. assert (Hlt : la < lb) by lia.
    assert (La0 : 0 <= la) by apply Z.log2_nonneg.
    apply Z.le_trans with (2 ^ lb).
    + assert (U : Qfloor a < 2 ^ (la + 1)).
      { destruct (Z.eq_dec (Qfloor a) 0) as [Z0|Z0]; [rewrite Z0; apply pow_pos; lia|]. pose proof (Z.log2_spec (Qfloor a) ltac:(lia)) as [_ X]. rewrite <- Z.add_1_r in X. exact X. }
      assert (U' : 2 ^ (la + 1) <= 2 ^ lb) by (apply Z.pow_le_mono_r; lia).
      apply (rmag_upper a (2 ^ lb) (sh a) (2 ^ (lb - sh a))); [lia|reflexivity|apply pow_split; lia|].
      pose proof (Qlt_floor a) as X. apply Qle_trans with (inject_Z (Qfloor a + 1)); [lra|]. apply inj_le. lia.
    + apply (rmag_lower b (2 ^ lb) (sh b) (2 ^ (lb - sh b))); [lia|reflexivity|apply pow_split; lia|].
      pose proof (Qfloor_le b) as X. apply Qle_trans with (inject_Z (Qfloor b)); [|exact X]. apply inj_le.
      assert (0 < Qfloor b). { destruct (Z.le_gt_cases (Qfloor b) 0) as [Y|Y]; [|exact Y]. exfalso. unfold lb in Hlt. rewrite Z.log2_nonpos in Hlt by exact Y. lia. }
      apply (Z.log2_spec (Qfloor b)). exact H0.
Qed.

(** numbers of at most p digits stay *)
Lemma rmag_exact m e : 0 <= m < 2 ^ p -> 0 <= e -> forall a, (a == inject_Z (m * 2 ^ e))%Q -> rmag p a = m * 2 ^ e.
Proof.
  intros Hm He a E. assert (F : Qfloor a = m * 2 ^ e) by (rewrite E; apply Qfloor_Z).
  assert (S : 0 <= sh a <= e \/ m = 0).
  { rewrite F. destruct (Z.eq_dec m 0) as [->|N]; [right; reflexivity|left]. rewrite Z.log2_mul_pow2 by lia.
    assert (Z.log2 m < p) by (apply Z.log2_lt_pow2; lia). lia. }
  destruct S as [S| ->].
  - unfold rmag. rewrite (ne_int _ (m * 2 ^ (e - sh a))).
    + rewrite <- Z.mul_assoc. rewrite <- pow_split by lia. reflexivity.
    + apply div_exact; [lia|]. rewrite <- Z.mul_assoc, <- pow_split by lia. exact E.
  - unfold rmag. rewrite (ne_int _ 0); [reflexivity|]. apply div_exact; [lia|]. exact E.
Qed.

(** a positive integer number of units does not vanish *)
Lemma rmag_pos z a : 1 <= z -> (inject_Z z <= a)%Q -> 1 <= rmag p a.
Proof.
  intros Hz H. apply Z.le_trans with (rmag p (inject_Z 1)).
  - rewrite (rmag_exact 1 0); [reflexivity| |lia|reflexivity]. split; [lia|]. apply (Z.pow_gt_1 2 p); lia.
  - apply rmag_mono; [discriminate|]. apply Qle_trans with (inject_Z z); [apply inj_le; exact Hz|exact H].
Qed.

Lemma rmag_error a : (0 <= a)%Q -> (Qabs (inject_Z (rmag p a) - a) <= / inject_Z (2 ^ p) * a + (1 # 2))%Q.
Proof.
  intros Ha. unfold rmag. set (s := sh a). assert (Hs : 0 <= s) by lia. pose proof (inj_pos _ (pow_pos s Hs)) as P.
  set (x := (a / inject_Z (2 ^ s))%Q). pose proof (ne_half x) as N.
  assert (E : (inject_Z (nearest_even x * 2 ^ s) - a == (inject_Z (nearest_even x) - x) * inject_Z (2 ^ s))%Q).
  { unfold x. rewrite inject_Z_mult. field. lra. }
  rewrite E, Qabs_Qmult, (Qabs_pos (inject_Z (2 ^ s))) by lra.
  apply Qle_trans with ((1 # 2) * inject_Z (2 ^ s))%Q; [apply Qmult_le_compat_r; [exact N|lra]|].
  pose proof (inj_pos _ (pow_pos p ltac:(lia))) as Pp. pose proof (Qinv_lt_0_compat _ Pp) as Ip.
  destruct (Z.eq_dec s 0) as [Z0|Z0].
  - rewrite Z0. change (inject_Z (2 ^ 0)) with 1%Q. assert (0 <= / inject_Z (2 ^ p) * a)%Q by (apply Qmult_le_0_compat; lra). lra.
  - assert (Es : s = Z.log2 (Qfloor a) + 1 - p) by (unfold s in *; lia).
    assert (F1 : 0 < Qfloor a). { destruct (Z.le_gt_cases (Qfloor a) 0) as [Y|Y]; [|exact Y]. exfalso. rewrite Z.log2_nonpos in Es by exact Y. lia. }
    assert (B : (inject_Z (2 ^ s * 2 ^ p) <= inject_Z 2 * a)%Q).
    { rewrite <- Z.pow_add_r by lia. replace (s + p) with (Z.log2 (Qfloor a) + 1) by lia. rewrite Z.pow_add_r by (pose proof (Z.log2_nonneg (Qfloor a)); lia).
      pose proof (Z.log2_spec (Qfloor a) F1) as [L _]. pose proof (Qfloor_le a) as X. apply inj_le in L. rewrite inject_Z_mult. change (inject_Z (2 ^ 1)) with (inject_Z 2).
      change (inject_Z 2) with 2%Q. lra. }
    rewrite inject_Z_mult in B. change (inject_Z 2) with 2%Q in B.
    assert (C : (inject_Z (2 ^ s) <= 2 * (/ inject_Z (2 ^ p) * a))%Q).
    { apply (Qmult_le_r _ _ (inject_Z (2 ^ p)) Pp). assert (Y : (2 * (/ inject_Z (2 ^ p) * a) * inject_Z (2 ^ p) == 2 * a)%Q) by (field; lra). rewrite Y. exact B. }
    lra.
Qed.
End Mag.

Lemma nearest_float_rmag p k q : nearest_float p k q = rmag p (Qabs q * inject_Z (2 ^ k)).
Proof. reflexivity. Qed.

Section Float.
Context (p k emax : Z) (Hp : 1 <= p) (Hk : 0 <= k) (He : 1 <= emax).
Local Notation U := (inject_Z (2 ^ k)).
Lemma U_pos : (0 < U)%Q. Proof. apply inj_pos, pow_pos. exact Hk. Qed.
Lemma nf_mono q r : (Qabs q <= Qabs r)%Q -> nearest_float p k q <= nearest_float p k r.
Proof.
  intros H. rewrite !nearest_float_rmag. pose proof U_pos. pose proof (Qabs_nonneg q).
  apply rmag_mono; [exact Hp|apply Qmult_le_0_compat; lra|apply Qmult_le_compat_r; lra].
Qed.
Lemma nf_nonneg q : 0 <= nearest_float p k q.
Proof.
  apply Z.le_trans with (nearest_float p k 0); [|apply nf_mono; rewrite Qabs_pos by lra; apply Qabs_nonneg].
  rewrite nearest_float_rmag. rewrite (rmag_exact p Hp 0 0); [lia|split; [lia|apply pow_pos; lia]|lia|reflexivity].
Qed.
Lemma div_nonneg m : 0 <= m -> (0 <= inject_Z m / U)%Q.
Proof. intros H. apply inj_le in H. pose proof U_pos. apply Qle_shift_div_l; [exact H0|]. change (inject_Z 0) with 0%Q in H. lra. Qed.

Lemma float_mono q r : (q <= r)%Q -> fle (float_round p k emax q) (float_round p k emax r) = true.
Proof.
  intros H. pose proof (nf_nonneg q) as Nq. pose proof (nf_nonneg r) as Nr. unfold float_round.
  pose proof (div_nonneg _ Nq) as Dq. pose proof (div_nonneg _ Nr) as Dr.
  assert (DM : forall m n, m <= n -> (inject_Z m / U <= inject_Z n / U)%Q).
  { intros m n L. unfold Qdiv. apply Qmult_le_compat_r; [apply inj_le; exact L|]. apply Qlt_le_weak, Qinv_lt_0_compat, U_pos. }
  destruct (Qle_bool 0 q) eqn:Sq.
  - apply Qle_bool_iff in Sq. assert (Sr : Qle_bool 0 r = true) by (apply Qle_bool_iff; lra). rewrite Sr.
    assert (M : nearest_float p k q <= nearest_float p k r) by (apply nf_mono; rewrite !Qabs_pos by lra; exact H).
    destruct (Z.leb_spec (2 ^ (emax + k)) (nearest_float p k q)); destruct (Z.leb_spec (2 ^ (emax + k)) (nearest_float p k r)); try lia; try reflexivity.
    apply fle_Fin. apply DM. exact M.
  - assert (Lq : (q < 0)%Q) by (apply Qnot_le_lt; intros X; apply Qle_bool_iff in X; congruence).
    destruct (Qle_bool 0 r) eqn:Sr.
    + destruct (2 ^ (emax + k) <=? nearest_float p k q), (2 ^ (emax + k) <=? nearest_float p k r); try reflexivity. apply fle_Fin. lra.
    + assert (Lr : (r < 0)%Q) by (apply Qnot_le_lt; intros X; apply Qle_bool_iff in X; congruence).
      assert (M : nearest_float p k r <= nearest_float p k q) by (apply nf_mono; rewrite !Qabs_neg by lra; lra).
      destruct (Z.leb_spec (2 ^ (emax + k)) (nearest_float p k q)); destruct (Z.leb_spec (2 ^ (emax + k)) (nearest_float p k r)); try lia; try reflexivity.
      apply fle_Fin. pose proof (DM _ _ M). lra.
Qed.

Lemma float_exact q : is_float p k emax q -> feqv (float_round p k emax q) (Fin q).
Proof.
  intros (m & e & Hm & He0 & Hl & E). pose proof U_pos as HU.
  assert (A : (Qabs q * U == inject_Z (Z.abs m * 2 ^ e))%Q).
  { rewrite E. unfold Qdiv. rewrite Qabs_Qmult, (Qabs_pos (/ U)) by (apply Qlt_le_weak, Qinv_lt_0_compat; exact HU).
    assert (X : (Qabs (inject_Z (m * 2 ^ e)) == inject_Z (Z.abs m * 2 ^ e))%Q).
    { unfold Qabs, inject_Z. rewrite Z.abs_mul, (Z.abs_eq (2 ^ e)) by (apply Z.pow_nonneg; lia). reflexivity. }
    rewrite X. field. lra. }
  assert (R : nearest_float p k q = Z.abs m * 2 ^ e) by (rewrite nearest_float_rmag; apply (rmag_exact p Hp); [lia|exact He0|exact A]).
  unfold float_round. rewrite R. destruct (Z.leb_spec (2 ^ (emax + k)) (Z.abs m * 2 ^ e)); [lia|].
  destruct (Qle_bool 0 q) eqn:S; cbn [feqv]; rewrite <- A.
  - apply Qle_bool_iff in S. rewrite Qabs_pos by exact S. field. lra.
  - assert (L : (q < 0)%Q) by (apply Qnot_le_lt; intros X; apply Qle_bool_iff in X; congruence). rewrite Qabs_neg by lra. field. lra.
Qed.

Lemma float_rounding : rounding (float_round p k emax).
Proof.
  split; [exact float_mono|]. pose proof (pow_pos k Hk). split; apply float_exact.
  - exists 0, 0. split; [apply pow_pos; lia|]. split; [lia|]. split; [cbn; apply pow_pos; lia|]. cbn. reflexivity.
  - exists 1, k. split; [apply (Z.pow_gt_1 2 p); lia|]. split; [exact Hk|]. change (Z.abs 1) with 1. rewrite !Z.mul_1_l.
    split; [apply Z.pow_lt_mono_r; lia|]. pose proof U_pos. field. lra.
Qed.

Lemma float_apart s : (forall a, In (Fin a) s -> is_float p k emax a) -> apart (float_round p k emax) s.
Proof.
  intros Hs a b Ia Ib L. destruct (Hs _ Ia) as (m & e & _ & He1 & _ & Ea). destruct (Hs _ Ib) as (n & f & _ & Hf1 & _ & Eb). pose proof U_pos as HU.
  assert (D : ((b - a) * U == inject_Z (n * 2 ^ f - m * 2 ^ e))%Q).
  { rewrite Ea, Eb. unfold Z.sub. rewrite inject_Z_plus, inject_Z_opp. field. lra. }
  assert (Dz : 1 <= n * 2 ^ f - m * 2 ^ e).
  { assert (X : (inject_Z 0 < inject_Z (n * 2 ^ f - m * 2 ^ e))%Q). { rewrite <- D. change (inject_Z 0) with 0%Q. rewrite <- (Qmult_0_l U). apply Qmult_lt_compat_r; lra. }
    rewrite <- Zlt_Qlt in X. lia. }
  assert (R : 1 <= nearest_float p k (b - a)).
  { rewrite nearest_float_rmag. apply (rmag_pos p Hp _ _ Dz). rewrite Qabs_pos by lra. rewrite D. lra. }
  unfold float_round. assert (S : Qle_bool 0 (b - a) = true) by (apply Qle_bool_iff; lra). rewrite S.
  destruct (2 ^ (emax + k) <=? nearest_float p k (b - a)); [reflexivity|]. apply flt_Fin.
  apply inj_le in R. apply Qlt_shift_div_l; [exact HU|]. change (inject_Z 1) with 1%Q in R. lra.
Qed.

Lemma float_accurate : accurate (/ inject_Z (2 ^ p)) ((1 # 2) / U) (float_round p k emax).
Proof.
  intros q. unfold float_round. destruct (2 ^ (emax + k) <=? nearest_float p k q); [left; destruct (Qle_bool 0 q); reflexivity|].
  right. eexists. split; [reflexivity|]. pose proof U_pos as HU.
  pose proof (rmag_error p Hp (Qabs q * U) ltac:(apply Qmult_le_0_compat; [apply Qabs_nonneg|lra])) as R. rewrite <- nearest_float_rmag in R.
  set (m := nearest_float p k q) in *.
  assert (G : (Qabs (inject_Z m / U - Qabs q) <= / inject_Z (2 ^ p) * Qabs q + (1 # 2) / U)%Q).
  { assert (E : (inject_Z m / U - Qabs q == (inject_Z m - Qabs q * U) * / U)%Q) by (field; lra).
    rewrite E, Qabs_Qmult, (Qabs_pos (/ U)) by (apply Qlt_le_weak, Qinv_lt_0_compat; exact HU).
    apply Qle_trans with ((/ inject_Z (2 ^ p) * (Qabs q * U) + (1 # 2)) * / U)%Q; [apply Qmult_le_compat_r; [exact R|apply Qlt_le_weak, Qinv_lt_0_compat; exact HU]|].
    assert (E2 : ((/ inject_Z (2 ^ p) * (Qabs q * U) + (1 # 2)) * / U == / inject_Z (2 ^ p) * Qabs q + (1 # 2) / U)%Q).
    { pose proof (inj_pos _ (pow_pos p ltac:(lia))). field. split; lra. }
    rewrite E2. apply Qle_refl. }
  destruct (Qle_bool 0 q) eqn:S.
  - apply Qle_bool_iff in S. rewrite (Qabs_pos q S) in G at 1. exact G.
  - assert (L : (q < 0)%Q) by (apply Qnot_le_lt; intros X; apply Qle_bool_iff in X; congruence).
    assert (E : (- (inject_Z m / U) - q == - (inject_Z m / U - Qabs q))%Q) by (rewrite Qabs_neg by lra; ring).
    rewrite E, Qabs_opp. exact G.
Qed.
End Float.

(* ---------------------------------------------------------------- the result is the nearest float *)
Lemma ne_nearest x n : (Qabs (inject_Z (nearest_even x) - x) <= Qabs (inject_Z n - x))%Q.
Proof.
  pose proof (ne_half x) as H. pose proof (floor_frac x) as [F0 F1]. set (f := Qfloor x) in *.
  assert (C : n <= f - 1 \/ n = f \/ n = f + 1 \/ f + 2 <= n) by lia. destruct C as [C|[C|[C|C]]].
  - apply inj_le in C. unfold Z.sub in C. rewrite inject_Z_plus in C. change (inject_Z (- (1))) with (-1)%Q in C.
    rewrite (Qabs_neg (inject_Z n - x)) by lra. eapply Qle_trans; [exact H|]. lra.
  - subst n. unfold nearest_even. fold f. destruct (Qcompare (x - inject_Z f) (1 # 2)) eqn:E; [|lra|].
    + destruct (Z.even f); [lra|]. rewrite <- Qeq_alt in E. rewrite inject_Z_plus. change (inject_Z 1) with 1%Q.
      rewrite (Qabs_pos (inject_Z f + 1 - x)), (Qabs_neg (inject_Z f - x)) by lra. lra.
    + rewrite <- Qgt_alt in E. rewrite inject_Z_plus. change (inject_Z 1) with 1%Q.
      rewrite (Qabs_pos (inject_Z f + 1 - x)), (Qabs_neg (inject_Z f - x)) by lra. lra.
  - subst n. unfold nearest_even. fold f. destruct (Qcompare (x - inject_Z f) (1 # 2)) eqn:E; [| |lra].
    + destruct (Z.even f); [|lra]. rewrite <- Qeq_alt in E. rewrite inject_Z_plus. change (inject_Z 1) with 1%Q.
      rewrite (Qabs_pos (inject_Z f + 1 - x)), (Qabs_neg (inject_Z f - x)) by lra. lra.
    + rewrite <- Qlt_alt in E. rewrite inject_Z_plus. change (inject_Z 1) with 1%Q.
      rewrite (Qabs_pos (inject_Z f + 1 - x)), (Qabs_neg (inject_Z f - x)) by lra. lra.
  - apply inj_le in C. rewrite inject_Z_plus in C. change (inject_Z 2) with 2%Q in C.
    rewrite (Qabs_pos (inject_Z n - x)) by lra. eapply Qle_trans; [exact H|]. lra.
Qed.

Section Near.
Context (p : Z) (Hp : 1 <= p).
Lemma rmag_digits a : (0 <= a)%Q -> exists m e, 0 <= m < 2 ^ p /\ 0 <= e /\ rmag p a = m * 2 ^ e.
Proof.
  intros Ha. unfold rmag. set (s := Z.max 0 (Z.log2 (Qfloor a) + 1 - p)). assert (Hs : 0 <= s) by lia.
  assert (F0 : 0 <= Qfloor a) by (change 0 with (Qfloor 0); apply Qfloor_resp_le; exact Ha).
  set (m := nearest_even (a / inject_Z (2 ^ s))). pose proof (inj_pos _ (pow_pos s Hs)) as P.
  assert (M0 : 0 <= m).
  { unfold m. rewrite <- (ne_int 0 0) by reflexivity. apply ne_mono. apply Qle_shift_div_l; [exact P|]. lra. }
  assert (M1 : m <= 2 ^ p).
  { unfold m. rewrite <- (ne_int (inject_Z (2 ^ p)) (2 ^ p)) by reflexivity. apply ne_mono. apply Qle_shift_div_r; [exact P|].
    rewrite <- inject_Z_mult, <- Z.pow_add_r by lia. pose proof (Qlt_floor a) as X. apply Qle_trans with (inject_Z (Qfloor a + 1)); [lra|]. apply inj_le.
    assert (U : Qfloor a < 2 ^ (p + s)); [|lia]. destruct (Z.eq_dec (Qfloor a) 0) as [Z0|Z0]; [rewrite Z0; apply pow_pos; lia|].
    apply Z.log2_lt_pow2; lia. }
  destruct (Z.eq_dec m (2 ^ p)) as [E|E]; [|exists m, s; repeat split; lia].
  exists 1, (p + s). split; [split; [lia|apply (Z.pow_gt_1 2 p); lia]|]. split; [lia|]. rewrite E, <- Z.pow_add_r by lia. ring.
Qed.

Lemma rmag_nearest a m e : (0 <= a)%Q -> 0 <= m < 2 ^ p -> 0 <= e ->
  (Qabs (inject_Z (rmag p a) - a) <= Qabs (inject_Z (m * 2 ^ e) - a))%Q.
Proof.
  intros Ha Hm He. unfold rmag. set (s := Z.max 0 (Z.log2 (Qfloor a) + 1 - p)). assert (Hs : 0 <= s) by lia.
  pose proof (inj_pos _ (pow_pos s Hs)) as P.
  assert (Mult : forall z, (Qabs (inject_Z (nearest_even (a / inject_Z (2 ^ s)) * 2 ^ s) - a) <= Qabs (inject_Z (z * 2 ^ s) - a))%Q).
  { intros z. set (x := (a / inject_Z (2 ^ s))%Q).
    assert (E : forall w, (inject_Z (w * 2 ^ s) - a == (inject_Z w - x) * inject_Z (2 ^ s))%Q) by (intros w; unfold x; rewrite inject_Z_mult; field; lra).
    rewrite !E, !Qabs_Qmult. apply Qmult_le_compat_r; [apply ne_nearest|apply Qabs_nonneg]. }
  destruct (Z.eq_dec s 0) as [Z0|Z0]; [rewrite Z0 in *; specialize (Mult (m * 2 ^ e)); change (2 ^ 0) with 1 in *; rewrite !Z.mul_1_r in *; exact Mult|].
  set (L := Z.log2 (Qfloor a)) in *. assert (Es : s = L + 1 - p) by lia.
  assert (F1 : 0 < Qfloor a). { destruct (Z.le_gt_cases (Qfloor a) 0) as [Y|Y]; [|exact Y]. exfalso. unfold L in Es. rewrite Z.log2_nonpos in Es by exact Y. lia. }
  destruct (Z.le_gt_cases (2 ^ L) (m * 2 ^ e)) as [G|G].
  - assert (Hse : s <= e).
    { assert (X : 2 ^ L < 2 ^ (p + e)). { apply Z.le_lt_trans with (m * 2 ^ e); [exact G|]. rewrite Z.pow_add_r by lia. apply Z.mul_lt_mono_pos_r; [apply pow_pos; lia|lia]. }
      apply Z.pow_lt_mono_r_iff in X; lia. }
    replace (m * 2 ^ e) with (m * 2 ^ (e - s) * 2 ^ s); [apply Mult|]. rewrite <- Z.mul_assoc, <- pow_split by lia. reflexivity.
  - eapply Qle_trans; [apply (Mult (2 ^ (L - s)))|]. rewrite <- pow_split by lia.
    pose proof (Z.log2_spec (Qfloor a) F1) as [X _]. fold L in X. apply inj_le in X. pose proof (Qfloor_le a). apply inj_lt in G.
    rewrite !Qabs_neg by lra. lra.
Qed.
End Near.

Lemma float_nearest p k emax q v : 1 <= p -> 0 <= k -> 1 <= emax -> float_round p k emax q = Fin v ->
  is_float p k emax v /\ forall r, is_float p k emax r -> (Qabs (v - q) <= Qabs (r - q))%Q.
Proof.
  intros Hp Hk He E. unfold float_round in E. pose proof (nearest_float_rmag p k q) as R. pose proof (U_pos k Hk) as HU.
  set (U := inject_Z (2 ^ k)) in *. set (a := (Qabs q * U)%Q) in *. assert (Ha : (0 <= a)%Q) by (apply Qmult_le_0_compat; [apply Qabs_nonneg|lra]).
  set (n := nearest_float p k q) in *. destruct (Z.leb_spec (2 ^ (emax + k)) n) as [B|B]; [destruct (Qle_bool 0 q); discriminate|].
  destruct (rmag_digits p Hp a Ha) as (m & e & Hm & He0 & Em). rewrite <- R in Em.
  assert (Iu : (0 < / U)%Q) by (apply Qinv_lt_0_compat; exact HU).
  assert (AU : (Qabs q == a / U)%Q) by (unfold a; field; lra).
  assert (Mag : forall m' e', Z.abs m' < 2 ^ p -> 0 <= e' -> (Qabs (inject_Z n / U - Qabs q) <= Qabs (inject_Z (Z.abs m' * 2 ^ e') / U - Qabs q))%Q).
  { intros m' e' Hm' He'. rewrite AU. assert (D : forall z, (inject_Z z / U - a / U == (inject_Z z - a) * / U)%Q) by (intros z; field; lra).
    rewrite !D, !Qabs_Qmult. apply Qmult_le_compat_r; [|apply Qabs_nonneg]. rewrite R. apply rmag_nearest; [exact Hp|exact Ha|lia|exact He']. }
  assert (AbsR : forall r m' e', 0 <= e' -> (r == inject_Z (m' * 2 ^ e') / U)%Q -> (Qabs r == inject_Z (Z.abs m' * 2 ^ e') / U)%Q).
  { intros r m' e' He' Er. rewrite Er. unfold Qdiv. rewrite Qabs_Qmult, (Qabs_pos (/ U)) by lra.
    assert (X : (Qabs (inject_Z (m' * 2 ^ e')) == inject_Z (Z.abs m' * 2 ^ e'))%Q).
    { unfold Qabs, inject_Z. rewrite Z.abs_mul, (Z.abs_eq (2 ^ e')) by (apply Z.pow_nonneg; lia). reflexivity. }
    rewrite X. reflexivity. }
  assert (Rev : forall x y : Q, (Qabs (Qabs x - Qabs y) <= Qabs (x - y))%Q).
  { intros x y. apply Qabs_case; intros _; [apply Qabs_triangle_reverse|].
    rewrite <- (Qabs_opp (x - y)). assert (Z1 : (- (Qabs x - Qabs y) == Qabs y - Qabs x)%Q) by ring. assert (Z2 : (- (x - y) == y - x)%Q) by ring.
    rewrite Z1, Z2. apply Qabs_triangle_reverse. }
  destruct (Qle_bool 0 q) eqn:S; injection E as <-.
  - apply Qle_bool_iff in S. split.
    + exists m, e. rewrite Z.abs_eq by lia. rewrite <- Em. repeat split; try lia; reflexivity.
    + intros r (m' & e' & Hm' & He' & _ & Er). specialize (Mag m' e' Hm' He'). rewrite <- (AbsR r m' e' He' Er) in Mag.
      eapply Qle_trans; [|apply Rev]. rewrite (Qabs_pos q S) in *. exact Mag.
  - assert (L : (q < 0)%Q) by (apply Qnot_le_lt; intros X; apply Qle_bool_iff in X; congruence). split.
    + exists (- m), e. rewrite Z.abs_opp, Z.abs_eq by lia. rewrite <- Em. repeat split; try lia. rewrite Z.mul_opp_l, <- Em, inject_Z_opp. fold U. field. lra.
    + intros r (m' & e' & Hm' & He' & _ & Er). specialize (Mag m' e' Hm' He'). rewrite <- (AbsR r m' e' He' Er) in Mag.
      eapply Qle_trans; [|apply Rev]. assert (Z1 : (- (inject_Z n / U) - q == - (inject_Z n / U - Qabs q))%Q) by (rewrite (Qabs_neg q) by lra; ring).
      rewrite Z1, Qabs_opp. exact Mag.
Qed.
