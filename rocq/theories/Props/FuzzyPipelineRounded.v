(** C159: from the fuzzy search to masks, in double precision. *)
From Coq Require Import Lia Lqa QArith Qabs Permutation.
From Verif Require Import Base.Py Base.PyFacts Base.Arr Base.ArrFacts Base.Float Base.FloatFacts Spec.Grid Model.Region Model.FuzzyMask Model.KMedoids Model.KMedoidsFuzzy Model.Rounded
  Model.FuzzyRounded Model.FuzzySearchRounded Model.FuzzyMaskRounded
  Spec.Medoids Spec.Rounded Spec.Ieee Spec.KMedoidsRounded Spec.FuzzyRounded Spec.FuzzySearchRounded Proofs.KMedoidsFacts Proofs.FuzzyMaskFacts Proofs.AlgorithmFacts Proofs.RoundedFacts Proofs.FuzzySearchRoundedFacts
  Props.Ieee Props.KMedoidsRounded Props.FuzzyRounded Props.FuzzySearchRounded Props.FuzzyMaskRounded.
From Coq Require Import ZifyBool ZifyNat.
Local Close Scope Q_scope.
Local Open Scope nat_scope.

(** powers of inverse distances for k different medoids: infinite for a sample and itself, doubles of at least 2^-1022 otherwise, with
    sums that do not overflow *)
Definition ordinary_powers (power : power_fn) (X : dataset) (D : distance) (m : Q) (k : nat) : Prop :=
  forall ms, valid_indices X ms -> NoDup ms -> length ms = k ->
    (forall i j, i < length X -> j < k -> nth j ms 0%Z <> Z.of_nat i ->
       exists p, computed_power double power X D m ms i j = Fin p /\ is_double p /\ (/ inject_Z (2 ^ 1022) <= p)%Q) /\
    (forall i j, i < length X -> j < k -> nth j ms 0%Z = Z.of_nat i -> computed_power double power X D m ms i j = PInf) /\
    (forall i, i < length X -> ~ In (Z.of_nat i) ms -> is_fin (computed_sum double power X D m ms i) = true).

Lemma mask_row (U : list (list fnum)) n k x y c t : length U = n -> (forall row, In row U -> length row = k) -> n = x * y -> (0 <= c < Z.of_nat k)%Z ->
  fle (Fin 0) t = true -> fle t (Fin 1) = true ->
  exists mask u, from_uij_and_region (mk2 n k (concat U)) x y c t = Ok mask /\ mk_fmask u c t = Ok mask /\ wf3 u /\ a3t u = k /\ a3x u = x /\ a3y u = y /\
    forall i l row, i < x -> l < y -> nth_error U (i * y + l) = Some row -> series3 u (Z.of_nat i) (Z.of_nat l) = Ok row.
Proof.
  intros Hn Hr Hxy Hc H0 H1.
  assert (Hw : wf2 (mk2 n k (concat U))).
  { unfold wf2. cbn. rewrite <- Hn. clear - Hr. induction U as [ | row U IH ]; [ reflexivity | ]. cbn [concat length]. rewrite app_length, IH, (Hr row (or_introl eq_refl)); [ lia | ].
    intros; apply Hr; right; assumption. }
  destruct (from_uij_spec (mk2 n k (concat U)) x y c t Hw Hxy Hc H0 H1) as (mask & E & (W & Hc' & _) & E1 & E2 & E3 & E4 & E5 & P). cbn [a2y] in *.
  exists mask, (fm_u mask). split; [ exact E | ]. split; [ | split; [ exact W | split; [ exact E3 | split; [ exact E4 | split; [ exact E5 | ] ] ] ] ].
  { apply mk_fmask_ok. destruct mask as [ u' c' t' ]. cbn in *. subst. repeat split; auto; lia. }
  intros i l row Hi Hl Hrow. destruct (series3_ok (fm_u mask) (Z.of_nat i) (Z.of_nat l) W ltac:(lia) ltac:(lia)) as (s & Es & Ls & Ps). rewrite Es. f_equal.
  assert (Lr : length row = k) by (apply Hr; eapply nth_error_In; eauto).
  apply nth_ext with (d := NaN) (d' := NaN); [ lia | ]. intros j Hj. specialize (Ps j ltac:(lia)). rewrite !Nat2Z.id, P in Ps by lia. unfold at2 in Ps. cbn [a2d a2y] in Ps.
  rewrite (nth_error_concat k U (i * y + l) j Hr ltac:(lia)), Hrow in Ps.
  destruct (nth_error row j) as [ v | ] eqn:Ev; [ | apply nth_error_None in Ev; lia ]. apply nth_error_nth with (d := NaN) in Ev. apply nth_error_nth with (d := NaN) in Ps. congruence.
Qed.

(** After a successful fuzzy search with the default tolerance, over a region of x by y points: a mask can be built for every cluster and
    threshold; every point is in the mask of a cluster; and for a threshold below 1 the point of a medoid is in the mask of its own
    cluster and in no other. *)
Theorem C159_masks_after_search : forall ord N h power choice X m D init max_iter k ms0 r x y t,
  summation ord N h -> k <= N -> (Z.of_nat (h + k + 2) <= 2 ^ 40)%Z -> instance X D -> ~ (m == 1)%Q -> starts_from choice X k init ms0 -> NoDup ms0 ->
  ordinary_powers power X D m k ->
  run_kmedoids_fuzzy_r double (sum_by double ord) power choice X (Z.of_nat k) m D init max_iter (Fin (1 # 1000)) = Ok r ->
  length X = x * y -> fle (Fin 0) t = true -> fle t (Fin 1) = true ->
  let table := mk2 (length X) k (concat (fr_u r)) in
  (forall c, (0 <= c < Z.of_nat k)%Z -> exists mask, from_uij_and_region table x y c t = Ok mask /\
     (flt t (Fin 1) = true -> forall j0 px py, nth_error (fr_medoids r) j0 = Some (Z.of_nat (px * y + py)) -> px < x -> py < y ->
        fmask_is_member_r double mask (Some (Z.of_nat px, Z.of_nat py)) = Ok (c =? Z.of_nat j0)%Z)) /\
  (forall px py, px < x -> py < y -> exists c mask, (0 <= c < Z.of_nat k)%Z /\ from_uij_and_region table x y c t = Ok mask /\
     fmask_is_member_r double mask (Some (Z.of_nat px, Z.of_nat py)) = Ok true).
Proof.
  intros ord N h power choice X m D init mi k ms0 r x y t Ho HN Hb HI Hm HS Hnd HP Hr Hxy H0 H1 table.
  destruct (C157_double ord N h power choice X m D init mi k ms0 Ho HN Hb HI Hm HS Hnd HP) as [ SC _ ].
  destruct (C157_result double (sum_by double ord) power choice X m D (Fin (1 # 1000)) init mi k ms0 r double_rounding HI Hm eq_refl HS Hnd SC Hr)
    as (V & Nd & L & _ & _ & Eu & _).
  assert (Hk : 0 < k) by apply HS. assert (Hne : fr_medoids r <> []) by (intros E; rewrite E in L; cbn in L; lia).
  destruct (HP (fr_medoids r) V Nd L) as (P1 & P2 & P3). rewrite <- L in P1, P2, HN, Hb.
  destruct (C156_double ord N h power X m D (fr_medoids r) Ho HN Hb HI Hm V Nd Hne P1 P2 P3) as (c0 & Ec & Lc & R).
  assert (Ef : f_u c0 = fr_u r).
  { rewrite Eu. destruct (C157_memberships double (sum_by double ord) power X m D (Fin (1 # 1000)) (fr_medoids r) HI Hm V Hne) as [ M _ ].
    destruct (M (SC _ V Nd L)) as (c1 & E1 & E2 & _). rewrite Ec in E1. injection E1 as <-. exact E2. }
  rewrite Ef in Lc, R.
  assert (Rows : forall row, In row (fr_u r) -> length row = k) by (intros row Hrow; apply In_nth_error in Hrow; destruct Hrow as [ i Hi ]; rewrite <- L; apply (R i row Hi)).
  assert (Fin01 : forall i row, nth_error (fr_u r) i = Some row -> forall v, In v row -> is_fin v = true).
  { intros i row Hi v Hv. destruct (R i row Hi) as (_ & B & _). destruct (B v Hv) as [ B1 B2 ]. destruct v; try discriminate; reflexivity. }
  assert (Row : forall px py, px < x -> py < y -> exists row, nth_error (fr_u r) (px * y + py) = Some row).
  { intros px py Hx Hy. destruct (nth_error (fr_u r) (px * y + py)) eqn:E; [ eauto | ]. apply nth_error_None in E. pose proof (flat_lt x y px py Hx Hy). lia. }
  split.
  - intros c Hc. destruct (mask_row (fr_u r) (length X) k x y c t Lc Rows Hxy Hc H0 H1) as (mask & u & E & Mk & W & T1 & T2 & T3 & S).
    exists mask. split; [ exact E | ]. intros Ht j0 px py Hj Hx Hy. destruct (Row px py Hx Hy) as [ row Er ].
    destruct (R _ row Er) as (_ & _ & _ & Md).
    apply (C158_medoid double u c t mask (Z.of_nat px) (Z.of_nat py) row j0 double_rounding Mk W); [ split; cbn; lia | apply S; assumption | exact Ht | | ].
    + rewrite T1, <- L. apply nth_error_Some. congruence.
    + intros j v Hv. apply (Md j0 j v Hj Hv).
  - intros px py Hx Hy. destruct (Row px py Hx Hy) as [ row Er ].
    destruct (mask_row (fr_u r) (length X) k x y 0 t Lc Rows Hxy ltac:(lia) H0 H1) as (mask0 & u & E0 & Mk0 & W & T1 & T2 & T3 & S).
    assert (G : in_grid (a3x u) (a3y u) (Z.of_nat px, Z.of_nat py)) by (split; cbn; lia).
    destruct (C158_some_cluster double u t (Z.of_nat px) (Z.of_nat py) row double_rounding W ltac:(lia) G H0 H1 (S px py row Hx Hy Er) (Fin01 _ row Er)) as (c & m1 & Mk & Mem & Max).
    pose proof Mk as Mk'. apply mk_fmask_ok in Mk'. destruct Mk' as (-> & Hc & _). rewrite T1 in Hc.
    destruct (mask_row (fr_u r) (length X) k x y c t Lc Rows Hxy Hc H0 H1) as (mask & u' & E & Mk' & W' & T1' & T2' & T3' & S').
    exists c, mask. split; [ exact Hc | ]. split; [ exact E | ].
    destruct (C158_member_iff double u c t (FMask u c t) (Z.of_nat px) (Z.of_nat py) row double_rounding Mk W G (S px py row Hx Hy Er) (Fin01 _ row Er)) as (uc & b & Euc & Eb & Ib).
    destruct (C158_member_iff double u' c t mask (Z.of_nat px) (Z.of_nat py) row double_rounding Mk' W' ltac:(split; cbn; lia) (S' px py row Hx Hy Er) (Fin01 _ row Er)) as (uc' & b' & Euc' & Eb' & Ib').
    rewrite Eb'. f_equal. apply Ib'. rewrite Euc in Euc'. injection Euc' as <-. apply Ib. rewrite Mem in Eb. injection Eb as <-. reflexivity.
Qed.
Print Assumptions C159_masks_after_search.

(** three samples in a row and one cluster: the hypotheses hold, and the search moves the medoid to the middle *)
Definition g_D : distance := DMatrix (mk2 3 3 (map Fin [0; 1; 4; 1; 0; 2; 4; 2; 0]%Q)).
(** sixteenths up to 16 are not changed by rounding *)
Definition keeps (rnd : Q -> fnum) : Prop := forall n q, (Z.abs n <= 256)%Z -> (q == n # 16)%Q -> feqv (rnd q) (Fin (n # 16)).
Lemma double_keeps : keeps double.
Proof.
  intros n q Hn E. assert (I : is_double q).
  { exists n, 1070%Z. split; [ eapply Z.le_lt_trans; [ exact Hn | reflexivity ] | ]. split; [ lia | ]. split.
    - apply Z.le_lt_trans with (256 * 2 ^ 1070)%Z; [ apply Z.mul_le_mono_nonneg_r; [ apply Z.pow_nonneg; lia | exact Hn ] | reflexivity ].
    - rewrite E. rewrite inject_Z_mult. unfold Qdiv. rewrite <- Qmult_assoc.
      assert (H : (inject_Z (2 ^ 1070) * / inject_Z (2 ^ 1074) == 1 # 16)%Q) by (vm_compute; reflexivity). rewrite H. unfold Qeq. cbn. lia. }
  pose proof (proj2 (C151_rounds_to_nearest q) I) as F. revert F. generalize (double q). intros v F. destruct v as [ | | | z ]; try contradiction. cbn in *. lra.
Qed.
Section Kept.
Variable rnd : Q -> fnum.
Hypothesis HK : keeps rnd.
Lemma k_add x y a b n : feqv x (Fin a) -> feqv y (Fin b) -> (Z.abs n <= 256)%Z -> (a + b == n # 16)%Q -> feqv (radd rnd x y) (Fin (n # 16)).
Proof using HK. intros Hx Hy Hn E. destruct x as [ | | | x ]; try contradiction. destruct y as [ | | | y ]; try contradiction. cbn in Hx, Hy. unfold radd. cbn [fadd rounded]. apply HK; [ exact Hn | ]. rewrite Hx, Hy. exact E. Qed.
Lemma k_sub x y a b n : feqv x (Fin a) -> feqv y (Fin b) -> (Z.abs n <= 256)%Z -> (a - b == n # 16)%Q -> feqv (rsub rnd x y) (Fin (n # 16)).
Proof using HK. intros Hx Hy Hn E. destruct x as [ | | | x ]; try contradiction. destruct y as [ | | | y ]; try contradiction. cbn in Hx, Hy. unfold rsub. cbn [fsub fopp fadd rounded]. apply HK; [ exact Hn | ]. rewrite Hx, Hy. exact E. Qed.
Lemma k_mul x y a b n : feqv x (Fin a) -> feqv y (Fin b) -> (Z.abs n <= 256)%Z -> (a * b == n # 16)%Q -> feqv (rmul rnd x y) (Fin (n # 16)).
Proof using HK. intros Hx Hy Hn E. destruct x as [ | | | x ]; try contradiction. destruct y as [ | | | y ]; try contradiction. cbn in Hx, Hy. unfold rmul. cbn [fmul rounded]. apply HK; [ exact Hn | ]. rewrite Hx, Hy. exact E. Qed.
Lemma k_div x y a b n : feqv x (Fin a) -> feqv y (Fin b) -> ~ (b == 0)%Q -> (Z.abs n <= 256)%Z -> (a / b == n # 16)%Q -> feqv (rdiv rnd x y) (Fin (n # 16)).
Proof using HK.
  intros Hx Hy H0 Hn E. destruct x as [ | | | x ]; try contradiction. destruct y as [ | | | y ]; try contradiction. cbn in Hx, Hy. unfold rdiv. cbn [fdiv].
  destruct (Qeq_bool y 0) eqn:B; [ apply Qeq_bool_iff in B; exfalso; apply H0; rewrite <- Hy; exact B | ]. cbn [rounded]. apply HK; [ exact Hn | ]. rewrite Hx, Hy. exact E.
Qed.
(** the membership of a sample at distance d of the only medoid is 1 *)
Lemma k_member (d : Z) : In d [1; 2; 4]%Z -> feqv (rdiv rnd (rdiv rnd (Fin 1) (Fin (inject_Z d))) (radd rnd (Fin 0) (rdiv rnd (Fin 1) (Fin (inject_Z d))))) (Fin (16 # 16)).
Proof using HK.
  intros Hd. assert (Hn : exists n, (Z.abs n <= 256)%Z /\ (0 < n)%Z /\ (1 / inject_Z d == n # 16)%Q /\ ~ (inject_Z d == 0)%Q).
  { destruct Hd as [ <- | [ <- | [ <- | [] ] ] ]; [ exists 16%Z | exists 8%Z | exists 4%Z ]; repeat split; try lia; vm_compute; discriminate. }
  destruct Hn as (n & Hn & Pn & E & N0). pose proof (k_div (Fin 1) (Fin (inject_Z d)) 1 (inject_Z d) n (feqv_refl _) (feqv_refl _) N0 Hn E) as Q1.
  assert (N16 : ~ (n # 16 == 0)%Q) by (unfold Qeq; cbn; lia).
  apply (k_div _ _ (n # 16) (n # 16)); [ exact Q1 | | exact N16 | lia | field; exact N16 ].
  apply (k_add _ _ 0 (n # 16)); [ apply feqv_refl | exact Q1 | exact Hn | ring ].
Qed.
Lemma k_cost (p0 p1 p2 : fnum) (d0 d1 d2 : Z) : feqv p0 (Fin (16 # 16)) -> feqv p1 (Fin (16 # 16)) -> feqv p2 (Fin (16 # 16)) ->
  (0 <= d0 <= 4)%Z -> (0 <= d1 <= 4)%Z -> (0 <= d2 <= 4)%Z ->
  feqv (radd rnd (radd rnd (rmul rnd p0 (Fin (inject_Z d0))) (rmul rnd p1 (Fin (inject_Z d1)))) (rmul rnd p2 (Fin (inject_Z d2)))) (Fin (16 * (d0 + d1 + d2) # 16)).
Proof using HK.
  intros H0 H1 H2 B0 B1 B2.
  assert (M : forall p d, feqv p (Fin (16 # 16)) -> (0 <= d <= 4)%Z -> feqv (rmul rnd p (Fin (inject_Z d))) (Fin (16 * d # 16))).
  { intros p d Hp Hd. apply (k_mul _ _ (16 # 16) (inject_Z d)); [ exact Hp | apply feqv_refl | lia | unfold Qeq; cbn; lia ]. }
  apply (k_add _ _ (16 * (d0 + d1) # 16) (16 * d2 # 16)); [ | apply M; assumption | lia | unfold Qeq; cbn [Qnum Qden Qplus]; lia ].
  apply (k_add _ _ (16 * d0 # 16) (16 * d1 # 16)); [ apply M; assumption | apply M; assumption | lia | unfold Qeq; cbn [Qnum Qden Qplus]; lia ].
Qed.
Lemma k_swap : rounded_swap rnd (sum_by rnd one_by_one) f_power f_X g_D 2 (Fin (1 # 1000)) [0]%Z 0 1.
Proof using HK.
  exists [], 0%Z, []. split; [ reflexivity | ]. split; [ reflexivity | ]. split; [ cbn; lia | ]. split; [ intros [ E | [] ]; discriminate | ]. cbn [app].
  assert (T0 : feqv (computed_total rnd (sum_by rnd one_by_one) f_power f_X g_D 2 [0]%Z) (Fin (16 * (0 + 1 + 4) # 16))).
  { apply (k_cost (Fin 1) _ _ 0 1 4); [ cbn; reflexivity | apply (k_member 1); cbn; tauto | apply (k_member 4); cbn; tauto | lia .. ]. }
  assert (T1 : feqv (computed_total rnd (sum_by rnd one_by_one) f_power f_X g_D 2 [Z.of_nat 1]) (Fin (16 * (1 + 0 + 2) # 16))).
  { apply (k_cost _ (Fin 1) _ 1 0 2); [ apply (k_member 1); cbn; tauto | cbn; reflexivity | apply (k_member 2); cbn; tauto | lia .. ]. }
  pose proof (k_sub _ _ _ _ 32 T0 T1 ltac:(lia) ltac:(reflexivity)) as S. destruct (rsub rnd _ _) as [ | | | z ]; try contradiction. cbn [feqv] in S. apply flt_Fin. lra.
Qed.
End Kept.

Lemma g_power (d : Z) v : In d [1; 2; 4]%Z -> v = rdiv double (Fin 1) (Fin (inject_Z d)) -> exists p, v = Fin p /\ is_double p /\ (1 # 4 <= p)%Q /\ (p <= 1)%Q.
Proof.
  intros Hd ->. assert (N0 : Qeq_bool (inject_Z d) 0 = false) by (destruct Hd as [ <- | [ <- | [ <- | [] ] ] ]; reflexivity).
  assert (Hn : exists n, (Z.abs n <= 256)%Z /\ (1 / inject_Z d == n # 16)%Q /\ (1 # 4 <= n # 16)%Q /\ (n # 16 <= 1)%Q).
  { destruct Hd as [ <- | [ <- | [ <- | [] ] ] ]; [ exists 16%Z | exists 8%Z | exists 4%Z ]; repeat split; try lia; vm_compute; discriminate. }
  destruct Hn as (n & Hn & E & B1 & B2). pose proof (double_keeps n _ Hn E) as F. unfold rdiv. cbn [fdiv]. rewrite N0. cbn [rounded].
  pose proof (fun v => proj1 (C151_rounds_to_nearest (1 / inject_Z d)%Q) v) as G. revert F G. generalize (double (1 / inject_Z d)%Q). intros w F G.
  destruct w as [ | | | p ]; try contradiction. cbn [feqv] in F. exists p. split; [ reflexivity | ]. split; [ apply (G p eq_refl) | ]. split; lra.
Qed.
Lemma g_ordinary : ordinary_powers f_power f_X g_D 2 1.
Proof.
  intros [ | a [ | ] ] V _ L; try discriminate. specialize (V a (or_introl eq_refl)). cbn in V.
  assert (Ca : (a = 0 \/ a = 1 \/ a = 2)%Z) by lia. clear V L.
  assert (P : forall i, i < 3 -> a <> Z.of_nat i -> exists d, In d [1; 2; 4]%Z /\ computed_power double f_power f_X g_D 2 [a] i 0 = rdiv double (Fin 1) (Fin (inject_Z d))).
  { intros i Hi Hn. assert (Ci : i = 0 \/ i = 1 \/ i = 2) by lia. clear Hi.
    destruct Ca as [ -> | [ -> | -> ] ], Ci as [ -> | [ -> | -> ] ]; try lia.
    - exists 1%Z. split; [ cbn; tauto | reflexivity ].
    - exists 4%Z. split; [ cbn; tauto | reflexivity ].
    - exists 1%Z. split; [ cbn; tauto | reflexivity ].
    - exists 2%Z. split; [ cbn; tauto | reflexivity ].
    - exists 4%Z. split; [ cbn; tauto | reflexivity ].
    - exists 2%Z. split; [ cbn; tauto | reflexivity ]. }
  split; [ | split ].
  - intros i j Hi Hj Hn. assert (j = 0) as -> by lia. cbn [nth] in Hn. destruct (P i Hi Hn) as (d & Hd & E). destruct (g_power d _ Hd E) as (p & Ep & Dp & B & _).
    exists p. split; [ exact Ep | ]. split; [ exact Dp | ]. eapply Qle_trans; [ | exact B ]. vm_compute. discriminate.
  - intros i j Hi Hj Hn. assert (j = 0) as -> by lia. cbn [nth] in Hn. destruct Ca as [ -> | [ -> | -> ] ].
    + assert (i = 0) as -> by lia. reflexivity.
    + assert (i = 1) as -> by lia. reflexivity.
    + assert (i = 2) as -> by lia. reflexivity.
  - intros i Hi Hn. destruct (P i Hi ltac:(intros E; apply Hn; left; exact E)) as (d & Hd & E). destruct (g_power d _ Hd E) as (p & Ep & _ & B1 & B2).
    unfold computed_sum. cbn [length seq map fold_left]. rewrite Ep. unfold radd. cbn [fadd rounded]. apply (float_small_finite 53 1074 1024); [ lia .. | ].
    apply Qabs_Qle_condition. split; lra.
Qed.
Example C159_ex : ordinary_powers f_power f_X g_D 2 1 /\ starts_from (fun _ _ => Raise ValueError) f_X 1 (Some [0]%Z) [0]%Z /\
  exists r, run_kmedoids_fuzzy_r double (sum_by double one_by_one) f_power (fun _ _ => Raise ValueError) f_X 1 2 g_D (Some [0]%Z) 10 (Fin (1 # 1000)) = Ok r.
Proof.
  assert (S : starts_from (fun _ _ => Raise ValueError) f_X 1 (Some [0]%Z) [0]%Z).
  { split; [ reflexivity | ]. split; [ reflexivity | ]. split; [ lia | ]. intros z [ <- | [] ]. cbn. lia. }
  assert (HI : instance f_X g_D) by (cbn; repeat split). assert (Hm : ~ (2 == 1)%Q) by (vm_compute; discriminate).
  assert (Nd : NoDup [0]%Z) by (constructor; [ intros [] | constructor ]).
  split; [ exact g_ordinary | ]. split; [ exact S | ].
  destruct (C157_double one_by_one 1 1 f_power (fun _ _ => Raise ValueError) f_X 2 g_D (Some [0]%Z) 10 1 [0]%Z (one_by_one_summation 1) ltac:(lia) ltac:(vm_compute; discriminate) HI Hm S Nd g_ordinary) as [ SC _ ].
  apply (C157_returns double (sum_by double one_by_one) f_power (fun _ _ => Raise ValueError) f_X 2 g_D (Fin (1 # 1000)) (Some [0]%Z) 10 1 [0]%Z double_rounding HI Hm eq_refl S Nd SC).
  exists 0, 1. apply k_swap. exact double_keeps.
Qed.
