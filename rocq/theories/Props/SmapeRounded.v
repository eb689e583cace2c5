(** C162: the forecast error sMAPE in floating point. *)
From Coq Require Import Lia Lqa QArith Qabs Permutation.
From Verif Require Import Base.Py Base.PyFacts Base.Float Base.FloatFacts Model.Errors Model.Rounded Model.RoundedErrors Model.ForecastErrorsRounded
  Spec.Rounded Spec.Ieee Spec.KMedoidsRounded Proofs.RoundedFacts Proofs.KMedoidsFacts Proofs.SummationFacts Proofs.IeeeFacts Props.Ieee Props.KMedoidsRounded.
From Coq Require Import ZifyBool ZifyNat.
Local Close Scope Q_scope.
Local Open Scope nat_scope.

(** a positive sample that is a float itself, as is its opposite *)
Definition positive_sample (rnd : Q -> fnum) (v : fnum) : Prop :=
  exists q, v = Fin q /\ (0 < q)%Q /\ feqv (rnd q) (Fin q) /\ feqv (rnd (- q)%Q) (Fin (- q)%Q).
Definition within (b : Q) (v : fnum) : Prop := exists q, v = Fin q /\ (0 <= q <= b)%Q.

Section Smape.
Variable rnd : Q -> fnum.
Hypothesis HR : rounding rnd.

Lemma rnd_within q b : (0 <= q <= b)%Q -> feqv (rnd b) (Fin b) -> within b (rnd q).
Proof using HR.
  intros [ Hq Hb ] F. pose proof (rnd_nonneg rnd HR q Hq) as P. pose proof (rnd_mono rnd HR q b Hb) as M.
  destruct (rnd b) as [ | | | b' ]; try contradiction. destruct (rnd q) as [ | | | q' ]; try discriminate. cbn in F. apply fle_Fin in P, M. exists q'. split; [ reflexivity | lra ].
Qed.
Lemma one_point f o : positive_sample rnd f -> positive_sample rnd o -> feqv (rnd 200%Q) (Fin 200) ->
  within 200 (rmul rnd (Fin 200) (rdiv rnd (fabs (rsub rnd f o)) (radd rnd f o))).
Proof using HR.
  intros (x & -> & Px & Kx & Kx') (y & -> & Py & Ky & Ky') K.
  assert (D : exists d, rsub rnd (Fin x) (Fin y) = Fin d /\ (Qabs d <= x \/ Qabs d <= y)%Q).
  { unfold rsub, fsub. cbn [fopp fadd rounded].
    pose proof (rnd_mono rnd HR (x + - y)%Q x ltac:(lra)) as M1. pose proof (rnd_mono rnd HR (- y)%Q (x + - y)%Q ltac:(lra)) as M2.
    destruct (rnd x) as [ | | | x' ]; try contradiction. destruct (rnd (- y)%Q) as [ | | | y' ]; try contradiction. cbn in Kx, Ky'.
    pose proof (rnd_zero rnd HR 0%Q ltac:(lra)) as Z. destruct (Qlt_le_dec x y) as [ L | L ].
    - pose proof (rnd_mono rnd HR (x + - y)%Q 0%Q ltac:(lra)) as M3. destruct (rnd 0%Q) as [ | | | z ]; try contradiction. cbn in Z.
      destruct (rnd (x + - y)%Q) as [ | | | d ]; try discriminate. apply fle_Fin in M1, M2, M3. exists d. split; [ reflexivity | right ]. apply Qabs_Qle_condition. lra.
    - pose proof (rnd_mono rnd HR 0%Q (x + - y)%Q ltac:(lra)) as M3. destruct (rnd 0%Q) as [ | | | z ]; try contradiction. cbn in Z.
      destruct (rnd (x + - y)%Q) as [ | | | d ]; try discriminate. apply fle_Fin in M1, M2, M3. exists d. split; [ reflexivity | left ]. apply Qabs_Qle_condition. lra. }
  destruct D as (d & -> & Hd). cbn [fabs].
  assert (S : radd rnd (Fin x) (Fin y) = PInf \/ exists s, radd rnd (Fin x) (Fin y) = Fin s /\ (x <= s)%Q /\ (y <= s)%Q).
  { unfold radd. cbn [fadd rounded]. pose proof (rnd_mono rnd HR x (x + y)%Q ltac:(lra)) as M1. pose proof (rnd_mono rnd HR y (x + y)%Q ltac:(lra)) as M2.
    destruct (rnd x) as [ | | | x' ]; try contradiction. destruct (rnd y) as [ | | | y' ]; try contradiction. cbn in Kx, Ky.
    destruct (rnd (x + y)%Q) as [ | | | s ]; try discriminate; [ left; reflexivity | right ]. apply fle_Fin in M1, M2. exists s. split; [ reflexivity | split; lra ]. }
  assert (Q1 : within 1 (rdiv rnd (Fin (Qabs d)) (radd rnd (Fin x) (Fin y)))).
  { unfold rdiv. destruct S as [ -> | (s & -> & S1 & S2) ]; cbn [fdiv].
    - cbn [rounded]. apply rnd_within; [ lra | apply HR ].
    - destruct (Qeq_bool s 0) eqn:E; [ apply Qeq_bool_iff in E; lra | ]. cbn [rounded]. apply rnd_within; [ | apply HR ]. pose proof (Qabs_nonneg d).
      split; [ apply Qle_shift_div_l; lra | ]. apply Qle_shift_div_r; [ lra | ]. destruct Hd; lra. }
  destruct Q1 as (q & -> & B). unfold rmul. cbn [fmul rounded]. apply rnd_within; [ lra | exact K ].
Qed.
Lemma sum_within b n l : (forall k, k <= n -> feqv (rnd (b * inject_Z (Z.of_nat k))%Q) (Fin (b * inject_Z (Z.of_nat k)))) -> (0 <= b)%Q ->
  forall o, (forall i, In i (positions o) -> within b (nth i l (Fin 0))) -> length (positions o) <= n ->
  within (b * inject_Z (Z.of_nat (length (positions o)))) (sum_in rnd o l).
Proof using HR.
  intros K Hb. induction o as [ | i | o1 IH1 o2 IH2 ]; intros Hi Hn; cbn [positions sum_in] in *.
  - exists 0%Q. split; [ reflexivity | ]. change (inject_Z (Z.of_nat (length (@nil nat)))) with 0%Q. lra.
  - destruct (Hi i (or_introl eq_refl)) as (q & -> & B). exists q. split; [ reflexivity | ]. change (inject_Z (Z.of_nat (length [i]))) with 1%Q. lra.
  - rewrite app_length in *. destruct IH1 as (q1 & -> & B1); [ intros; apply Hi, in_or_app; auto | lia | ]. destruct IH2 as (q2 & -> & B2); [ intros; apply Hi, in_or_app; auto | lia | ].
    unfold radd. cbn [fadd rounded]. apply rnd_within; [ | apply K, Hn ]. rewrite Nat2Z.inj_add, inject_Z_plus. lra.
Qed.
Lemma smape_form ord f o t : length f = length o ->
  smape_r rnd ord f o t = Ok (mean_r rnd (ord (length f)) (map (fun '(x, y) => rmul rnd (Fin 200) (rdiv rnd (fabs (rsub rnd x y)) (radd rnd x y))) (combine f o))).
Proof using.
  clear. intros L. unfold smape_r, np_zip. rewrite L, Nat.eqb_refl. cbn [bind]. rewrite !map_length, !combine_length, L, Nat.min_id, Nat.eqb_refl. cbn [bind].
  rewrite !map_length, !combine_length, !map_length, !combine_length, L, !Nat.min_id. do 2 f_equal. clear L.
  revert o. induction f as [ | x f IH ]; intros [ | y o ]; try reflexivity. cbn [combine map]. f_equal. apply IH.
Qed.
Lemma mean_within b ord l : (forall k, k <= length l -> feqv (rnd (b * inject_Z (Z.of_nat k))%Q) (Fin (b * inject_Z (Z.of_nat k)))) -> (0 <= b)%Q ->
  Permutation (positions (ord (length l))) (seq 0 (length l)) -> l <> [] -> (forall v, In v l -> within b v) -> within b (mean_r rnd (ord (length l)) l).
Proof using HR.
  intros K Hb Hp Hne Hl. unfold mean_r. pose proof (Permutation_length Hp) as Lp. rewrite seq_length in Lp.
  assert (N1 : (0 < inject_Z (Z.of_nat (length l)))%Q) by (change 0%Q with (inject_Z 0); rewrite <- Zlt_Qlt; destruct l; [ congruence | cbn; lia ]).
  destruct (sum_within b (length l) l K Hb (ord (length l))) as (s & -> & B).
  - intros i Hin. apply (Permutation_in _ Hp) in Hin. apply in_seq in Hin. apply Hl, nth_In. lia.
  - lia.
  - rewrite Lp in B. unfold rdiv, fof_nat. cbn [fdiv]. destruct (Qeq_bool _ 0) eqn:E; [ apply Qeq_bool_iff in E; lra | ]. cbn [rounded].
    apply rnd_within; [ split; [ apply Qle_shift_div_l; lra | apply Qle_shift_div_r; lra ] | ].
    assert (Kb : feqv (rnd (b * inject_Z (Z.of_nat 1))%Q) (Fin (b * inject_Z (Z.of_nat 1)))) by (apply K; destruct l; [ congruence | cbn; lia ]).
    eapply feqv_trans; [ apply (rnd_eq rnd HR b (b * inject_Z (Z.of_nat 1))%Q) | eapply feqv_trans; [ exact Kb | ] ]; cbn [feqv]; change (inject_Z (Z.of_nat 1)) with 1%Q; lra.
Qed.
End Smape.

(** For positive samples that are floats, sMAPE is between 0 and 200 however results are rounded and in whichever order they are added,
    if 200, 400, ..., 200 n are floats; it is 0 for a perfect forecast. *)
Theorem C162_smape_bounds : forall rnd ord forecast observation training,
  rounding rnd -> length forecast = length observation -> forecast <> [] ->
  (forall v, In v forecast \/ In v observation -> positive_sample rnd v) ->
  (forall k, k <= length forecast -> feqv (rnd (200 * inject_Z (Z.of_nat k))%Q) (Fin (200 * inject_Z (Z.of_nat k)))) ->
  Permutation (positions (ord (length forecast))) (seq 0 (length forecast)) ->
  exists v, smape_r rnd ord forecast observation training = Ok (Fin v) /\ (0 <= v <= 200)%Q /\
    (forecast = observation -> (v == 0)%Q).
Proof.
  intros rnd ord f o t HR L Hne Hs K Hp. rewrite (smape_form rnd ord f o t L). set (l := map _ (combine f o)).
  assert (Ll : length l = length f) by (unfold l; rewrite map_length, combine_length; lia).
  assert (Hl : l <> []) by (intros E; rewrite E in Ll; destruct f; [ congruence | discriminate ]).
  assert (K200 : feqv (rnd 200%Q) (Fin 200)).
  { eapply feqv_trans; [ apply (rnd_eq rnd HR 200 (200 * inject_Z (Z.of_nat 1))%Q) | eapply feqv_trans; [ apply (K 1); destruct f; [ congruence | cbn; lia ] | ] ]; vm_compute; reflexivity. }
  assert (W : within 200 (mean_r rnd (ord (length f)) l)).
  { rewrite <- Ll. apply mean_within; try rewrite Ll; auto; [ lra | ]. intros v Hv. unfold l in Hv. apply in_map_iff in Hv. destruct Hv as ([ x y ] & <- & Hin).
    apply one_point; [ exact HR | apply Hs; left; eapply in_combine_l; exact Hin | apply Hs; right; eapply in_combine_r; exact Hin | exact K200 ]. }
  destruct W as (v & E & B). exists v. rewrite E. split; [ reflexivity | ]. split; [ exact B | ]. intros <-.
  assert (W0 : within 0 (mean_r rnd (ord (length f)) l)).
  { rewrite <- Ll. apply mean_within; try rewrite Ll; auto; [ | lra | ].
    - intros k _. eapply feqv_trans; [ apply (rnd_zero rnd HR); lra | cbn; lra ].
    - intros w Hw. unfold l in Hw. apply in_map_iff in Hw. destruct Hw as ([ x y ] & <- & Hin).
      assert (y = x) as ->. { clear - Hin. revert Hin. induction f as [ | z f IH ]; cbn; [ intros [] | ]. intros [ E | H ]; [ congruence | apply IH, H ]. }
      destruct (Hs x (or_introl (in_combine_l _ _ _ _ Hin))) as (q & -> & Pq & Kq & _).
      unfold rsub, fsub. cbn [fopp fadd rounded]. pose proof (rnd_zero rnd HR (q + - q)%Q ltac:(lra)) as Z. destruct (rnd (q + - q)%Q) as [ | | | d ]; try contradiction. cbn in Z. cbn [fabs].
      assert (D0 : (Qabs d == 0)%Q) by (rewrite Z; reflexivity).
      assert (Q0 : exists r, rdiv rnd (Fin (Qabs d)) (radd rnd (Fin q) (Fin q)) = Fin r /\ (r == 0)%Q).
      { unfold rdiv, radd. cbn [fadd rounded]. pose proof (rnd_mono rnd HR q (q + q)%Q ltac:(lra)) as M. destruct (rnd q) as [ | | | q' ]; try contradiction. cbn in Kq.
        destruct (rnd (q + q)%Q) as [ | | | s ]; try discriminate; cbn [fdiv].
        - cbn [rounded]. pose proof (rnd_zero rnd HR 0%Q ltac:(lra)) as Z0. destruct (rnd 0%Q); try contradiction. eauto.
        - apply fle_Fin in M. destruct (Qeq_bool s 0) eqn:E0; [ apply Qeq_bool_iff in E0; lra | ]. cbn [rounded].
          pose proof (rnd_zero rnd HR (Qabs d / s)%Q ltac:(rewrite D0; field; lra)) as Z0. destruct (rnd (Qabs d / s)%Q); try contradiction. eauto. }
      destruct Q0 as (r & -> & Hr0). unfold rmul. cbn [fmul rounded]. pose proof (rnd_zero rnd HR (200 * r)%Q ltac:(lra)) as Z0. destruct (rnd (200 * r)%Q) as [ | | | w ]; try contradiction.
      cbn in Z0. exists w. split; [ reflexivity | lra ]. }
  destruct W0 as (v0 & E0 & B0). rewrite E in E0. injection E0 as <-. lra.
Qed.
Print Assumptions C162_smape_bounds.

Lemma double_opp q : is_double q -> is_double (- q)%Q.
Proof. intros (m & e & H1 & H2 & H3 & E). exists (- m)%Z, e. rewrite Z.abs_opp. repeat split; try assumption. rewrite E, Z.mul_opp_l, inject_Z_opp. unfold Qdiv. ring. Qed.
Lemma double_int z : (Z.abs z < 2 ^ 53)%Z -> is_double (inject_Z z).
Proof.
  intros H. exists z, 1074%Z. split; [ exact H | ]. split; [ lia | ]. split.
  - change (2 ^ (1024 + 1074))%Z with (2 ^ (1024 + 1074))%Z. rewrite (Z.pow_add_r 2 1024 1074) by lia. apply Z.mul_lt_mono_pos_r; [ apply Z.pow_pos_nonneg; lia | ].
    eapply Z.lt_trans; [ exact H | apply Z.pow_lt_mono_r; lia ].
  - rewrite inject_Z_mult. field. intros E. change 0%Q with (inject_Z 0) in E. apply (proj1 (inject_Z_injective _ _)) in E. pose proof (Z.pow_pos_nonneg 2 1074). lia.
Qed.

(** In double precision: sMAPE of series of positive doubles of at most 2^45 samples is between 0 and 200, and 0 for a perfect forecast. *)
Theorem C162_smape_bounds_double : forall ord forecast observation training,
  length forecast = length observation -> forecast <> [] -> (Z.of_nat (length forecast) <= 2 ^ 45)%Z ->
  (forall v, In v forecast \/ In v observation -> exists q, v = Fin q /\ (0 < q)%Q /\ is_double q) ->
  Permutation (positions (ord (length forecast))) (seq 0 (length forecast)) ->
  exists v, smape_r double ord forecast observation training = Ok (Fin v) /\ (0 <= v <= 200)%Q /\
    (forecast = observation -> (v == 0)%Q).
Proof.
  intros ord f o t L Hne Hn Hs Hp. apply C162_smape_bounds; try assumption.
  - exact double_rounding.
  - intros v Hv. destruct (Hs v Hv) as (q & -> & P & D). exists q. split; [ reflexivity | ]. split; [ exact P | ].
    split; apply float_exact; try lia; [ exact D | apply double_opp, D ].
  - intros k Hk. apply float_exact; try lia.
    change 200%Q with (inject_Z 200). rewrite <- inject_Z_mult. apply double_int. rewrite Z.abs_eq by lia. change (2 ^ 53)%Z with (256 * 2 ^ 45)%Z. lia.
Qed.
Print Assumptions C162_smape_bounds_double.

Example C162_ex : (forall v, In v [Fin 3; Fin 5] \/ In v [Fin 4; Fin 1] -> exists q, v = Fin q /\ (0 < q)%Q /\ is_double q) /\
  Permutation (positions (Plus (At 0) (At 1))) (seq 0 2) /\
  exists v, smape_r (float_round 12 12 12) (fun _ => Plus (At 0) (At 1)) [Fin 3; Fin 5] [Fin 4; Fin 1] None = Ok (Fin v) /\ (80 < v < 81)%Q.
Proof.
  split.
  - intros v H. assert (I : forall z, (0 < z < 2 ^ 53)%Z -> exists q, Fin (inject_Z z) = Fin q /\ (0 < q)%Q /\ is_double q).
    { intros z Hz. exists (inject_Z z). split; [ reflexivity | ]. split; [ change 0%Q with (inject_Z 0); rewrite <- Zlt_Qlt; lia | apply double_int; lia ]. }
    destruct H as [ [ <- | [ <- | [] ] ] | [ <- | [ <- | [] ] ] ]; [ apply (I 3%Z) | apply (I 5%Z) | apply (I 4%Z) | apply (I 1%Z) ]; lia.
  - split; [ apply Permutation_refl | ]. eexists. split; [ vm_compute; reflexivity | ]. split; vm_compute; reflexivity.
Qed.

(** Without positive samples the upper bound fails: a forecast of 3 for an observation of -1 has sMAPE 400. *)
Theorem C162_any_sign_refuted : exists ord forecast observation, length forecast = length observation /\ forecast <> [] /\
  Permutation (positions (ord (length forecast))) (seq 0 (length forecast)) /\
  exists v, smape_r (float_round 12 12 12) ord forecast observation None = Ok (Fin v) /\ (v == 400)%Q.
Proof.
  exists (fun _ => At 0), [Fin 3], [Fin (-1)%Q]. split; [ reflexivity | ]. split; [ discriminate | ]. split; [ apply Permutation_refl | ].
  eexists. split; [ vm_compute; reflexivity | vm_compute; reflexivity ].
Qed.
Print Assumptions C162_any_sign_refuted.

Lemma sum_exactly ql : forall o, exists s, sum_in Fin o (map Fin ql) = Fin s /\ (s == qsum (map (fun i => nth i ql 0%Q) (positions o)))%Q.
Proof.
  induction o as [ | i | o1 (s1 & E1 & H1) o2 (s2 & E2 & H2) ]; cbn [positions sum_in].
  - exists 0%Q. split; reflexivity.
  - exists (nth i ql 0%Q). split; [ exact (map_nth Fin ql 0%Q i) | cbn [map qsum]; lra ].
  - exists (s1 + s2)%Q. rewrite E1, E2. split; [ reflexivity | ]. rewrite map_app, qsum_app. lra.
Qed.
(** Without rounding the result is the mean of 200 |f - o| / (f + o), in whichever order it is added. *)
Theorem C162_smape_value : forall ord fs os training,
  length fs = length os -> fs <> [] -> (forall q, In q fs \/ In q os -> (0 < q)%Q) ->
  Permutation (positions (ord (length fs))) (seq 0 (length fs)) ->
  exists v, smape_r Fin ord (map Fin fs) (map Fin os) training = Ok (Fin v) /\
    (v == qsum (map (fun '(x, y) => 200 * (Qabs (x - y) / (x + y))) (combine fs os)) / inject_Z (Z.of_nat (length fs)))%Q.
Proof.
  intros ord fs os t L Hne Hpos Hp. rewrite smape_form by (rewrite !map_length; exact L). rewrite map_length.
  set (ql := map (fun '(x, y) => 200 * (Qabs (x - y) / (x + y)))%Q (combine fs os)).
  assert (Lq : length ql = length fs) by (unfold ql; rewrite map_length, combine_length; lia).
  assert (E : map (fun '(x, y) => rmul Fin (Fin 200) (rdiv Fin (fabs (rsub Fin x y)) (radd Fin x y))) (combine (map Fin fs) (map Fin os)) = map Fin ql).
  { unfold ql. clear - Hpos. revert os Hpos. induction fs as [ | x fs IH ]; intros [ | y os ] Hpos; try reflexivity. cbn [map combine]. f_equal.
    - unfold rmul, rdiv, rsub, radd, fsub. cbn [fopp fadd fabs rounded fdiv]. assert (0 < x)%Q by (apply Hpos; left; left; reflexivity). assert (0 < y)%Q by (apply Hpos; right; left; reflexivity).
      destruct (Qeq_bool (x + y) 0) eqn:E0; [ apply Qeq_bool_iff in E0; lra | ]. reflexivity.
    - apply IH. intros q [ H | H ]; apply Hpos; [ left | right ]; right; exact H. }
  rewrite E. unfold mean_r. rewrite map_length, Lq. destruct (sum_exactly ql (ord (length fs))) as (s & -> & Hs).
  assert (N1 : (0 < inject_Z (Z.of_nat (length fs)))%Q) by (change 0%Q with (inject_Z 0); rewrite <- Zlt_Qlt; destruct fs; [ congruence | cbn; lia ]).
  unfold rdiv, fof_nat. cbn [fdiv]. destruct (Qeq_bool _ 0) eqn:E0; [ apply Qeq_bool_iff in E0; lra | ]. cbn [rounded]. eexists. split; [ reflexivity | ].
  rewrite Hs, (qsum_perm _ _ (Permutation_map (fun i => nth i ql 0%Q) Hp)), <- Lq, <- (map_nth_seq (fun v => v) ql 0%Q), map_id. reflexivity.
Qed.
Print Assumptions C162_smape_value.
Example C162_value_ex : forall q, In q [3; 5]%Q \/ In q [4; 1]%Q -> (0 < q)%Q.
Proof. intros q [ [ <- | [ <- | [] ] ] | [ <- | [ <- | [] ] ] ]; reflexivity. Qed.
