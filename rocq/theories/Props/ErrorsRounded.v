(** C161: how far the overall error in floating point is from the exact one. *)
From Coq Require Import Lia Lqa QArith Qabs Permutation.
From Verif Require Import Base.Py Base.PyFacts Base.Arr Base.Float Base.FloatFacts Model.KMedoids Model.Rounded Model.RoundedErrors Model.KMedoidsRounded
  Spec.Medoids Spec.Rounded Spec.Ieee Spec.KMedoidsRounded Proofs.KMedoidsFacts Proofs.RoundedFacts Proofs.IeeeFacts Proofs.SummationFacts Props.Ieee Props.KMedoidsRounded.
From Coq Require Import ZifyBool ZifyNat.
Local Close Scope Q_scope.
Local Open Scope nat_scope.

(** the errors that are not missing *)
Definition known (errors : list fnum) : list Q := flat_map (fun v => match v with Fin q => [q] | _ => [] end) errors.
(** the exact mean of their squares *)
Definition exact_mean_squared (errors : list fnum) : Q := (qsum (map (fun q => q * q) (known errors)) / inject_Z (Z.of_nat (length (known errors))))%Q.

Section Mean.
Variables (u e : Q) (rnd : Q -> fnum).
Hypothesis Hu : (0 <= u <= 1)%Q.
Hypothesis He : (0 <= e)%Q.
Hypothesis HR : rounding rnd.
Hypothesis HA : accurate u e rnd.

Lemma near_nonneg q : (0 <= q)%Q -> rnd q = PInf \/ exists r, rnd q = Fin r /\ (0 <= r)%Q /\ ((1 - u) * q - e <= r <= (1 + u) * q + e)%Q.
Proof using HR HA.
  intros Pq. pose proof (rnd_nonneg rnd HR q Pq) as P. destruct (HA q) as [ I | (r & E & B) ].
  - left. destruct (rnd q); cbn in I, P; try discriminate. reflexivity.
  - right. exists r. rewrite E in *. apply fle_Fin in P. split; [ reflexivity | ]. split; [ exact P | ].
    rewrite (Qabs_pos q) in B by lra. apply Qabs_Qle_condition in B. lra.
Qed.
Lemma square_nonneg (q : Q) : (0 <= q * q)%Q.
Proof using. clear. nra. Qed.
Lemma squares_near : forall errors ql, (forall v, In v errors -> is_inf v = false) ->
  map (fun v => if is_nan v then Fin 0 else v) (squared_r rnd errors) = map Fin ql ->
  ((1 - u) * qsum (map (fun q => q * q) (known errors)) - e * inject_Z (Z.of_nat (length (known errors))) <= qsum ql)%Q /\
  (qsum ql <= (1 + u) * qsum (map (fun q => q * q) (known errors)) + e * inject_Z (Z.of_nat (length (known errors))))%Q.
Proof using Hu He HR HA.
  induction errors as [ | v errors IH ]; intros [ | q ql ] Hi E; try discriminate.
  - cbn [known flat_map map qsum length]. change (inject_Z (Z.of_nat 0)) with 0%Q. split; lra.
  - cbn [squared_r map] in E. injection E as E1 E2. specialize (IH ql (fun w Hw => Hi w (or_intror Hw)) E2). specialize (Hi v (or_introl eq_refl)).
    destruct v as [ | | | x ]; try discriminate.
    + cbn in E1. injection E1 as <-. cbn [known flat_map app qsum]. fold (known errors). lra.
    + cbn [known flat_map app]. fold (known errors). cbn [map qsum length]. unfold rmul in E1. cbn [fmul rounded] in E1.
      destruct (near_nonneg _ (square_nonneg x)) as [ E | (r & E & P & B) ]; rewrite E in E1; cbn in E1; [ discriminate | ]. injection E1 as <-.
      replace (Z.of_nat (S (length (known errors)))) with (1 + Z.of_nat (length (known errors)))%Z by lia. rewrite inject_Z_plus. change (inject_Z 1) with 1%Q.
      revert IH B. generalize (x * x)%Q, (qsum (map (fun q => q * q)%Q (known errors))), (inject_Z (Z.of_nat (length (known errors)))), (qsum ql). intros. lra.
Qed.
Lemma count_known errors : (forall v, In v errors -> is_inf v = false) ->
  length (filter (fun v => negb (is_nan v)) (squared_r rnd errors)) = length (known errors).
Proof using HR.
  induction errors as [ | v errors IH ]; intros Hi; [ reflexivity | ]. specialize (IH (fun w Hw => Hi w (or_intror Hw))). specialize (Hi v (or_introl eq_refl)).
  cbn [squared_r map filter]. fold (squared_r rnd errors). cbn [known flat_map]. fold (known errors). rewrite app_length, <- IH.
  destruct v as [ | | | x ]; try discriminate; [ reflexivity | ]. unfold rmul. cbn [fmul rounded]. rewrite (rnd_nan rnd HR). reflexivity.
Qed.

Lemma mean_near ord N h errors : summation ord N h -> length errors <= N -> (forall v, In v errors -> is_inf v = false) -> known errors <> [] ->
  nanmean_r rnd (ord (length errors)) (squared_r rnd errors) = PInf \/
  exists m, nanmean_r rnd (ord (length errors)) (squared_r rnd errors) = Fin m /\ (0 <= m)%Q /\
    let c := (inject_Z (Z.of_nat (length errors)) / inject_Z (Z.of_nat (length (known errors))) + 1)%Q in
    (qpow (1 - u) (h + 2) * exact_mean_squared errors - (c + 1) * e <= m)%Q /\
    (m <= qpow (1 + u) (h + 2) * exact_mean_squared errors + (qpow (1 + u) (h + 1) * c + 1) * e)%Q.
Proof using Hu He HR HA.
  intros Ho HN Hi Hne. unfold nanmean_r. rewrite (count_known errors Hi). set (l := map (fun v => if is_nan v then Fin 0 else v) (squared_r rnd errors)).
  assert (Ll : length l = length errors) by (unfold l, squared_r; rewrite !map_length; reflexivity).
  assert (Hnn : forall v, In v l -> nonnegf v).
  { intros v Hv. unfold l, squared_r in Hv. rewrite map_map in Hv. apply in_map_iff in Hv. destruct Hv as (w & <- & Hw). specialize (Hi w Hw).
    destruct w as [ | | | x ]; try discriminate; [ right; exists 0%Q; split; [ reflexivity | lra ] | ]. unfold rmul. cbn [fmul rounded].
    destruct (near_nonneg _ (square_nonneg x)) as [ -> | (r & -> & P & _) ]; [ left; reflexivity | right; exists r; split; [ reflexivity | exact P ] ]. }
  assert (Hn : 0 < length (known errors)) by (destruct (known errors); [ congruence | cbn; lia ]).
  assert (Pn : (0 < inject_Z (Z.of_nat (length (known errors))))%Q) by (change 0%Q with (inject_Z 0); rewrite <- Zlt_Qlt; lia).
  destruct (Ho (length errors) HN) as (Hp & _ & _).
  assert (NN : nonnegf (sum_in rnd (ord (length errors)) l)).
  { apply (sum_infinite u e rnd HR HA). intros i Hin. apply (Permutation_in _ Hp) in Hin. apply in_seq in Hin. apply Hnn, nth_In. lia. }
  unfold rdiv, fof_nat. destruct NN as [ -> | (S & ES & _) ].
  { left. cbn [fdiv]. destruct (Qsgn_cases (inject_Z (Z.of_nat (length (known errors))))) as [ (_ & Y) | [ (_ & Y) | (Sg & _) ] ]; try lra. rewrite Sg. reflexivity. }
  rewrite ES. assert (ES' : sum_by rnd ord l = Fin S) by (unfold sum_by; rewrite Ll; exact ES).
  destruct (sum_by_finite u e rnd HR HA ord N h l S Ho ltac:(lia) Hnn ES') as (ql & Eql & Pql).
  assert (Lq : length ql = length errors) by (rewrite <- Ll, Eql, map_length; reflexivity).
  destruct (sum_by_bounds u e rnd Hu He HR HA ord N h ql l Ho ltac:(lia) Eql Pql) as [ H | (r & H & PS & L1 & U1) ]; [ congruence | ]. rewrite ES' in H. injection H as <-.
  destruct (squares_near errors ql Hi Eql) as [ L2 U2 ]. rewrite Lq in L1, U1. cbn [fdiv].
  assert (E0 : Qeq_bool (inject_Z (Z.of_nat (length (known errors)))) 0 = false) by (destruct (Qeq_bool _ 0) eqn:E; [ apply Qeq_bool_iff in E; lra | reflexivity ]).
  rewrite E0. cbn [rounded]. unfold exact_mean_squared.
  assert (PQ : (0 <= qsum (map (fun q => q * q)%Q (known errors)))%Q) by (clear; induction (known errors) as [ | x l IH ]; cbn; [ lra | pose proof (square_nonneg x); lra ]).
  set (Q0 := qsum (map (fun q => q * q)%Q (known errors))) in *. set (n := inject_Z (Z.of_nat (length (known errors)))) in *. set (nn := inject_Z (Z.of_nat (length errors))) in *.
  assert (Pnn : (0 <= nn)%Q) by (unfold nn; change 0%Q with (inject_Z 0); rewrite <- Zle_Qle; lia).
  clearbody Q0 n nn. set (q1 := qsum ql) in *. clearbody q1. clear - Hu He HR HA PQ Pn Pnn PS L1 U1 L2 U2.
  pose proof (Qinv_lt_0_compat _ Pn) as Pi.
  assert (Pd : (0 <= S / n)%Q) by (unfold Qdiv; apply Qmult_le_0_compat; lra).
  destruct (near_nonneg _ Pd) as [ -> | (m & -> & Pm & B) ]; [ left; reflexivity | right ]. exists m. split; [ reflexivity | ]. split; [ exact Pm | ]. cbv zeta.
  rewrite !qpow_add. cbn [qpow]. pose proof (qpow_pos (1 - u) h ltac:(lra)) as W1. pose proof (qpow_le1 (1 - u) h ltac:(lra)) as W2. pose proof (qpow_ge1 (1 + u) h ltac:(lra)) as W3.
  set (wm := qpow (1 - u) h) in *. set (wp := qpow (1 + u) h) in *. clearbody wm wp. unfold Qdiv in *. set (i := (/ n)%Q) in *.
  assert (Ei : (n * i == 1)%Q) by (unfold i; apply Qmult_inv_r; lra). clearbody i.
  assert (EN : (0 <= e * nn)%Q) by (apply Qmult_le_0_compat; lra). assert (En : (0 <= e * n)%Q) by (apply Qmult_le_0_compat; lra).
  split.
  - (* from below *)
    assert (S1 : (wm * ((1 - u) * Q0) - e * n - e * nn <= S)%Q).
    { assert (A : (wm * ((1 - u) * Q0 - e * n) <= wm * q1)%Q) by (rewrite !(Qmult_comm wm); apply Qmult_le_compat_r; lra).
      assert (A2 : (0 <= (1 - wm) * (e * n))%Q) by (apply Qmult_le_0_compat; lra). lra. }
    assert (S2 : ((wm * ((1 - u) * Q0) - e * n - e * nn) * i <= S * i)%Q) by (apply Qmult_le_compat_r; lra).
    assert (E1 : ((wm * ((1 - u) * Q0) - e * n - e * nn) * i == wm * (1 - u) * (Q0 * i) - e * (n * i) - e * nn * i)%Q) by ring. rewrite E1, Ei in S2.
    assert (S3 : ((1 - u) * (wm * (1 - u) * (Q0 * i) - e * 1 - e * nn * i) <= (1 - u) * (S * i))%Q) by (rewrite !(Qmult_comm (1 - u) (_ - _)), (Qmult_comm (1 - u) (S * i)); apply Qmult_le_compat_r; lra).
    assert (Z : (0 <= e * nn * i)%Q) by (apply Qmult_le_0_compat; lra). assert (Z2 : (0 <= u * (e + e * nn * i))%Q) by (apply Qmult_le_0_compat; lra). lra.
  - (* from above *)
    assert (S1 : (S <= wp * ((1 + u) * Q0 + e * n + e * nn))%Q).
    { eapply Qle_trans; [ exact U1 | ]. rewrite !(Qmult_comm wp). apply Qmult_le_compat_r; lra. }
    assert (S2 : (S * i <= wp * ((1 + u) * Q0 + e * n + e * nn) * i)%Q) by (apply Qmult_le_compat_r; lra).
    assert (E1 : (wp * ((1 + u) * Q0 + e * n + e * nn) * i == wp * (1 + u) * (Q0 * i) + wp * e * (n * i) + wp * e * nn * i)%Q) by ring. rewrite E1, Ei in S2.
    assert (S3 : ((1 + u) * (S * i) <= (1 + u) * (wp * (1 + u) * (Q0 * i) + wp * e * 1 + wp * e * nn * i))%Q) by (rewrite !(Qmult_comm (1 + u) (_ + _)), (Qmult_comm (1 + u) (S * i)); apply Qmult_le_compat_r; lra).
    lra.
Qed.
End Mean.

(** The mean of the squared errors is infinite (overflow) or near the exact one: [u] is the relative error of one operation, [e] its error
    near zero, [h] the depth of the sum. *)
Theorem C161_mean_squared : forall u e rnd ord N h sqrt errors,
  (0 <= u <= 1)%Q -> (0 <= e)%Q -> rounding rnd -> accurate u e rnd -> summation ord N h -> length errors <= N ->
  (forall v, In v errors -> is_inf v = false) -> known errors <> [] ->
  root_mean_squared_r rnd sqrt (ord (length errors)) errors = sqrt PInf \/
  exists m, root_mean_squared_r rnd sqrt (ord (length errors)) errors = sqrt (Fin m) /\ (0 <= m)%Q /\
    let c := (inject_Z (Z.of_nat (length errors)) / inject_Z (Z.of_nat (length (known errors))) + 1)%Q in
    (qpow (1 - u) (h + 2) * exact_mean_squared errors - (c + 1) * e <= m)%Q /\
    (m <= qpow (1 + u) (h + 2) * exact_mean_squared errors + (qpow (1 + u) (h + 1) * c + 1) * e)%Q.
Proof.
  intros u e rnd ord N h sqrt errors Hu He HR HA Ho HN Hi Hne. unfold root_mean_squared_r.
  destruct (mean_near u e rnd Hu He HR HA ord N h errors Ho HN Hi Hne) as [ -> | (m & -> & H) ]; [ left; reflexivity | right; exists m; split; [ reflexivity | exact H ] ].
Qed.
Print Assumptions C161_mean_squared.

(** a square root with relative error [u] *)
Definition accurate_root (u : Q) (sqrt : fnum -> fnum) : Prop :=
  forall m, (0 <= m)%Q -> exists s, sqrt (Fin m) = Fin s /\ (0 <= s)%Q /\ ((1 - u) * (1 - u) * m <= s * s <= (1 + u) * (1 + u) * m)%Q.

(** In double precision with such a root: the square of the overall error is near the exact mean of the squared errors. *)
Theorem C161_overall_error_double : forall ord N h sqrt errors,
  summation ord N h -> length errors <= N -> accurate_root (/ inject_Z (2 ^ 53)) sqrt ->
  (forall v, In v errors -> is_inf v = false) -> known errors <> [] ->
  root_mean_squared_r double sqrt (ord (length errors)) errors = sqrt PInf \/
  exists s, root_mean_squared_r double sqrt (ord (length errors)) errors = Fin s /\ (0 <= s)%Q /\
    let u := (/ inject_Z (2 ^ 53))%Q in let e := (/ inject_Z (2 ^ 1074))%Q in
    let c := (inject_Z (Z.of_nat (length errors)) / inject_Z (Z.of_nat (length (known errors))) + 1)%Q in
    (qpow (1 - u) (h + 4) * exact_mean_squared errors - (c + 1) * e <= s * s)%Q /\
    (s * s <= qpow (1 + u) (h + 4) * exact_mean_squared errors + qpow (1 + u) 2 * (qpow (1 + u) (h + 1) * c + 1) * e)%Q.
Proof.
  intros ord N h sqrt errors Ho HN Hs Hi Hne.
  pose proof (inj_pos _ (pow_pos 1074 ltac:(lia))) as P1. pose proof (Qinv_lt_0_compat _ P1) as P2.
  set (e := ((1 # 2) / inject_Z (2 ^ 1074))%Q). assert (Ee : (2 * e == / inject_Z (2 ^ 1074))%Q) by (unfold e; field; lra).
  assert (Acc : accurate (/ inject_Z (2 ^ 53)) e double) by (apply float_accurate; lia).
  assert (Hu : (0 <= / inject_Z (2 ^ 53) <= 1)%Q) by (split; vm_compute; discriminate).
  assert (He : (0 <= e)%Q) by lra.
  destruct (C161_mean_squared _ e double ord N h sqrt errors Hu He double_rounding Acc Ho HN Hi Hne) as [ E | (m & E & Pm & L & U) ]; [ left; exact E | right ].
  destruct (Hs m Pm) as (s & Es & Ps & B1 & B2). exists s. rewrite E. split; [ exact Es | ]. split; [ exact Ps | ]. cbv zeta in *.
  assert (Hc : (0 <= inject_Z (Z.of_nat (length errors)) / inject_Z (Z.of_nat (length (known errors))))%Q).
  { unfold Qdiv. apply Qmult_le_0_compat; [ | apply Qinv_le_0_compat ]; change 0%Q with (inject_Z 0); rewrite <- Zle_Qle; lia. }
  rewrite <- Ee. clear Ee P1 P2 Acc E Es Hs Ho. clearbody e. revert Hu L U B1 B2 Hc.
  generalize (/ inject_Z (2 ^ 53))%Q, (exact_mean_squared errors), (inject_Z (Z.of_nat (length errors)) / inject_Z (Z.of_nat (length (known errors))))%Q.
  intros u M c Hu L U B1 B2 Hc.
  assert (Q1 : (qpow (1 - u) (h + 4) == (1 - u) * (1 - u) * qpow (1 - u) (h + 2))%Q) by (rewrite !qpow_add; cbn [qpow]; ring).
  assert (Q2 : (qpow (1 + u) (h + 4) == (1 + u) * (1 + u) * qpow (1 + u) (h + 2))%Q) by (rewrite !qpow_add; cbn [qpow]; ring).
  rewrite Q1, Q2. cbn [qpow]. pose proof (qpow_ge1 (1 + u) (h + 1) ltac:(lra)) as W. revert L U W.
  generalize (qpow (1 - u) (h + 2)), (qpow (1 + u) (h + 2)), (qpow (1 + u) (h + 1)). intros a b w L U W.
  assert (V1 : (0 <= (1 - u) * (1 - u))%Q) by (apply Qmult_le_0_compat; lra). assert (V2 : (0 <= (1 + u) * (1 + u))%Q) by (apply Qmult_le_0_compat; lra).
  assert (V3 : ((1 - u) * (1 - u) <= 1)%Q) by (assert (0 <= u * (1 - u))%Q by (apply Qmult_le_0_compat; lra); lra).
  assert (C1 : (0 <= (c + 1 + 1) * e)%Q) by (apply Qmult_le_0_compat; lra).
  split.
  - eapply Qle_trans; [ | exact B1 ].
    assert (X : ((1 - u) * (1 - u) * (a * M - (c + 1 + 1) * e) <= (1 - u) * (1 - u) * m)%Q) by (rewrite !(Qmult_comm ((1 - u) * (1 - u))); apply Qmult_le_compat_r; assumption).
    assert (Y : (0 <= (1 - (1 - u) * (1 - u)) * ((c + 1 + 1) * e))%Q) by (apply Qmult_le_0_compat; lra). lra.
  - eapply Qle_trans; [ exact B2 | ].
    assert (X : ((1 + u) * (1 + u) * m <= (1 + u) * (1 + u) * (b * M + (w * (c + 1) + 1) * e))%Q) by (rewrite !(Qmult_comm ((1 + u) * (1 + u))); apply Qmult_le_compat_r; assumption).
    assert (Y0 : (0 <= w * (c + 1))%Q) by (apply Qmult_le_0_compat; lra).
    assert (Y : (0 <= (1 + u) * (1 + u) * ((w * (c + 1) + 1) * e))%Q) by (apply Qmult_le_0_compat; [ assumption | apply Qmult_le_0_compat; lra ]). lra.
Qed.
Print Assumptions C161_overall_error_double.

(* ---------- examples ---------- *)
(* a root of relative error 2^-53: that of a/b is the integer root of ab 4^60, divided by 2^60 b *)
Definition a_root (v : fnum) : fnum :=
  match v with Fin m => Fin (inject_Z (Z.sqrt (Qnum m * Zpos (Qden m) * 4 ^ 60)) / inject_Z (2 ^ 60 * Zpos (Qden m))) | x => x end.
Lemma root_scaled (r A B u : Q) : (0 <= u <= 1)%Q -> (0 < B)%Q -> (0 <= r)%Q -> (r * r <= A)%Q -> (A <= (r + 1) * (r + 1))%Q -> (1 <= u * (r + 1))%Q ->
  ((1 - u) * (1 - u) * (A / (B * B)) <= r / B * (r / B) <= (1 + u) * (1 + u) * (A / (B * B)))%Q.
Proof.
  intros Hu HB Hr H1 H2 H3. pose proof (Qinv_lt_0_compat _ HB) as Pi.
  assert (E1 : (r / B * (r / B) == r * r * (/ B * / B))%Q) by (field; lra). assert (E2 : (A / (B * B) == A * (/ B * / B))%Q) by (field; lra). rewrite E1, E2.
  assert (P : (0 <= / B * / B)%Q) by (apply Qmult_le_0_compat; lra). rewrite !Qmult_assoc. rewrite <- !(Qmult_assoc _ (/ B) (/ B)). split; apply Qmult_le_compat_r; try exact P.
  - assert (X : ((1 - u) * (r + 1) <= r)%Q) by lra. assert (Y : (0 <= (1 - u) * (r + 1))%Q) by (apply Qmult_le_0_compat; lra).
    assert (V : (0 <= (1 - u) * (1 - u))%Q) by (apply Qmult_le_0_compat; lra).
    assert (Z : ((1 - u) * (1 - u) * A <= (1 - u) * (1 - u) * ((r + 1) * (r + 1)))%Q) by (rewrite !(Qmult_comm ((1 - u) * (1 - u))); apply Qmult_le_compat_r; assumption).
    eapply Qle_trans; [ exact Z | ]. set (w := ((1 - u) * (r + 1))%Q) in *. assert (E : ((1 - u) * (1 - u) * ((r + 1) * (r + 1)) == w * w)%Q) by (unfold w; ring). rewrite E. clearbody w. clear - X Y Hr. nra.
  - assert (PA : (0 <= A)%Q) by nra. assert (0 <= ((1 + u) * (1 + u) - 1) * A)%Q by (apply Qmult_le_0_compat; [ assert (0 <= u * u)%Q by (apply Qmult_le_0_compat; lra); lra | exact PA ]). lra.
Qed.
Lemma a_root_accurate : accurate_root (/ inject_Z (2 ^ 53)) a_root.
Proof.
  intros [ a b ] Hm. cbn [a_root Qnum Qden]. eexists. split; [ reflexivity | ].
  assert (Ha : (0 <= a)%Z) by (unfold Qle in Hm; cbn in Hm; lia). set (A := (a * Zpos b * 4 ^ 60)%Z). set (B := (2 ^ 60 * Zpos b)%Z).
  assert (HA : (0 <= A)%Z) by (unfold A; lia). assert (HB : (0 < inject_Z B)%Q) by (change 0%Q with (inject_Z 0); rewrite <- Zlt_Qlt; unfold B; lia).
  pose proof (Z.sqrt_spec A HA) as [ S1 S2 ]. pose proof (Z.sqrt_nonneg A) as S0. set (r := Z.sqrt A) in *.
  assert (Hr : (0 <= inject_Z r)%Q) by (change 0%Q with (inject_Z 0); rewrite <- Zle_Qle; exact S0).
  split. { unfold Qdiv. apply Qmult_le_0_compat; [ exact Hr | ]. apply Qlt_le_weak, Qinv_lt_0_compat, HB. }
  assert (Em : (a # b == inject_Z A / (inject_Z B * inject_Z B))%Q).
  { assert (E0 : (a # b == inject_Z a / inject_Z (Zpos b))%Q) by (rewrite Qmake_Qdiv; reflexivity). rewrite E0. unfold A, B. rewrite !inject_Z_mult.
    assert (Hb : ~ (inject_Z (Zpos b) == 0)%Q) by (unfold Qeq; cbn; lia). change (inject_Z (4 ^ 60)) with (inject_Z (2 ^ 60 * 2 ^ 60)). rewrite inject_Z_mult.
    assert (H2 : ~ (inject_Z (2 ^ 60) == 0)%Q) by (unfold Qeq; cbn; lia). field. split; assumption. }
  destruct (Z.eq_dec a 0) as [ E0 | Hn ].
  - assert (A = 0%Z) as EA by (unfold A; rewrite E0; reflexivity). assert (r = 0%Z) as Er by (unfold r; rewrite EA; reflexivity). rewrite Er, Em, EA. change (inject_Z 0) with 0%Q. unfold Qdiv. rewrite !Qmult_0_l, !Qmult_0_r. split; lra.
  - rewrite Em. apply root_scaled; [ split; vm_compute; discriminate | exact HB | exact Hr | | | ].
    + rewrite <- inject_Z_mult, <- Zle_Qle. exact S1.
    + change 1%Q with (inject_Z 1). rewrite <- !inject_Z_plus, <- inject_Z_mult, <- Zle_Qle. replace (r + 1)%Z with (Z.succ r) by lia. lia.
    + assert (R : (2 ^ 60 <= r)%Z) by (unfold r; apply Z.sqrt_le_square; [ exact HA | lia | ]; unfold A; nia).
      assert (R' : (inject_Z (2 ^ 60) <= inject_Z r)%Q) by (rewrite <- Zle_Qle; exact R). rewrite Qmult_comm. apply Qle_shift_div_l with (c := inject_Z (2 ^ 53)); [ reflexivity | ].
      rewrite Qmult_1_l. eapply Qle_trans; [ | apply Qle_trans with (inject_Z r); [ exact R' | lra ] ]. vm_compute. discriminate.
Qed.
Example C161_ex : summation one_by_one 3 3 /\ accurate_root (/ inject_Z (2 ^ 53)) a_root /\
  known [Fin 3; NaN; Fin 4] = [3; 4]%Q /\ (exact_mean_squared [Fin 3; NaN; Fin 4] == 25 # 2)%Q /\
  exists s, root_mean_squared_r (float_round 8 8 8) a_root (one_by_one 3) [Fin 3; NaN; Fin 4] = Fin s /\ ((35 # 10) < s < (36 # 10))%Q.
Proof.
  split; [ apply one_by_one_summation | ]. split; [ exact a_root_accurate | ]. split; [ reflexivity | ]. split; [ vm_compute; reflexivity | ].
  eexists. split; [ vm_compute; reflexivity | ]. split; vm_compute; reflexivity.
Qed.
