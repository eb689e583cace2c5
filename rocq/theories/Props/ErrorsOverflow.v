(** C161: when the overall error does not overflow. *)
From Coq Require Import Lia Lqa QArith Qabs Permutation.
From Verif Require Import Base.Py Base.PyFacts Base.Arr Base.Float Base.FloatFacts Model.KMedoids Model.Rounded Model.RoundedErrors Model.KMedoidsRounded
  Spec.Medoids Spec.Rounded Spec.Ieee Spec.KMedoidsRounded Proofs.KMedoidsFacts Proofs.RoundedFacts Proofs.IeeeFacts Proofs.SummationFacts Proofs.OverflowFacts
  Props.Ieee Props.KMedoidsRounded Props.OverflowRounded Props.ErrorsRounded.
From Coq Require Import ZifyBool ZifyNat.
Local Close Scope Q_scope.
Local Open Scope nat_scope.

Lemma square_known errors x : In (Fin x) errors -> (x * x <= qsum (map (fun q => q * q) (known errors)))%Q.
Proof.
  intros H. assert (P : forall l, (0 <= qsum (map (fun q => q * q)%Q l))%Q) by (intros l; apply qsum_nonneg; intros; apply square_nonneg).
  assert (G : In x (known errors)) by (apply in_flat_map; exists (Fin x); split; [ exact H | left; reflexivity ]).
  induction (known errors) as [ | y l IH ]; [ destruct G | ]. cbn [map qsum]. pose proof (P l). pose proof (square_nonneg y). destruct G as [ <- | G ]; [ lra | ]. specialize (IH G). lra.
Qed.
Lemma finite_values (l : list fnum) : (forall v, In v l -> exists q, v = Fin q /\ (0 <= q)%Q) -> exists ql, l = map Fin ql /\ forall v, In v ql -> (0 <= v)%Q.
Proof.
  induction l as [ | v l IH ]; intros F; [ exists []; split; [ reflexivity | intros ? [] ] | ].
  destruct (IH (fun w Hw => F w (or_intror Hw))) as (ql & -> & P). destruct (F v (or_introl eq_refl)) as (q & -> & Pq).
  exists (q :: ql). split; [ reflexivity | ]. intros w [ <- | Hw ]; auto.
Qed.

(** In double precision the mean of the squared errors is finite, so that the overall error is the root of a number near the exact mean, if
    the exact sum of the squares with the errors of squaring and adding is at most 2^1023. *)
Theorem C161_no_overflow_double : forall ord N h sqrt errors,
  summation ord N h -> length errors <= N -> (forall v, In v errors -> is_inf v = false) -> known errors <> [] ->
  let u := (/ inject_Z (2 ^ 53))%Q in
  (qpow (1 + u) h * ((1 + u) * qsum (map (fun q => q * q) (known errors)) + inject_Z (Z.of_nat (length errors + length (known errors))) / inject_Z (2 ^ 1074)) <= inject_Z (2 ^ 1023))%Q ->
  exists m, root_mean_squared_r double sqrt (ord (length errors)) errors = sqrt (Fin m) /\ (0 <= m)%Q /\
    let c := (inject_Z (Z.of_nat (length errors)) / inject_Z (Z.of_nat (length (known errors))) + 1)%Q in let e := ((1 # 2) / inject_Z (2 ^ 1074))%Q in
    (qpow (1 - u) (h + 2) * exact_mean_squared errors - (c + 1) * e <= m)%Q /\
    (m <= qpow (1 + u) (h + 2) * exact_mean_squared errors + (qpow (1 + u) (h + 1) * c + 1) * e)%Q.
Proof.
  intros ord N h sqrt errors Ho HN Hi Hne u HB.
  pose proof (inj_pos _ (pow_pos 1074 ltac:(lia))) as P1. pose proof (Qinv_lt_0_compat _ P1) as P2.
  set (e := ((1 # 2) / inject_Z (2 ^ 1074))%Q). assert (Ee : (2 * e == / inject_Z (2 ^ 1074))%Q) by (unfold e; field; lra).
  assert (Acc : accurate u e double) by (apply float_accurate; lia).
  assert (Hu : (0 <= u <= 1)%Q) by (split; vm_compute; discriminate).
  assert (He : (0 <= e)%Q) by lra. pose proof (qpow_ge1 (1 + u) h ltac:(lra)) as W.
  unfold root_mean_squared_r. destruct (mean_near u e double Hu He double_rounding Acc ord N h errors Ho HN Hi Hne) as [ E | (m & -> & H) ]; [ exfalso | exists m; split; [ reflexivity | exact H ] ].
  unfold nanmean_r in E. rewrite (count_known double double_rounding errors Hi) in E.
  set (l := map (fun v => if is_nan v then Fin 0 else v) (squared_r double errors)) in *.
  assert (Ll : length l = length errors) by (unfold l, squared_r; rewrite !map_length; reflexivity).
  set (Q0 := qsum (map (fun q => q * q)%Q (known errors))) in *.
  assert (PQ : (0 <= Q0)%Q) by (apply qsum_nonneg; intros; apply square_nonneg).
  rewrite Nat2Z.inj_add, inject_Z_plus in HB. unfold Qdiv in HB. rewrite <- Ee in HB.
  pose proof (nonneg_z (length errors)) as Z1. pose proof (nonneg_z (length (known errors))) as Z2.
  set (nn := inject_Z (Z.of_nat (length errors))) in *. set (n := inject_Z (Z.of_nat (length (known errors)))) in *.
  assert (En : (0 <= e * n)%Q) by (apply Qmult_le_0_compat; assumption). assert (Enn : (0 <= e * nn)%Q) by (apply Qmult_le_0_compat; assumption).
  assert (B0 : ((1 + u) * Q0 + e * n + e * nn <= inject_Z (2 ^ 1023))%Q /\ (qpow (1 + u) h * ((1 + u) * Q0 + e * n + e * nn) <= inject_Z (2 ^ 1023))%Q).
  { assert (UQ : (0 <= (1 + u) * Q0)%Q) by (apply Qmult_le_0_compat; lra).
    assert (X : (qpow (1 + u) h * ((1 + u) * Q0 + e * n + e * nn) <= inject_Z (2 ^ 1023))%Q).
    { eapply Qle_trans; [ | exact HB ]. rewrite !(Qmult_comm (qpow _ _)). apply Qmult_le_compat_r; lra. }
    split; [ | exact X ]. eapply Qle_trans; [ | exact X ]. revert W UQ En Enn. generalize (qpow (1 + u) h), ((1 + u) * Q0)%Q, (e * n)%Q, (e * nn)%Q. intros w a b c W A B C.
    assert (0 <= (w - 1) * (a + b + c))%Q by (apply Qmult_le_0_compat; lra). lra. }
  destruct B0 as [ B0 B1 ]. assert (QM : (Q0 <= inject_Z (2 ^ 1023))%Q) by (assert (0 <= u * Q0)%Q by (apply Qmult_le_0_compat; lra); lra).
  assert (F : forall v, In v l -> exists q, v = Fin q /\ (0 <= q)%Q).
  { intros v Hv. unfold l, squared_r in Hv. rewrite map_map in Hv. apply in_map_iff in Hv. destruct Hv as (w & <- & Hw). pose proof (Hi w Hw) as Hi'.
    destruct w as [ | | | x ]; try discriminate; [ exists 0%Q; split; [ reflexivity | lra ] | ]. unfold rmul. cbn [fmul rounded].
    pose proof (double_finite (x * x)%Q ltac:(split; [ apply square_nonneg | eapply Qle_trans; [ apply (square_known errors x Hw) | exact QM ] ])) as Hf.
    destruct (near_nonneg u e double double_rounding Acc _ (square_nonneg x)) as [ E' | (r & E' & P & _) ]; rewrite E' in *; [ discriminate | ]. exists r. split; [ reflexivity | exact P ]. }
  destruct (finite_values l F) as (ql & Eql & Pql). assert (Lq : length ql = length errors) by (rewrite <- Ll, Eql, map_length; reflexivity).
  destruct (squares_near u e double Hu He double_rounding Acc errors ql Hi Eql) as [ _ U2 ]. fold Q0 n in U2.
  destruct (sum_by_small u e (inject_Z (2 ^ 1023)) double Hu He double_rounding Acc double_finite ord N h ql l Ho ltac:(lia) Eql Pql) as (S & ES & PS & US).
  { rewrite Lq. fold nn. eapply Qle_trans; [ | exact B1 ]. rewrite !(Qmult_comm (qpow _ _)). apply Qmult_le_compat_r; lra. }
  assert (SM : (S <= inject_Z (2 ^ 1023))%Q).
  { eapply Qle_trans; [ exact US | ]. rewrite Lq. fold nn. eapply Qle_trans; [ | exact B1 ]. rewrite !(Qmult_comm (qpow _ _)). apply Qmult_le_compat_r; lra. }
  unfold sum_by in ES. rewrite Ll in ES. rewrite ES in E. unfold rdiv, fof_nat in E. fold n in E. cbn [fdiv] in E.
  assert (N1 : (1 <= n)%Q). { unfold n. change 1%Q with (inject_Z 1). rewrite <- Zle_Qle. destruct (known errors); [ congruence | cbn; lia ]. }
  destruct (Qeq_bool n 0) eqn:E0; [ apply Qeq_bool_iff in E0; lra | ]. cbn [rounded] in E.
  assert (D : (0 <= S / n <= inject_Z (2 ^ 1023))%Q).
  { split; [ apply Qle_shift_div_l; lra | ]. apply Qle_shift_div_r; [ lra | ]. eapply Qle_trans; [ exact SM | ]. rewrite <- (Qmult_1_r (inject_Z (2 ^ 1023))) at 1.
    rewrite !(Qmult_comm (inject_Z (2 ^ 1023))). apply Qmult_le_compat_r; [ exact N1 | vm_compute; discriminate ]. }
  pose proof (double_finite _ D) as Hf. rewrite E in Hf. discriminate.
Qed.
Print Assumptions C161_no_overflow_double.

Example C161_no_overflow_ex : summation one_by_one 3 3 /\ known [Fin 3; NaN; Fin 4] <> [] /\
  (qpow (1 + / inject_Z (2 ^ 53)) 3 * ((1 + / inject_Z (2 ^ 53)) * qsum (map (fun q => q * q) (known [Fin 3; NaN; Fin 4])) + inject_Z (Z.of_nat (3 + 2)) / inject_Z (2 ^ 1074)) <= inject_Z (2 ^ 1023))%Q.
Proof. split; [ apply one_by_one_summation | ]. split; [ discriminate | vm_compute; discriminate ]. Qed.

(** The overall error is not exact: the square of 1 + 2^-52 needs more than 53 binary digits. *)
Theorem C161_exact_refuted : exists errors, doubles errors /\ known errors <> [] /\
  forall sqrt, exists m, root_mean_squared_r double sqrt (At 0) errors = sqrt (Fin m) /\ ~ (m == exact_mean_squared errors)%Q.
Proof.
  exists [Fin (1 + / inject_Z (2 ^ 52))%Q]. split; [ | split; [ discriminate | ] ].
  - intros v [ <- | [] ]. right. eexists. split; [ reflexivity | ]. exists (2 ^ 52 + 1)%Z, 1022%Z. repeat split; vm_compute; try reflexivity; discriminate.
  - intros sqrt. assert (E : exists m, nanmean_r double (At 0) (squared_r double [Fin (1 + / inject_Z (2 ^ 52))%Q]) = Fin m /\ ~ (m == exact_mean_squared [Fin (1 + / inject_Z (2 ^ 52))%Q])%Q).
    { eexists. split; [ vm_compute; reflexivity | ]. vm_compute. discriminate. }
    destruct E as (m & E & H). exists m. unfold root_mean_squared_r. rewrite E. split; [ reflexivity | exact H ].
Qed.
Print Assumptions C161_exact_refuted.
