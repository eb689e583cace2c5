(** C154 and C160: when computed costs do not overflow. *)
From Coq Require Import String Lia Lqa QArith Qabs.
From Verif Require Import Base.Py Base.PyFacts Base.Str Base.Arr Base.ArrFacts Base.Float Base.FloatFacts Model.Region Model.Arrays Model.Distance Model.KMedoids
  Model.Clustering Model.SolverFiles Model.Algorithms Model.Rounded Model.RoundedErrors Model.KMedoidsRounded Model.AlgorithmsRounded
  Spec.Grid Spec.Partition Spec.Distance Spec.Medoids Spec.Solver Spec.Regions Spec.Algorithms Spec.Rounded Spec.Ieee Spec.KMedoidsRounded
  Proofs.RegionFacts Proofs.PartitionFacts Proofs.ProperFacts Proofs.SolverFacts Proofs.ArraysFacts Proofs.DistanceFacts Proofs.DistanceObjFacts Proofs.VarianceFacts
  Proofs.KMedoidsFacts Proofs.ReportFacts Proofs.AlgorithmFacts Proofs.BarycenterFacts Proofs.RoundedFacts Proofs.IeeeFacts Proofs.KMedoidsRoundedFacts Proofs.SummationFacts Proofs.AlgorithmsRoundedFacts Proofs.OverflowFacts Props.Basics Props.KMedoids Props.Distance Props.Ieee Props.Algorithms Props.KMedoidsRounded Props.AlgorithmsRounded.
From Coq Require Import ZifyBool ZifyNat.
Local Notation length := List.length.
Local Close Scope Q_scope.
Local Open Scope nat_scope.

Lemma double_finite q : (0 <= q <= inject_Z (2 ^ 1023))%Q -> is_fin (double q) = true.
Proof.
  intros Hq. pose proof (proj2 (C151_rounds_to_nearest (inject_Z (2 ^ 1023)))) as F.
  pose proof (float_mono 53 1074 1024 ltac:(lia) ltac:(lia) ltac:(lia) q (inject_Z (2 ^ 1023)) ltac:(apply Hq)) as M1. fold double in M1.
  pose proof (rnd_nonneg double double_rounding q ltac:(apply Hq)) as M0.
  assert (D : is_double (inject_Z (2 ^ 1023))).
  { exists 1%Z, (1074 + 1023)%Z. split; [ reflexivity | ]. split; [ lia | ]. split; [ rewrite Z.mul_1_l; apply Z.pow_lt_mono_r; lia | ].
    rewrite Z.mul_1_l || idtac. rewrite Z.pow_add_r by lia. rewrite !inject_Z_mult. field. intros E. pose proof (inj_pos _ (pow_pos 1074 ltac:(lia))). lra. }
  specialize (F D). clear D. revert F M1 M0. generalize (double (inject_Z (2 ^ 1023))), (double q). intros a b F M1 M0.
  destruct a; try contradiction. destruct b; try discriminate; reflexivity.
Qed.

(** The computed total of medoids is finite when the exact one, with the errors of the sums, is at most 2^1023. *)
Theorem C154_no_overflow_double : forall ord N h X D ms c x q,
  summation ord N h -> length X <= N -> length ms <= N -> valid_indices X ms -> dist_finite X D ->
  (forall a b, a < length X -> b < length X -> fle (Fin 0) (sample_dist X D a b) = true) ->
  consistent_by (sum_by double ord) X D ms c -> consistent X D ms x -> c_total x = Fin q ->
  (qpow (1 + / inject_Z (2 ^ 53)) (h + h) * (q + inject_Z (Z.of_nat (length X + length ms)) / inject_Z (2 ^ 1074)) <= inject_Z (2 ^ 1023))%Q ->
  is_fin (c_total c) = true.
Proof.
  intros ord N h X D ms c x q Ho HN1 HN2 HV HF Hpos Hc Hx Eq HB.
  pose proof (inj_pos _ (pow_pos 1074 ltac:(lia))) as P1. pose proof (Qinv_lt_0_compat _ P1) as P2.
  set (e := ((1 # 2) / inject_Z (2 ^ 1074))%Q). assert (Ee : (2 * e == / inject_Z (2 ^ 1074))%Q) by (unfold e; field; lra).
  assert (Acc : accurate (/ inject_Z (2 ^ 53)) e double) by (apply float_accurate; lia).
  assert (Hu : (0 <= / inject_Z (2 ^ 53) <= 1)%Q) by (split; vm_compute; discriminate).
  assert (He : (0 <= e)%Q) by lra.
  refine (total_small (/ inject_Z (2 ^ 53)) e (inject_Z (2 ^ 1023)) double Hu He double_rounding Acc double_finite ord N h X D ms c x q Ho HN1 HN2 HV HF Hpos Hc Hx Eq _).
  eapply Qle_trans; [ | exact HB ]. rewrite !(Qmult_comm (qpow _ _)). apply Qmult_le_compat_r; [ | apply qpow_pos; vm_compute; discriminate ].
  apply Qplus_le_r. unfold Qdiv. rewrite (Qmult_comm e), !(Qmult_comm (inject_Z (Z.of_nat _))). apply Qmult_le_compat_r; [ | apply nonneg_z ]. lra.
Qed.
Print Assumptions C154_no_overflow_double.

(** The bound of C160_near_start_double for starting points whose exact cost, with the errors of the sums, is at most 2^1023. *)
Theorem C160_near_start_no_overflow : forall ord N h choice env o d sc xl yl (dist : point -> point -> Q) k m starts p ms (own start : point -> point),
  summation ord N h -> xl * yl <= N -> k <= N ->
  qwf d sc -> a3x d = xl -> a3y d = yl -> 0 < xl * yl -> measured env o d (fun q pt => Fin (dist q pt)) ->
  (forall q pt, in_grid xl yl q -> in_grid xl yl pt -> 0 <= dist q pt)%Q -> can_start choice m xl yl k starts ->
  kmedoids_partition_impl_r double (sum_by double ord) choice env m (qregion d sc) true o = Ok (p, Some ms) ->
  (forall pt, in_grid xl yl pt -> exists l, label_at p pt l /\ nth_error ms (Z.to_nat l) = Some (own pt)) ->
  (forall pt, in_grid xl yl pt -> in_grid xl yl (start pt) /\ In (Z.of_nat (index_of yl (start pt))) starts) ->
  let u := (/ inject_Z (2 ^ 53))%Q in let z := (inject_Z (Z.of_nat (xl * yl + k)) / inject_Z (2 ^ 1074))%Q in
  (qpow (1 + u) (h + h) * (qsum (map (fun pt => dist (start pt) pt) (grid xl yl)) + z) <= inject_Z (2 ^ 1023))%Q ->
  (qpow (1 - u) (h + h) * qsum (map (fun pt => dist (own pt) pt) (grid xl yl)) <=
   qpow (1 + u) (h + h) * (qsum (map (fun pt => dist (start pt) pt) (grid xl yl)) + z) + z)%Q.
Proof.
  intros ord N h choice env o d sc xl yl dist k m starts p ms own start Ho HN1 HN2 Hq Hx Hy Hpos Hd Hge Hst Hrun Hown Hstart u z HB.
  refine (C160_near_start_double ord N h choice env o d sc xl yl dist k m starts p ms own start Ho HN1 HN2 Hq Hx Hy Hpos Hd Hge Hst _ Hrun Hown Hstart).
  intros X0 c1 EX Hc1. rewrite (q_as_list d sc Hq) in EX. injection EX as <-.
  destruct Hst as (Hk & Hk0 & Htol & Hmode & Hinit & Hlen & Hnd & Hval). subst xl yl.
  set (X := map (t_ser (qregion d sc)) (grid (a3x d) (a3y d))) in *. set (D := distance_of env o) in *.
  pose proof (samples d sc) as LX. fold X in LX.
  pose proof (region_instance env o d sc _ Hd) as HI. fold X D in HI.
  pose proof (region_finite env o d sc _ Hq Hd (fun _ _ _ _ => eq_refl)) as HF. fold X D in HF.
  assert (HN : dist_no_nan X D) by (intros a b Ha Hb; specialize (HF a b Ha Hb); destruct (sample_dist X D a b); auto; discriminate).
  assert (Hne : starts <> []) by (intros ->; cbn in Hlen; lia).
  assert (Vs : valid_indices X starts) by (intros i Hi; rewrite LX; apply Hval, Hi).
  destruct (get_cost_ok X D starts HI Vs Hne) as (l0 & E0 & _).
  pose proof (get_cost_consistent X D starts _ HI Vs Hne HN E0) as Cx0. set (x0 := cost_of X D starts l0) in *. clearbody x0.
  assert (Hge' : forall a b, a < length X -> b < length X -> fle (Fin 0) (sample_dist X D a b) = true).
  { intros a b Ha Hb. rewrite LX in Ha, Hb. unfold X, D. rewrite (region_dist env o d sc _ Hq Hd) by lia. apply fle_Fin. apply Hge; apply decode_in_grid; lia. }
  assert (G : forall f, qsum (map f (grid (a3x d) (a3y d))) = qsum (map (fun i => f (decode (a3y d) i)) (seq 0 (a3x d * a3y d)))).
  { intros f. rewrite grid_decode, map_map. reflexivity. }
  assert (T2 : exists q0, feqv (c_total x0) (Fin q0) /\ (q0 <= qsum (map (fun pt => dist (start pt) pt) (grid (a3x d) (a3y d))))%Q).
  { eexists. split.
    - etransitivity; [ apply (total_is_sum_of_least X D _ _ Vs HF Cx0) | ]. apply feqv_fsum_map with
        (g := fun i => qof (dist_j X D starts (nth i (c_labels x0) (length starts)) i)). intros i Hi. apply in_seq in Hi.
      rewrite <- is_fin_qof; [ apply feqv_refl | ]. apply HF; [ | lia ]. destruct Cx0 as (_ & NN & _). destruct (NN i ltac:(lia)) as [ N1 _ ].
      pose proof (Vs _ (nth_In _ 0%Z N1)). lia.
    - rewrite G, LX. apply qsum_le_map. intros i Hi. apply in_seq in Hi. pose proof (decode_in_grid (a3x d) (a3y d) i ltac:(lia)) as Gi.
      destruct (Hstart _ Gi) as [ Gs Is ]. set (q := start (decode (a3y d) i)) in *. apply In_nth_error in Is. destruct Is as [ j Ej ].
      destruct Cx0 as (_ & NN & _). destruct (NN i ltac:(lia)) as (N1 & N2 & _). assert (Hj : j < length starts) by (apply nth_error_Some; congruence).
      specialize (N2 j Hj). assert (Ed : dist_j X D starts j i = Fin (dist q (decode (a3y d) i))).
      { unfold dist_j. rewrite (nth_error_nth _ _ 0%Z Ej), Nat2Z.id. unfold X, D. destruct (index_of_encode _ _ _ Gs) as [ _ Li ].
        rewrite (region_dist env o d sc _ Hq Hd) by lia. pose proof (nth_error_grid_index _ _ _ Gs) as A. rewrite nth_error_grid in A by exact Li. congruence. }
      rewrite Ed in N2. assert (Ef : is_fin (dist_j X D starts (nth i (c_labels x0) (length starts)) i) = true).
      { apply HF; [ | lia ]. pose proof (Vs _ (nth_In _ 0%Z N1)). lia. }
      rewrite (is_fin_qof _ Ef) in N2. apply fle_Fin in N2. exact N2. }
  destruct T2 as (q0 & T2 & Hq0). destruct (c_total x0) as [ | | | q1 ] eqn:Eq1; cbn [feqv] in T2; try contradiction.
  refine (C154_no_overflow_double ord N h X D starts c1 x0 q1 Ho _ _ Vs HF Hge' Hc1 Cx0 Eq1 _); [ lia | lia | ].
  rewrite LX, Hlen. fold z u. eapply Qle_trans; [ | exact HB ]. rewrite !(Qmult_comm (qpow _ _)). apply Qmult_le_compat_r; [ | apply qpow_pos; vm_compute; discriminate ].
  apply Qplus_le_l. rewrite T2. exact Hq0.
Qed.
Print Assumptions C160_near_start_no_overflow.

(* with C160_ex and C160_near_start_ex: the region of the example, every point assigned to the starting point (0, 0) *)
Example C160_no_overflow_ex : summation one_by_one 3 3 /\
  (forall pt, in_grid 1 3 pt -> in_grid 1 3 (0, 0)%Z /\ In (Z.of_nat (index_of 3 (0, 0)%Z)) [0; 1]%Z) /\
  (qpow (1 + / inject_Z (2 ^ 53)) (3 + 3) * (qsum (map (fun pt => ex_dist (0, 0)%Z pt) (grid 1 3)) + inject_Z (Z.of_nat (1 * 3 + 2)) / inject_Z (2 ^ 1074)) <= inject_Z (2 ^ 1023))%Q.
Proof.
  split; [ apply one_by_one_summation | ]. split; [ | vm_compute; discriminate ].
  intros pt _. split; [ split; cbn; lia | left; reflexivity ].
Qed.
