(** Facts on the convergence of the k-medoids search. *)
From Coq Require Import String Lia Lqa.
From Verif Require Import Base.Py Base.PyFacts Base.Str Base.Arr Base.ArrFacts Base.Float Base.FloatFacts Model.Region Model.Arrays Model.Distance Model.KMedoids
  Model.Clustering Model.SolverFiles Model.Algorithms Spec.Grid Spec.Partition Spec.Distance Spec.Medoids Spec.Solver Spec.Regions Spec.Algorithms
  Proofs.RegionFacts Proofs.PartitionFacts Proofs.ProperFacts Proofs.SolverFacts Proofs.ArraysFacts Proofs.DistanceFacts Proofs.DistanceObjFacts Proofs.VarianceFacts
  Proofs.KMedoidsFacts Proofs.ReportFacts Proofs.AlgorithmFacts Proofs.BarycenterFacts Props.Basics Props.KMedoids Props.Distance.
From Coq Require Import ZifyBool ZifyNat.
Local Notation length := List.length.
Local Open Scope nat_scope.

Section Converge.
  Variables (X : dataset) (D : distance) (t : Q) (md : mode).
  Hypothesis HI : instance X D.
  Hypothesis HF : dist_finite X D.
  Hypothesis Hpos : forall a b, a < length X -> b < length X -> fle (Fin 0) (sample_dist X D a b) = true.
  Hypothesis Ht : (0 < t)%Q.
  Hypothesis Hmd : md <> OtherMode.

  Lemma conv_no_nan : dist_no_nan X D.
  Proof using HF. intros a b Ha Hb. specialize (HF a b Ha Hb). destruct (sample_dist X D a b); auto; discriminate. Qed.
  Lemma conv_tol : fle (Fin 0) (Fin t) = true.
  Proof using Ht. apply fle_Fin. lra. Qed.

  Lemma total_fin ms c : valid_indices X ms -> consistent X D ms c -> exists q, c_total c = Fin q /\ (0 <= q)%Q.
  Proof using HF Hpos.
    intros V C. pose proof (total_is_sum_of_least X D ms c V HF C) as T.
    set (f := fun i => dist_j X D ms (nth i (c_labels c) (length ms)) i) in T.
    assert (Hf : forall i, In i (seq 0 (length X)) -> exists v, f i = Fin v /\ (0 <= v)%Q).
    { intros i Hi. apply in_seq in Hi. destruct C as (_ & N & _). destruct (N i ltac:(lia)) as [ N1 _ ]. unfold f, dist_j.
      pose proof (V _ (nth_In _ 0%Z N1)) as Hz. assert (H1 : Z.to_nat (nth (nth i (c_labels c) (length ms)) ms 0%Z) < length X) by lia.
      assert (H2 : i < length X) by lia. pose proof (HF _ _ H1 H2) as A. pose proof (Hpos _ _ H1 H2) as B.
      rewrite (is_fin_qof _ A) in B |- *. apply fle_Fin in B. eauto. }
    assert (G : feqv (fsum (map f (seq 0 (length X)))) (Fin (qsum (map (fun i => qof (f i)) (seq 0 (length X)))))).
    { apply feqv_fsum_map. intros i Hi. destruct (Hf i Hi) as (v & E & _). rewrite E. apply feqv_refl. }
    pose proof (feqv_trans _ _ _ T G) as E. destruct (c_total c) as [ | | | q ]; cbn in E; try contradiction. exists q. split; [ reflexivity | ].
    rewrite E. assert (P : forall l, (forall i, In i l -> exists v, f i = Fin v /\ (0 <= v)%Q) -> (0 <= qsum (map (fun i => qof (f i)) l))%Q).
    { intros l. induction l as [ | a l IH ]; intros H; cbn; [ lra | ]. destruct (H a (or_introl eq_refl)) as (v & Ev & Hv). rewrite Ev. cbn [qof].
      specialize (IH (fun i Hi => H i (or_intror Hi))). lra. }
    apply P, Hf.
  Qed.
  Variable k : nat.
  Hypothesis Hk : 0 < k.
  Lemma ok_total st ms : ok_state X D k st ms -> exists q, tot st = Fin q /\ (0 <= q)%Q.
  Proof using HI HF Hpos Hk.
    intros (V & L & _ & E). apply (total_fin ms); [ exact V | ]. apply get_cost_consistent; auto; [ destruct ms; cbn in L; [ lia | discriminate ] | apply conv_no_nan ].
  Qed.

  (** every pass but the last one lowers the cost by more than the tolerance *)
  Lemma loop_gain max_iter : forall fuel cc st ms st' cc', ok_state X D k st ms ->
    kmedoids_loop fuel X D (Z.of_nat k) md max_iter (Fin t) cc st = Ok (st', cc') ->
    exists q q', tot st = Fin q /\ tot st' = Fin q' /\ (0 <= q')%Q /\ (inject_Z (cc' - cc) * t <= q - q')%Q.
  Proof using HI HF Hpos Ht Hk Hmd.
    induction fuel as [ | fuel IH ]; intros cc st ms st' cc' Hok E; [ discriminate | ]. cbn [kmedoids_loop] in E.
    destruct (pass_spec X D (Fin t) md k HI conv_tol Hk st ms Hok Hmd) as (st1 & ms1 & sw & E1 & L & N & Y). rewrite E1 in E. cbn [bind] in E.
    pose proof L as (Hok1 & _ & HL).
    destruct (ok_total st ms Hok) as (q & Eq & Hq). destruct (ok_total st1 ms1 Hok1) as (q1 & Eq1 & Hq1).
    assert (G : flt (Fin t) (fsub (tot st) (tot st1)) = true -> (t < q - q1)%Q).
    { rewrite Eq, Eq1. cbn [fsub]. intros F. apply flt_Fin in F. exact F. }
    assert (Gle : (q1 <= q)%Q). { destruct HL as [ [ E2 _ ] | F ]; [ rewrite E2, Eq in Eq1; injection Eq1 as ->; lra | specialize (G F); lra ]. }
    assert (Z0 : (inject_Z (cc - cc) == 0)%Q) by (rewrite Z.sub_diag; reflexivity).
    destruct (max_iter <? cc)%Z.
    - injection E as <- <-. exists q, q1. repeat split; auto. rewrite Z0. lra.
    - destruct sw; cbn [negb] in E.
      + destruct (IH _ _ _ _ _ Hok1 E) as (q1' & q' & Eq1' & Eq' & Hq' & Hg). rewrite Eq1 in Eq1'. injection Eq1' as <-.
        exists q, q'. repeat split; auto. specialize (G (Y eq_refl)).
        assert (Es : (inject_Z (cc' - cc) == inject_Z (cc' - (cc + 1)) + 1)%Q).
        { change 1%Q with (inject_Z 1). rewrite <- inject_Z_plus. replace (cc' - (cc + 1) + 1)%Z with (cc' - cc)%Z by lia. reflexivity. }
        rewrite Es. lra.
      + injection E as <- <-. exists q, q1. repeat split; auto. rewrite Z0. lra.
  Qed.
End Converge.

(** The total of medoids of a region is at most what any assignment of the points to these medoids adds up to. *)
Lemma region_total_le env o d sc (dist : point -> point -> Q) ms c (a : point -> point) :
  qwf d sc -> measured env o d (fun q pt => Fin (dist q pt)) ->
  let X := map (t_ser (qregion d sc)) (grid (a3x d) (a3y d)) in let D := distance_of env o in
  valid_indices X ms -> consistent X D ms c ->
  (forall pt, in_grid (a3x d) (a3y d) pt -> in_grid (a3x d) (a3y d) (a pt) /\ In (Z.of_nat (index_of (a3y d) (a pt))) ms) ->
  exists q0, c_total c = Fin q0 /\ (q0 <= qsum (map (fun pt => dist (a pt) pt) (grid (a3x d) (a3y d))))%Q.
Proof.
  intros Hq Hd X D Vs C0 Ha. pose proof (samples d sc) as LX. fold X in LX.
  pose proof (region_finite env o d sc _ Hq Hd (fun _ _ _ _ => eq_refl)) as HF. fold X D in HF.
  assert (G : forall f, qsum (map f (grid (a3x d) (a3y d))) = qsum (map (fun i => f (decode (a3y d) i)) (seq 0 (a3x d * a3y d)))).
  { intros f. rewrite grid_decode, map_map. reflexivity. }
  assert (T : feqv (c_total c) (Fin (qsum (map (fun i => qof (dist_j X D ms (nth i (c_labels c) (length ms)) i)) (seq 0 (length X)))))).
  { etransitivity; [ apply (total_is_sum_of_least X D _ _ Vs HF C0) | ]. apply feqv_fsum_map with
      (g := fun i => qof (dist_j X D ms (nth i (c_labels c) (length ms)) i)). intros i Hi. apply in_seq in Hi.
    rewrite <- is_fin_qof; [ apply feqv_refl | ]. apply HF; [ | lia ]. destruct C0 as (_ & N & _). destruct (N i ltac:(lia)) as [ N1 _ ].
    pose proof (Vs _ (nth_In _ 0%Z N1)). lia. }
  destruct (c_total c) as [ | | | q0 ]; cbn in T; try contradiction. exists q0. split; [ reflexivity | ]. rewrite T.
  rewrite G, LX. apply qsum_le_map. intros i Hi. apply in_seq in Hi. pose proof (decode_in_grid (a3x d) (a3y d) i ltac:(lia)) as Gi.
  destruct (Ha _ Gi) as [ Gs Is ]. set (q := a (decode (a3y d) i)) in *. apply In_nth_error in Is. destruct Is as [ j Ej ].
  destruct C0 as (_ & N & _). destruct (N i ltac:(lia)) as (N1 & N2 & _). assert (Hj : j < length ms) by (apply nth_error_Some; congruence).
  specialize (N2 j Hj). assert (Ed : dist_j X D ms j i = Fin (dist q (decode (a3y d) i))).
  { unfold dist_j. rewrite (nth_error_nth _ _ 0%Z Ej), Nat2Z.id. unfold X, D. destruct (index_of_encode _ _ _ Gs) as [ _ Li ].
    rewrite (region_dist env o d sc _ Hq Hd) by lia. pose proof (nth_error_grid_index _ _ _ Gs) as A. rewrite nth_error_grid in A by exact Li. congruence. }
  rewrite Ed in N2. assert (Ef : is_fin (dist_j X D ms (nth i (c_labels c) (length ms)) i) = true).
  { apply HF; [ | lia ]. pose proof (Vs _ (nth_In _ 0%Z N1)). lia. }
  rewrite (is_fin_qof _ Ef) in N2. apply fle_Fin in N2. exact N2.
Qed.

Lemma decode_index_of x y q : in_grid x y q -> decode y (index_of y q) = q.
Proof.
  intros Gq. destruct (index_of_encode _ _ _ Gq) as [ _ Li ]. pose proof (nth_error_grid_index _ _ _ Gq) as A. rewrite nth_error_grid in A by exact Li. congruence.
Qed.
