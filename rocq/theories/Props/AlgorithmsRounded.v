(** C160: the k-medoids algorithm applied to a region, in floating point. *)
From Coq Require Import String Lia Lqa QArith.
From Verif Require Import Base.Py Base.PyFacts Base.Str Base.Arr Base.ArrFacts Base.Float Base.FloatFacts Model.Region Model.Arrays Model.Distance Model.KMedoids
  Model.Clustering Model.SolverFiles Model.Algorithms Model.Rounded Model.RoundedErrors Model.KMedoidsRounded Model.AlgorithmsRounded
  Spec.Grid Spec.Partition Spec.Distance Spec.Medoids Spec.Solver Spec.Regions Spec.Algorithms Spec.Rounded Spec.Ieee Spec.KMedoidsRounded
  Proofs.RegionFacts Proofs.PartitionFacts Proofs.ProperFacts Proofs.SolverFacts Proofs.ArraysFacts Proofs.DistanceFacts Proofs.DistanceObjFacts Proofs.VarianceFacts
  Proofs.KMedoidsFacts Proofs.ReportFacts Proofs.AlgorithmFacts Proofs.BarycenterFacts Proofs.RoundedFacts Proofs.IeeeFacts Proofs.KMedoidsRoundedFacts Proofs.SummationFacts Proofs.AlgorithmsRoundedFacts Props.Basics Props.KMedoids Props.Distance Props.Ieee Props.Algorithms Props.KMedoidsRounded.
From Coq Require Import ZifyBool ZifyNat.
Local Notation length := List.length.
Local Close Scope Q_scope.
Local Open Scope nat_scope.

(** However sums and differences are rounded: the partition with its medoids, with or without asking for medoids; the only failure is the report (verbose, the default)
    when the clustering that was found leaves a cluster without points. *)
Theorem C160_kmedoids : forall rnd sum choice env o d sc x y dist k m starts,
  rounding rnd -> qwf d sc -> a3x d = x -> a3y d = y -> 0 < x * y -> measured env o d dist ->
  (forall q pt, in_grid x y q -> in_grid x y pt -> is_nan (dist q pt) = false) -> can_start choice m x y k starts ->
  exists p ms, clustered dist x y k p ms /\
    let every_cluster := forall j, j < k -> exists pt, in_grid x y pt /\ label_at p pt (Z.of_nat j) in
    (km_verbose m = false \/ every_cluster ->
       kmedoids_partition_impl_r rnd sum choice env m (qregion d sc) true o = Ok (p, Some ms) /\
       kmedoids_partition_impl_r rnd sum choice env m (qregion d sc) false o = Ok (p, None)) /\
    (km_verbose m = true -> ~ every_cluster -> forall wm, kmedoids_partition_impl_r rnd sum choice env m (qregion d sc) wm o = Raise IndexError).
Proof.
  intros rnd sum choice env o d sc x y dist k m starts HR Hq Hx Hy Hpos Hd Hnan (Hk & Hk0 & Htol & Hmode & Hinit & Hlen & Hnd & Hval). subst x y.
  destruct (region_search_r rnd sum choice env o d sc dist k m starts HR Hq Hd Hpos Hnan Hk Hk0 Htol Hmode Hinit Hlen Hnd Hval)
    as (r & p & Er & _ & _ & HC & Vr & Lr & Ep & Hcl & Hat & Hall & E).
  exists p, (map (zdecode (a3y d)) (r_medoids r)). split; [ exact Hcl | ]. cbv zeta. rewrite <- Hall.
  assert (Hf : forallb (fun j => existsb (Nat.eqb j) (c_labels (r_cost r))) (seq 0 k) = true <-> (forall j, j < k -> In j (c_labels (r_cost r)))).
  { rewrite forallb_forall. split.
    - intros H j Hj. assert (Hin : In j (seq 0 k)) by (apply in_seq; lia). specialize (H j Hin). apply existsb_exists in H. destruct H as (l & Hl & El).
      apply Nat.eqb_eq in El. subst l. exact Hl.
    - intros H j Hj. apply in_seq in Hj. apply existsb_exists. exists j. split; [ apply H; lia | apply Nat.eqb_refl ]. }
  split.
  - intros H. rewrite !E. assert (km_verbose m && negb (forallb (fun j => existsb (Nat.eqb j) (c_labels (r_cost r))) (seq 0 k)) = false) as ->.
    { destruct H as [ -> | H ]; [ reflexivity | ]. rewrite (proj2 Hf H). apply Bool.andb_false_r. }
    split; reflexivity.
  - intros Hvb H wm. rewrite E, Hvb. destruct (forallb _ _) eqn:Ef; [ | reflexivity ]. exfalso. apply H, Hf. reflexivity.
Qed.
Print Assumptions C160_kmedoids.

(** When different points have positive distance (and equal ones distance 0) the clustering never fails, whatever the rounding: there are exactly k
    clusters and every medoid lies in its own. *)
Theorem C160_kmedoids_distinct : forall rnd sum choice env o d sc x y dist k m starts,
  rounding rnd -> qwf d sc -> a3x d = x -> a3y d = y -> 0 < x * y -> measured env o d dist ->
  (forall q pt, in_grid x y q -> in_grid x y pt -> is_nan (dist q pt) = false) ->
  (forall q, in_grid x y q -> feqb (dist q q) (Fin 0) = true) ->
  (forall q pt, in_grid x y q -> in_grid x y pt -> q <> pt -> flt (Fin 0) (dist q pt) = true) ->
  can_start choice m x y k starts ->
  exists p ms, kmedoids_partition_impl_r rnd sum choice env m (qregion d sc) true o = Ok (p, Some ms) /\
    kmedoids_partition_impl_r rnd sum choice env m (qregion d sc) false o = Ok (p, None) /\
    clustered dist x y k p ms /\ pk p = Z.of_nat k /\
    forall i q, nth_error ms i = Some q -> label_at p q (Z.of_nat i).
Proof.
  intros rnd sum choice env o d sc x y dist k m starts HR Hq Hx Hy Hpos Hd Hnan H0 Hp Hstart.
  destruct (C160_kmedoids rnd sum choice env o d sc x y dist k m starts HR Hq Hx Hy Hpos Hd Hnan Hstart) as (p & ms & Hcl & Hok & _).
  pose proof Hcl as (HV & Hk & HL & HN & HG & Hnear).
  assert (Hown : forall i q, nth_error ms i = Some q -> label_at p q (Z.of_nat i)).
  { intros i q Ei. assert (Gq : in_grid x y q) by (rewrite Forall_forall in HG; apply HG; eapply nth_error_In; exact Ei).
    destruct (Hnear q Gq) as (l & Ll & ml & El & Hle & Hlt). enough (l = i) by congruence.
    pose proof (Hle i q Ei) as A. assert (Gm : in_grid x y ml) by (rewrite Forall_forall in HG; apply HG; eapply nth_error_In; exact El).
    assert (ml = q) as ->.
    { assert (Hdec : {ml = q} + {ml <> q}) by (repeat decide equality). destruct Hdec as [ E | E ]; [ exact E | exfalso ].
      specialize (Hp ml q Gm Gq E). specialize (H0 q Gq). pose proof (flt_le_trans _ _ _ Hp A) as F. rewrite feqb_sym in H0. apply feqb_nlt in H0. congruence. }
    rewrite NoDup_nth_error in HN. apply HN; [ apply nth_error_Some; congruence | congruence ]. }
  assert (Hev : forall j, j < k -> exists pt, in_grid x y pt /\ label_at p pt (Z.of_nat j)).
  { intros j Hj. destruct (nth_error ms j) as [ q | ] eqn:Ej; [ | apply nth_error_None in Ej; lia ]. exists q. split; [ | apply Hown, Ej ].
    rewrite Forall_forall in HG. apply HG. eapply nth_error_In. exact Ej. }
  destruct (Hok (or_intror Hev)) as [ E1 E2 ]. exists p, ms. split; [ exact E1 | ]. split; [ exact E2 | ]. split; [ exact Hcl | ].
  split; [ | exact Hown ]. destruct Hstart as (_ & Hk0 & _). destruct (Hev (k - 1) ltac:(lia)) as (pt & Hg & Hl). destruct HV as (_ & _ & _ & Hr & _). specialize (Hr pt _ Hg Hl). lia.
Qed.
Print Assumptions C160_kmedoids_distinct.

(** In double precision, with finite distances of at least 0 and a computed cost of the starting points that does not overflow: the
    exact sum of the distances of the points from the medoids of their clusters exceeds that of the distances from starting points,
    whichever starting point each point is assigned to, by no more than the rounding errors of sums of depth [h]. *)
Theorem C160_near_start_double : forall ord N h choice env o d sc xl yl (dist : point -> point -> Q) k m starts p ms (own start : point -> point),
  summation ord N h -> xl * yl <= N -> k <= N ->
  qwf d sc -> a3x d = xl -> a3y d = yl -> 0 < xl * yl -> measured env o d (fun q pt => Fin (dist q pt)) ->
  (forall q pt, in_grid xl yl q -> in_grid xl yl pt -> 0 <= dist q pt)%Q -> can_start choice m xl yl k starts ->
  (forall X c0, as_list (qregion d sc) = Ok X -> consistent_by (sum_by double ord) X (distance_of env o) starts c0 -> is_fin (c_total c0) = true) ->
  kmedoids_partition_impl_r double (sum_by double ord) choice env m (qregion d sc) true o = Ok (p, Some ms) ->
  (forall pt, in_grid xl yl pt -> exists l, label_at p pt l /\ nth_error ms (Z.to_nat l) = Some (own pt)) ->
  (forall pt, in_grid xl yl pt -> in_grid xl yl (start pt) /\ In (Z.of_nat (index_of yl (start pt))) starts) ->
  let u := (/ inject_Z (2 ^ 53))%Q in let z := (inject_Z (Z.of_nat (xl * yl + k)) / inject_Z (2 ^ 1074))%Q in
  (qpow (1 - u) (h + h) * qsum (map (fun pt => dist (own pt) pt) (grid xl yl)) <=
   qpow (1 + u) (h + h) * (qsum (map (fun pt => dist (start pt) pt) (grid xl yl)) + z) + z)%Q.
Proof.
  intros ord N h choice env o d sc xl yl dist k m starts p ms own start Ho HN1 HN2 Hq Hx Hy Hpos Hd Hge (Hk & Hk0 & Htol & Hmode & Hinit & Hlen & Hnd & Hval) Hfin Hrun Hown Hstart. subst xl yl.
  destruct (region_search_r double (sum_by double ord) choice env o d sc _ k m starts double_rounding Hq Hd Hpos (fun _ _ _ _ => eq_refl) Hk Hk0 Htol Hmode Hinit Hlen Hnd Hval)
    as (r & p' & Er & Hs & Hm & HC & Vr & Lr & Ep & Hcl & Hat & Hall & E).
  rewrite E in Hrun. destruct (_ && _); [ discriminate | ]. injection Hrun as <- <-. clear E.
  specialize (fun c0 => Hfin _ c0 (q_as_list d sc Hq)) as Hfin'. clear Hfin. rename Hfin' into Hfin.
  set (X := map (t_ser (qregion d sc)) (grid (a3x d) (a3y d))) in *. set (D := distance_of env o) in *.
  pose proof (samples d sc) as LX. fold X in LX.
  pose proof (region_instance env o d sc _ Hd) as HI. fold X D in HI.
  pose proof (region_finite env o d sc _ Hq Hd (fun _ _ _ _ => eq_refl)) as HF. fold X D in HF.
  assert (HN : dist_no_nan X D) by (intros a b Ha Hb; specialize (HF a b Ha Hb); destruct (sample_dist X D a b); auto; discriminate).
  assert (Hne : starts <> []) by (intros ->; cbn in Hlen; lia).
  assert (Hner : r_medoids r <> []) by (intros E0; rewrite E0 in Lr; cbn in Lr; lia).
  pose proof Hs as (_ & _ & _ & Vs).
  destruct (r_get_cost_ok (sum_by double ord) X D starts HI Vs Hne) as (l1 & E1 & _).
  pose proof (r_get_cost_consistent (sum_by double ord) X D starts _ HI Vs Hne HN E1) as C1. set (c0 := r_cost_of (sum_by double ord) X D starts l1) in *. clearbody c0.
  destruct (get_cost_ok X D starts HI Vs Hne) as (l0 & E0 & _).
  pose proof (get_cost_consistent X D starts _ HI Vs Hne HN E0) as Cx0. set (x0 := cost_of X D starts l0) in *. clearbody x0.
  destruct (get_cost_ok X D (r_medoids r) HI Vr Hner) as (l2 & E2 & _).
  pose proof (get_cost_consistent X D (r_medoids r) _ HI Vr Hner HN E2) as Cx. set (x := cost_of X D (r_medoids r) l2) in *. clearbody x.
  assert (EL : c_labels x = c_labels (r_cost r)).
  { destruct HC as (A1 & A2 & _), Cx as (B1 & B2 & _). apply nth_ext with (d := length (r_medoids r)) (d' := length (r_medoids r)); [ congruence | ].
    intros i Hi. rewrite B1 in Hi. eapply nearest_unique; eauto. }
  assert (Hge' : forall a b, a < length X -> b < length X -> fle (Fin 0) (sample_dist X D a b) = true).
  { intros a b Ha Hb. rewrite LX in Ha, Hb. unfold X, D. rewrite (region_dist env o d sc _ Hq Hd) by lia. apply fle_Fin. apply Hge; apply decode_in_grid; lia. }
  rewrite <- LX in HN1.
  destruct (C154_exact_cost_double ord N h (choice (km_seed m)) X k D (km_init m) (mode_of (km_mode m)) (km_max_iter m) (km_tol m) starts r c0 x0 x
    Ho HN1 HN2 HI HF Hge' Htol Hm Hs Er C1 (Hfin c0 C1) Cx0 Cx) as (q0 & qr & Q0 & Q1 & _ & HB). rewrite LX in HB.
  assert (G : forall f, qsum (map f (grid (a3x d) (a3y d))) = qsum (map (fun i => f (decode (a3y d) i)) (seq 0 (a3x d * a3y d)))).
  { intros f. rewrite grid_decode, map_map. reflexivity. }
  assert (T1 : feqv (c_total x) (Fin (qsum (map (fun pt => dist (own pt) pt) (grid (a3x d) (a3y d)))))).
  { etransitivity; [ apply (total_is_sum_of_least X D _ _ Vr HF Cx) | ]. rewrite G, LX. apply feqv_fsum_map. intros i Hi. apply in_seq in Hi.
    destruct (Hat i ltac:(lia)) as (l & El & Al). rewrite EL, (nth_error_nth _ _ (length (r_medoids r)) El).
    destruct (Hown (decode (a3y d) i) (decode_in_grid (a3x d) (a3y d) i ltac:(lia))) as (l' & Al' & Eo). unfold label_at in Al, Al'. rewrite Al in Al'. injection Al' as <-.
    rewrite Nat2Z.id, nth_error_map in Eo. destruct (nth_error (r_medoids r) l) as [ z | ] eqn:Ez; [ | discriminate ]. injection Eo as <-.
    unfold dist_j. rewrite (nth_error_nth _ _ 0%Z Ez). pose proof (Vr z (nth_error_In _ _ Ez)) as Hz. rewrite LX in Hz. unfold X, D.
    rewrite (region_dist env o d sc _ Hq Hd) by lia. reflexivity. }
  assert (T2 : exists q0, feqv (c_total x0) (Fin q0) /\ (q0 <= qsum (map (fun pt => dist (start pt) pt) (grid (a3x d) (a3y d))))%Q).
  { eexists. split.
    - etransitivity; [ apply (total_is_sum_of_least X D _ _ Vs HF Cx0) | ]. apply feqv_fsum_map with
        (g := fun i => qof (dist_j X D starts (nth i (c_labels x0) (length starts)) i)). intros i Hi. apply in_seq in Hi.
      rewrite <- is_fin_qof; [ apply feqv_refl | ]. apply HF; [ | lia ]. destruct Cx0 as (_ & NN & _). destruct (NN i ltac:(lia)) as [ N1 _ ].
      pose proof (Vs _ (nth_In _ 0%Z N1)). lia.
    - rewrite G, LX. apply qsum_le_map. intros i Hi. apply in_seq in Hi. pose proof (decode_in_grid (a3x d) (a3y d) i ltac:(lia)) as Gi.
      destruct (Hstart _ Gi) as [ Gs Is ]. set (q := start (decode (a3y d) i)) in *. apply In_nth_error in Is. destruct Is as [ j Ej ].
      destruct Cx0 as (_ & NN & _). destruct (NN i ltac:(lia)) as (N1 & N2 & _). assert (Hj : j < length starts) by (apply nth_error_Some; congruence).
      specialize (N2 j Hj). assert (Ed : dist_j X D starts j i = Fin (dist q (decode (a3y d) i))).
      { unfold dist_j. rewrite (nth_error_nth _ _ 0%Z Ej), Nat2Z.id. unfold X, D. destruct (index_of_encode _ _ _ Gs) as [ _ Li ].
        rewrite (region_dist env o d sc _ Hq Hd) by lia. pose proof (nth_error_grid_index _ _ _ Gs) as A. rewrite nth_error_grid in A by exact Li. congruence. }
      rewrite Ed in N2. assert (Ef : is_fin (dist_j X D starts (nth i (c_labels x0) (length starts)) i) = true).
      { apply HF; [ | lia ]. pose proof (Vs _ (nth_In _ 0%Z N1)). lia. }
      rewrite (is_fin_qof _ Ef) in N2. apply fle_Fin in N2. exact N2. }
  destruct T2 as (q0' & T2 & Hq0). rewrite Q0 in T2. rewrite Q1 in T1. cbn [feqv] in T1, T2. cbv zeta.
  revert HB. generalize (inject_Z (Z.of_nat (a3x d * a3y d + k)) / inject_Z (2 ^ 1074))%Q. intros z HB.
  assert (U : (0 <= qpow (1 + / inject_Z (2 ^ 53)) (h + h))%Q) by (apply qpow_pos; vm_compute; discriminate).
  revert U HB. generalize (qpow (1 + / inject_Z (2 ^ 53)) (h + h)), (qpow (1 - / inject_Z (2 ^ 53)) (h + h)). intros b a U HB.
  rewrite <- T1. eapply Qle_trans; [ exact HB | ]. apply Qplus_le_l. rewrite !(Qmult_comm b). apply Qmult_le_compat_r; [ | exact U ]. apply Qplus_le_l. rewrite T2. exact Hq0.
Qed.
Print Assumptions C160_near_start_double.

(* ---------- examples ---------- *)
(* the hypotheses are met in double precision; with three binary digits the medoids are those of exact arithmetic *)
Example C160_ex : rounding double /\ qwf ex_d None /\ a3x ex_d = 1 /\ a3y ex_d = 3 /\ measured ex_env ex_loaded ex_d (fun q pt => Fin (ex_dist q pt)) /\
  (forall q, in_grid 1 3 q -> feqb (Fin (ex_dist q q)) (Fin 0) = true) /\
  (forall q pt, in_grid 1 3 q -> in_grid 1 3 pt -> q <> pt -> flt (Fin 0) (Fin (ex_dist q pt)) = true) /\
  can_start ex_pick (kmeta_default 2 7 "lite") 1 3 2 [0; 1]%Z /\
  exists p, kmedoids_partition_impl_r (float_round 3 3 8) (sum_by (float_round 3 3 8) one_by_one) ex_pick ex_env (kmeta_default 2 7 "lite") (TPlain ex_d) true ex_loaded
    = Ok (p, Some [(0, 0); (0, 2)]%Z).
Proof.
  split; [ exact double_rounding | ]. split; [ split; [ exact ex_wf | exact I ] | ]. do 2 (split; [ reflexivity | ]). split; [ exact ex_measured | ]. split.
  { intros q Hq. apply ex_points in Hq. destruct Hq as [ -> | [ -> | -> ] ]; reflexivity. } split.
  { intros q pt Hq Hp Hn. apply ex_points in Hq, Hp. destruct Hq as [ -> | [ -> | -> ] ]; destruct Hp as [ -> | [ -> | -> ] ]; try congruence; reflexivity. }
  split; [ exact ex_starts | ]. eexists. vm_compute. reflexivity.
Qed.
(* the computed cost of the starting points is finite, and the partition is found in double precision *)
Example C160_near_start_ex : summation one_by_one 3 3 /\ (forall q pt, in_grid 1 3 q -> in_grid 1 3 pt -> 0 <= ex_dist q pt)%Q /\
  (forall X c0, as_list (qregion ex_d None) = Ok X -> consistent_by (sum_by double one_by_one) X (distance_of ex_env ex_loaded) [0; 1]%Z c0 -> is_fin (c_total c0) = true) /\
  exists p ms, kmedoids_partition_impl_r double (sum_by double one_by_one) ex_pick ex_env (kmeta_default 2 7 "lite") (qregion ex_d None) true ex_loaded = Ok (p, Some ms).
Proof.
  destruct C160_ex as (HR & Hq & Hx & Hy & Hm & H0 & Hp & Hs & _).
  split; [ apply one_by_one_summation | ]. split; [ | split ].
  - intros q pt Gq Gp. apply ex_points in Gq, Gp. destruct Gq as [ -> | [ -> | -> ] ]; destruct Gp as [ -> | [ -> | -> ] ]; vm_compute; discriminate.
  - intros X c0 EX HC. apply consistent_by_get_cost in HC.
    + vm_compute in EX. injection EX as <-. vm_compute in HC. injection HC as <-. reflexivity.
    + rewrite (q_as_list ex_d None Hq) in EX. injection EX as <-. exact (region_instance ex_env ex_loaded ex_d None _ Hm).
    + vm_compute in EX. injection EX as <-. intros z [ <- | [ <- | [] ] ]; cbn; lia.
    + discriminate.
    + rewrite (q_as_list ex_d None Hq) in EX. injection EX as <-. exact (region_no_nan ex_env ex_loaded ex_d None _ Hq Hm (fun _ _ _ _ => eq_refl)).
  - destruct (C160_kmedoids_distinct double (sum_by double one_by_one) ex_pick ex_env ex_loaded ex_d None 1 3 _ 2 _ _ HR Hq Hx Hy ltac:(lia) Hm (fun _ _ _ _ => eq_refl) H0 Hp Hs)
      as (p & ms & E & _). exists p, ms. exact E.
Qed.
