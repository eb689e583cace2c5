(** C116: the clustering algorithms applied to a region. *)
From Coq Require Import String Lia Lqa.
From Verif Require Import Base.Py Base.PyFacts Base.Str Base.Arr Base.ArrFacts Base.Float Base.FloatFacts Model.Region Model.Arrays Model.Distance Model.KMedoids
  Model.Clustering Model.SolverFiles Model.Algorithms Spec.Grid Spec.Partition Spec.Distance Spec.Medoids Spec.Solver Spec.Regions Spec.Algorithms
  Proofs.RegionFacts Proofs.PartitionFacts Proofs.ProperFacts Proofs.SolverFacts Proofs.ArraysFacts Proofs.DistanceFacts Proofs.DistanceObjFacts Proofs.VarianceFacts
  Proofs.KMedoidsFacts Proofs.ReportFacts Proofs.AlgorithmFacts Proofs.BarycenterFacts Props.Basics Props.KMedoids Props.Distance.
From Coq Require Import ZifyBool ZifyNat.
Local Notation length := List.length.
Local Open Scope nat_scope.

(** the k-medoids search can start: [k] different points of the x-by-y region are given (initial_medoids) or chosen at random *)
Definition can_start (choice : Z -> nat -> Z -> res (list Z)) (m : kmeta) (x y k : nat) (starts : list Z) : Prop :=
  km_k m = Z.of_nat k /\ 0 < k /\ fle (Fin 0) (km_tol m) = true /\ (km_mode m = "lite" \/ km_mode m = "robust")%string /\
  match km_init m with None | Some [] => choice (km_seed m) (x * y) (Z.of_nat k) | Some l => Ok l end = Ok starts /\
  length starts = k /\ NoDup starts /\ (forall i, In i starts -> 0 <= i < Z.of_nat (x * y))%Z.

(** The partition with its medoids, with or without asking for medoids; the only failure is the report (verbose, the default)
    when the clustering that was found leaves a cluster without points. *)
Theorem C116_kmedoids : forall choice env o d sc x y dist k m starts,
  qwf d sc -> a3x d = x -> a3y d = y -> 0 < x * y -> measured env o d dist ->
  (forall q pt, in_grid x y q -> in_grid x y pt -> is_nan (dist q pt) = false) -> can_start choice m x y k starts ->
  exists p ms, clustered dist x y k p ms /\
    let every_cluster := forall j, j < k -> exists pt, in_grid x y pt /\ label_at p pt (Z.of_nat j) in
    (km_verbose m = false \/ every_cluster ->
       kmedoids_partition_impl choice env m (qregion d sc) true o = Ok (p, Some ms) /\
       kmedoids_partition_impl choice env m (qregion d sc) false o = Ok (p, None)) /\
    (km_verbose m = true -> ~ every_cluster -> forall wm, kmedoids_partition_impl choice env m (qregion d sc) wm o = Raise IndexError).
Proof.
  intros choice env o d sc x y dist k m starts Hq Hx Hy Hpos Hd Hnan (Hk & Hk0 & Htol & Hmode & Hinit & Hlen & Hnd & Hval). subst x y.
  destruct (region_search choice env o d sc dist k m starts Hq Hd Hpos Hnan Hk Hk0 Htol Hmode Hinit Hlen Hnd Hval)
    as (r & p & Er & _ & _ & HC & Vr & Lr & Ep & Hcl & Hat & Hall & E).
  exists p, (map (zdecode (a3y d)) (r_medoids r)). split; [ exact Hcl | ]. cbv zeta. rewrite <- Hall.
  assert (Hf : forallb (fun j => existsb (Nat.eqb j) (c_labels (r_cost r))) (seq 0 k) = true <-> (forall j, j < k -> In j (c_labels (r_cost r)))).
  { rewrite forallb_forall. split.
    - intros H j Hj. assert (Hin : In j (seq 0 k)) by (apply in_seq; lia). specialize (H j Hin). apply existsb_exists in H. destruct H as (l & Hl & El).
      apply Nat.eqb_eq in El. subst l. exact Hl.
    - intros H j Hj. apply in_seq in Hj. apply existsb_exists. exists j. split; [ apply H; lia | apply Nat.eqb_refl ]. }
  split.
  - intros H. rewrite !E. assert (km_verbose m && negb (forallb (fun j => existsb (Nat.eqb j) (c_labels (r_cost r))) (seq 0 k)) = false) as ->.
    { destruct H as [ -> | H ]; [ reflexivity | ]. rewrite (proj2 Hf H). apply Bool.andb_false_r. }
    split; reflexivity.
  - intros Hvb H wm. rewrite E, Hvb. destruct (forallb _ _) eqn:Ef; [ | reflexivity ]. exfalso. apply H, Hf. reflexivity.
Qed.
Print Assumptions C116_kmedoids.

(** When different points have positive distance (and equal ones distance 0) the clustering never fails: there are exactly k
    clusters and every medoid lies in its own. *)
Theorem C116_kmedoids_distinct : forall choice env o d sc x y dist k m starts,
  qwf d sc -> a3x d = x -> a3y d = y -> 0 < x * y -> measured env o d dist ->
  (forall q pt, in_grid x y q -> in_grid x y pt -> is_nan (dist q pt) = false) ->
  (forall q, in_grid x y q -> feqb (dist q q) (Fin 0) = true) ->
  (forall q pt, in_grid x y q -> in_grid x y pt -> q <> pt -> flt (Fin 0) (dist q pt) = true) ->
  can_start choice m x y k starts ->
  exists p ms, kmedoids_partition_impl choice env m (qregion d sc) true o = Ok (p, Some ms) /\
    kmedoids_partition_impl choice env m (qregion d sc) false o = Ok (p, None) /\
    clustered dist x y k p ms /\ pk p = Z.of_nat k /\
    forall i q, nth_error ms i = Some q -> label_at p q (Z.of_nat i).
Proof.
  intros choice env o d sc x y dist k m starts Hq Hx Hy Hpos Hd Hnan H0 Hp Hstart.
  destruct (C116_kmedoids choice env o d sc x y dist k m starts Hq Hx Hy Hpos Hd Hnan Hstart) as (p & ms & Hcl & Hok & _).
  pose proof Hcl as (HV & Hk & HL & HN & HG & Hnear).
  assert (Hown : forall i q, nth_error ms i = Some q -> label_at p q (Z.of_nat i)).
  { intros i q Ei. assert (Gq : in_grid x y q) by (rewrite Forall_forall in HG; apply HG; eapply nth_error_In; exact Ei).
    destruct (Hnear q Gq) as (l & Ll & ml & El & Hle & Hlt). enough (l = i) by congruence.
    pose proof (Hle i q Ei) as A. assert (Gm : in_grid x y ml) by (rewrite Forall_forall in HG; apply HG; eapply nth_error_In; exact El).
    assert (ml = q) as ->.
    { assert (Hdec : {ml = q} + {ml <> q}) by (repeat decide equality). destruct Hdec as [ E | E ]; [ exact E | exfalso ].
      specialize (Hp ml q Gm Gq E). specialize (H0 q Gq). pose proof (flt_le_trans _ _ _ Hp A) as F. rewrite feqb_sym in H0. apply feqb_nlt in H0. congruence. }
    rewrite NoDup_nth_error in HN. apply HN; [ apply nth_error_Some; congruence | congruence ]. }
  assert (Hev : forall j, j < k -> exists pt, in_grid x y pt /\ label_at p pt (Z.of_nat j)).
  { intros j Hj. destruct (nth_error ms j) as [ q | ] eqn:Ej; [ | apply nth_error_None in Ej; lia ]. exists q. split; [ | apply Hown, Ej ].
    rewrite Forall_forall in HG. apply HG. eapply nth_error_In. exact Ej. }
  destruct (Hok (or_intror Hev)) as [ E1 E2 ]. exists p, ms. split; [ exact E1 | ]. split; [ exact E2 | ]. split; [ exact Hcl | ].
  split; [ | exact Hown ]. destruct Hstart as (_ & Hk0 & _). destruct (Hev (k - 1) ltac:(lia)) as (pt & Hg & Hl). destruct HV as (_ & _ & _ & Hr & _). specialize (Hr pt _ Hg Hl). lia.
Qed.
Print Assumptions C116_kmedoids_distinct.

(** With finite distances the medoids found are, taken together, at least as near as the starting ones: the distances of the
    points from the medoids of their clusters add up to at most the distances from starting points, whichever starting
    point each point is assigned to. *)
Theorem C116_no_worse_than_start : forall choice env o d sc x y (dist : point -> point -> Q) k m starts p ms (own start : point -> point),
  qwf d sc -> a3x d = x -> a3y d = y -> 0 < x * y -> measured env o d (fun q pt => Fin (dist q pt)) -> can_start choice m x y k starts ->
  kmedoids_partition_impl choice env m (qregion d sc) true o = Ok (p, Some ms) ->
  (forall pt, in_grid x y pt -> exists l, label_at p pt l /\ nth_error ms (Z.to_nat l) = Some (own pt)) ->
  (forall pt, in_grid x y pt -> in_grid x y (start pt) /\ In (Z.of_nat (index_of y (start pt))) starts) ->
  (qsum (map (fun pt => dist (own pt) pt) (grid x y)) <= qsum (map (fun pt => dist (start pt) pt) (grid x y)))%Q.
Proof.
  intros choice env o d sc x y dist k m starts p ms own start Hq Hx Hy Hpos Hd (Hk & Hk0 & Htol & Hmode & Hinit & Hlen & Hnd & Hval) Hrun Hown Hstart. subst x y.
  destruct (region_search choice env o d sc _ k m starts Hq Hd Hpos (fun _ _ _ _ => eq_refl) Hk Hk0 Htol Hmode Hinit Hlen Hnd Hval)
    as (r & p' & Er & Hs & Hm & HC & Vr & Lr & Ep & Hcl & Hat & Hall & E).
  rewrite E in Hrun. destruct (_ && _); [ discriminate | ]. injection Hrun as <- <-. clear E.
  set (X := map (t_ser (qregion d sc)) (grid (a3x d) (a3y d))) in *. set (D := distance_of env o) in *.
  pose proof (samples d sc) as LX. fold X in LX.
  pose proof (region_instance env o d sc _ Hd) as HI. fold X D in HI.
  pose proof (region_finite env o d sc _ Hq Hd (fun _ _ _ _ => eq_refl)) as HF. fold X D in HF.
  assert (HN : dist_no_nan X D) by (intros a b Ha Hb; specialize (HF a b Ha Hb); destruct (sample_dist X D a b); auto; discriminate).
  assert (Hne : starts <> []) by (intros ->; cbn in Hlen; lia).
  pose proof Hs as (_ & _ & _ & Vs).
  destruct (get_cost_ok X D starts HI Vs Hne) as (l0 & E0 & _).
  pose proof (get_cost_consistent X D starts _ HI Vs Hne HN E0) as C0. set (c0 := cost_of X D starts l0) in *.
  destruct (C26_at_most_initial_cost _ _ _ _ _ _ _ _ _ _ _ _ HI HF Htol Hm Hs C0 Er) as [ Hle _ ].
  assert (G : forall f, qsum (map f (grid (a3x d) (a3y d))) = qsum (map (fun i => f (decode (a3y d) i)) (seq 0 (a3x d * a3y d)))).
  { intros f. rewrite grid_decode, map_map. reflexivity. }
  assert (T1 : feqv (c_total (r_cost r)) (Fin (qsum (map (fun pt => dist (own pt) pt) (grid (a3x d) (a3y d)))))).
  { etransitivity; [ apply (total_is_sum_of_least X D _ _ Vr HF HC) | ]. rewrite G, LX. apply feqv_fsum_map. intros i Hi. apply in_seq in Hi.
    destruct (Hat i ltac:(lia)) as (l & El & Al). rewrite (nth_error_nth _ _ (length (r_medoids r)) El).
    destruct (Hown (decode (a3y d) i) (decode_in_grid (a3x d) (a3y d) i ltac:(lia))) as (l' & Al' & Eo). unfold label_at in Al, Al'. rewrite Al in Al'. injection Al' as <-.
    rewrite Nat2Z.id, nth_error_map in Eo. destruct (nth_error (r_medoids r) l) as [ z | ] eqn:Ez; [ | discriminate ]. injection Eo as <-.
    unfold dist_j. rewrite (nth_error_nth _ _ 0%Z Ez). pose proof (Vr z (nth_error_In _ _ Ez)) as Hz. rewrite LX in Hz. unfold X, D.
    rewrite (region_dist env o d sc _ Hq Hd) by lia. reflexivity. }
  assert (T2 : exists q0, feqv (c_total c0) (Fin q0) /\ (q0 <= qsum (map (fun pt => dist (start pt) pt) (grid (a3x d) (a3y d))))%Q).
  { eexists. split.
    - etransitivity; [ apply (total_is_sum_of_least X D _ _ Vs HF C0) | ]. apply feqv_fsum_map with
        (g := fun i => qof (dist_j X D starts (nth i (c_labels c0) (length starts)) i)). intros i Hi. apply in_seq in Hi.
      rewrite <- is_fin_qof; [ apply feqv_refl | ]. apply HF; [ | lia ]. destruct C0 as (_ & N & _). destruct (N i ltac:(lia)) as [ N1 _ ].
      pose proof (Vs _ (nth_In _ 0%Z N1)). lia.
    - rewrite G, LX. apply qsum_le_map. intros i Hi. apply in_seq in Hi. pose proof (decode_in_grid (a3x d) (a3y d) i ltac:(lia)) as Gi.
      destruct (Hstart _ Gi) as [ Gs Is ]. set (q := start (decode (a3y d) i)) in *. apply In_nth_error in Is. destruct Is as [ j Ej ].
      destruct C0 as (_ & N & _). destruct (N i ltac:(lia)) as (N1 & N2 & _). assert (Hj : j < length starts) by (apply nth_error_Some; congruence).
      specialize (N2 j Hj). assert (Ed : dist_j X D starts j i = Fin (dist q (decode (a3y d) i))).
      { unfold dist_j. rewrite (nth_error_nth _ _ 0%Z Ej), Nat2Z.id. unfold X, D. destruct (index_of_encode _ _ _ Gs) as [ _ Li ].
        rewrite (region_dist env o d sc _ Hq Hd) by lia. pose proof (nth_error_grid_index _ _ _ Gs) as A. rewrite nth_error_grid in A by exact Li. congruence. }
      rewrite Ed in N2. assert (Ef : is_fin (dist_j X D starts (nth i (c_labels c0) (length starts)) i) = true).
      { apply HF; [ | lia ]. pose proof (Vs _ (nth_In _ 0%Z N1)). lia. }
      rewrite (is_fin_qof _ Ef) in N2. apply fle_Fin in N2. exact N2. }
  destruct T2 as (q0 & T2 & Hq0). eapply Qle_trans; [ | exact Hq0 ]. destruct (c_total (r_cost r)), (c_total c0); cbn in T1, T2; try contradiction.
  apply fle_Fin in Hle. lra.
Qed.
Print Assumptions C116_no_worse_than_start.

(** The regular partition with medoids: the medoid of a cluster is the first of its points whose distances to the points of
    the cluster have the least sum. *)
Theorem C116_regular : forall env md o M d sc x y dist k p,
  qwf d sc -> a3x d = x -> a3y d = y -> (1 <= k)%Z -> with_regular_partition k x y = Ok p -> square (x * y) M -> provides env md o M ->
  (forall q pt, in_grid x y q -> in_grid x y pt -> entry M (index_of y q) (index_of y pt) = Some (dist q pt)) ->
  exists ms, regular_partition_impl env k md (qregion d sc) true o = Ok (p, Some ms) /\
    regular_partition_impl env k md (qregion d sc) false o = Ok (p, None) /\
    valid_partition p x y /\ pk p = k /\ Z.of_nat (length ms) = k /\
    forall i best, nth_error ms i = Some best ->
      exists pts, cluster_points p x y (Z.of_nat i) pts /\ pts <> [] /\ first_least (fun q => fsum (map (dist q) pts)) pts best.
Proof.
  intros env md o M d sc x y dist k p Hq Hx Hy Hk Ep HM Hprov Hent.
  destruct (regular_partition_valid x y k Hk) as (p' & Ep' & Kp & Vp & Hlab).
  { unfold with_regular_partition in Ep. destruct (regular_partitioning x y k); [ eauto | discriminate ]. }
  rewrite Ep in Ep'. injection Ep' as <-.
  assert (Ht : t_x (qregion d sc) = x /\ t_y (qregion d sc) = y) by (rewrite q_x, q_y; auto). destruct Ht as [ Tx Ty ].
  assert (One : forall c, exists best dists, find_centroid_and_distances env (TCluster (qregion d sc) p c) md true o = Ok (best, dists) /\
            let pts := filter (has_lab p c) (grid x y) in first_least (fun q => fsum (map (dist q) pts)) pts best).
  { intros c. destruct (all_point_indices_cluster p (qregion d sc) x y c Vp Tx Ty) as (ns & E3 & _ & E4).
    assert (Hpr : proper_st (TCluster (qregion d sc) p c)).
    { change (proper_st (creg d sc (Some (p, c)))). apply c_proper; [ exact Hq | ]. cbn. rewrite Hx, Hy. exact Vp. }
    pose proof (proper_items _ Hpr) as Hit. change (t_x (TCluster (qregion d sc) p c)) with (t_x (qregion d sc)) in Hit.
    change (t_y (TCluster (qregion d sc) p c)) with (t_y (qregion d sc)) in Hit. rewrite Tx, Ty in Hit.
    change (t_memb (TCluster (qregion d sc) p c)) with (has_lab p c) in Hit. set (pts := filter (has_lab p c) (grid x y)) in *.
    assert (Hpts : map fst (map (fun q => (q, t_ser (TCluster (qregion d sc) p c) q)) pts) = pts) by (rewrite map_map; apply map_id).
    assert (Hin : forall q, In q pts -> in_grid x y q) by (intros q H; apply filter_In in H; apply in_grid_iff, H).
    assert (En : ns = map (index_of y) pts).
    { rewrite E4. assert (filter (fun pt => (label_of p pt =? c)%Z) (grid x y) = pts) as ->.
      { unfold pts. apply filter_ext_in. intros q Hg. apply in_grid_iff in Hg. apply Bool.eq_true_iff_eq. rewrite (has_lab_iff _ _ _ _ _ Vp Hg). 
        rewrite Z.eqb_eq. destruct (label_of_spec p x y q Vp Hg) as [ A _ ]. unfold label_at in *. split; intros B; congruence. }
      apply map_ext_in. intros q H. destruct (index_of_encode _ _ _ (Hin q H)) as [ Ee _ ]. rewrite Ee. apply Nat2Z.id. }
    destruct (centroid_spec env (TCluster (qregion d sc) p c) md o M (x * y) x y _ ns Hit E3 Ty) as (Hr & best & dists & Ef & Hc); auto.
    - rewrite Hpts. exact Hin.
    - rewrite En. intros j Hj. apply in_map_iff in Hj. destruct Hj as (q & <- & H). apply (index_of_encode _ _ _ (Hin q H)).
    - exists best, dists. split; [ exact Ef | ]. apply centroid_first_least in Hc. rewrite Hpts in Hc.
      assert (Hs : forall q, In q pts -> fsum (map (entry_or M (index_of y q)) ns) = fsum (map (dist q) pts)).
      { intros q H. rewrite En, map_map. f_equal. apply map_ext_in. intros q' H'. unfold entry_or. rewrite (Hent q q' (Hin q H) (Hin q' H')). reflexivity. }
      cbv zeta. destruct best as [ b | ]; cbn [first_least] in *.
      + destruct Hc as (F & before & after & Epts & Hb & Ha). assert (Hbin : In b pts) by (rewrite Epts; apply in_or_app; right; left; reflexivity).
        rewrite <- (Hs b Hbin). split; [ exact F | ]. exists before, after. split; [ exact Epts | ]. split.
        * intros q H. rewrite <- Hs by (rewrite Epts; apply in_or_app; left; exact H). apply Hb, H.
        * intros q H. rewrite <- Hs by (rewrite Epts; apply in_or_app; right; right; exact H). apply Ha, H.
      + intros q H. rewrite <- Hs by exact H. apply Hc, H. }
  set (best c := match find_centroid_and_distances env (TCluster (qregion d sc) p c) md true o with Ok (b, _) => b | Raise _ => None end).
  assert (HF : find_medoids_for_partition env md (qregion d sc) p o = Ok (map best (zrange 0 k))).
  { unfold find_medoids_for_partition, create_all_spt_clusters. rewrite Kp.
    rewrite (mapM_ok _ (fun c => TCluster (qregion d sc) p c)).
    - cbn [bind]. rewrite mapM_map. apply mapM_ok. intros c _. unfold best. destruct (One c) as (b & ds & E & _). rewrite E. reflexivity.
    - intros c _. unfold create_spt_cluster. destruct Vp as (X & Y & _). rewrite X, Y, Tx, Ty, !Nat.eqb_refl. reflexivity. }
  exists (map best (zrange 0 k)). unfold regular_partition_impl. rewrite Tx, Ty, Ep. cbn [bind]. rewrite HF. cbn [bind].
  split; [ reflexivity | ]. split; [ reflexivity | ]. split; [ exact Vp | ]. split; [ exact Kp | ].
  assert (Lz : length (zrange 0 k) = Z.to_nat k) by (unfold zrange; rewrite map_length, seq_length; lia).
  split; [ rewrite map_length, Lz; lia | ]. intros i b Eb. assert (Hi : i < Z.to_nat k) by (rewrite <- Lz, <- (map_length best); apply nth_error_Some; congruence).
  assert (Ei : nth_error (zrange 0 k) i = Some (Z.of_nat i)).
  { unfold zrange. rewrite nth_error_map. rewrite (nth_error_nth' _ 0) by (rewrite seq_length; lia). rewrite seq_nth by lia. reflexivity. }
  rewrite nth_error_map, Ei in Eb. injection Eb as <-. exists (filter (has_lab p (Z.of_nat i)) (grid x y)). split; [ | split ].
  - exists (has_lab p (Z.of_nat i)). split; [ reflexivity | ]. intros pt Hg. apply (has_lab_iff _ _ _ _ _ Vp Hg).
  - destruct (Hlab (Z.of_nat i) ltac:(lia)) as (pt & Hg & Hl). intros E0. assert (A : In pt (filter (has_lab p (Z.of_nat i)) (grid x y))).
    { apply filter_In. split; [ apply in_grid_iff, Hg | apply (has_lab_iff _ _ _ _ _ Vp Hg), Hl ]. }
    rewrite E0 in A. destruct A.
  - unfold best. destruct (One (Z.of_nat i)) as (b & ds & E & H). rewrite E. exact H.
Qed.
Print Assumptions C116_regular.

(** With finite distances every cluster of the regular partition has a medoid, one of its own points, and the sum of its
    distances to the points of the cluster is the least. *)
Theorem C116_regular_medoids : forall choice env md o M d sc x y (dist : point -> point -> Q) k p,
  qwf d sc -> a3x d = x -> a3y d = y -> (1 <= k)%Z -> with_regular_partition k x y = Ok p -> square (x * y) M -> provides env md o M ->
  (forall q pt, in_grid x y q -> in_grid x y pt -> entry M (index_of y q) (index_of y pt) = Some (Fin (dist q pt))) ->
  exists ms, algorithm_partition_impl choice env (CRegular k) md (qregion d sc) true o = Ok (p, Some ms) /\ Z.of_nat (length ms) = k /\
    forall i m, nth_error ms i = Some m -> in_grid x y m /\ label_at p m (Z.of_nat i) /\
      exists pts, cluster_points p x y (Z.of_nat i) pts /\
        forall q, In q pts -> (qsum (map (dist m) pts) <= qsum (map (dist q) pts))%Q.
Proof.
  intros choice env md o M d sc x y dist k p Hq Hx Hy Hk Ep HM Hprov Hent.
  destruct (C116_regular env md o M d sc x y (fun q pt => Fin (dist q pt)) k p Hq Hx Hy Hk Ep HM Hprov Hent) as (bs & E & _ & Vp & Kp & Lb & Hb).
  assert (Hbest : forall i b, nth_error bs i = Some b -> exists m pts, b = Some m /\ cluster_points p x y (Z.of_nat i) pts /\ In m pts /\
            forall q, In q pts -> (qsum (map (dist m) pts) <= qsum (map (dist q) pts))%Q).
  { intros i b Ei. destruct (Hb i b Ei) as (pts & Hc & Hne & Hf).
    destruct (C34_least_exists (fun q => map (fun pt => Fin (dist q pt)) pts) pts b Hne) as (m & Eb & Hm & Hle); auto.
    - intros q v _ Hv. apply in_map_iff in Hv. destruct Hv as (u & <- & _). reflexivity.
    - exists m, pts. split; [ exact Eb | ]. split; [ exact Hc | ]. split; [ exact Hm | ]. intros q Hqq. specialize (Hle q Hqq).
      assert (F : forall q, feqv (fsum (map (fun pt => Fin (dist q pt)) pts)) (Fin (qsum (map (dist q) pts)))) by (intros q'; apply feqv_fsum_map; intros; apply feqv_refl).
      pose proof (F m) as Fm. pose proof (F q) as Fq. destruct (fsum (map _ pts)) in Hle, Fm; try contradiction. destruct (fsum (map _ pts)) in Hle, Fq; try contradiction.
      apply fle_Fin in Hle. cbn in Fm, Fq. lra. }
  exists (map (fun b => match b with Some m => m | None => (0, 0)%Z end) bs). split; [ | split ].
  - cbn [algorithm_partition_impl]. rewrite E. cbn [bind]. unfold all_points. rewrite (mapM_ok _ (fun b => match b with Some m => m | None => (0, 0)%Z end)); [ reflexivity | ].
    intros b Hin. apply In_nth_error in Hin. destruct Hin as [ i Ei ]. destruct (Hbest i b Ei) as (m & pts & -> & _). reflexivity.
  - rewrite map_length. exact Lb.
  - intros i m Em. rewrite nth_error_map in Em. destruct (nth_error bs i) as [ b | ] eqn:Ei; [ | discriminate ]. injection Em as <-.
    destruct (Hbest i b Ei) as (m & pts & -> & Hc & Hm & Hle). destruct Hc as (keep & Epts & Hkeep). rewrite Epts in Hm. apply filter_In in Hm.
    destruct Hm as [ Hg Hkm ]. apply in_grid_iff in Hg. split; [ exact Hg | ]. split; [ apply Hkeep; assumption | ].
    exists pts. split; [ exists keep; auto | exact Hle ].
Qed.
Print Assumptions C116_regular_medoids.

(** Medoids of the regular partition need a matrix of distances; without one only the partition itself can be had. *)
Theorem C116_regular_needs_matrix : forall env md o d sc x y k p e o',
  qwf d sc -> a3x d = x -> a3y d = y -> (1 <= k)%Z -> with_regular_partition k x y = Ok p ->
  d_matrix o = None -> load_distance_matrix_md env md o = (Raise e, o') ->
  regular_partition_impl env k md (qregion d sc) true o = Raise ValueError /\ regular_partition_impl env k md (qregion d sc) false o = Ok (p, None).
Proof.
  intros env md o d sc x y k p e o' Hq Hx Hy Hk Ep Ho Hl.
  destruct (regular_partition_valid x y k Hk) as (p' & Ep' & Kp & Vp & Hlab).
  { unfold with_regular_partition in Ep. destruct (regular_partitioning x y k); [ eauto | discriminate ]. }
  rewrite Ep in Ep'. injection Ep' as <-. unfold regular_partition_impl. rewrite q_x, q_y, Hx, Hy, Ep. cbn [bind]. split; [ | reflexivity ].
  unfold find_medoids_for_partition, create_all_spt_clusters. rewrite Kp. rewrite (mapM_ok _ (fun c => TCluster (qregion d sc) p c)).
  2:{ intros c _. unfold create_spt_cluster. destruct Vp as (X & Y & _). rewrite X, Y, q_x, q_y, Hx, Hy, !Nat.eqb_refl. reflexivity. }
  cbn [bind]. assert (Ez : zrange 0 k = 0%Z :: map (fun i => Z.of_nat (S i)) (seq 0 (Z.to_nat k - 1))).
  { unfold zrange. replace (Z.to_nat (k - 0)) with (S (Z.to_nat k - 1)) by lia. cbn [seq map]. f_equal. rewrite <- seq_shift, map_map. reflexivity. }
  rewrite Ez. cbn [map mapM]. unfold find_centroid_and_distances.
  destruct (all_point_indices_cluster p (qregion d sc) x y 0%Z Vp) as (ns & E3 & _); [ rewrite q_x; exact Hx | rewrite q_y; exact Hy | ]. rewrite E3. cbn [bind].
  assert (Hpr : proper_st (TCluster (qregion d sc) p 0%Z)).
  { change (proper_st (creg d sc (Some (p, 0%Z)))). apply c_proper; [ exact Hq | ]. cbn. rewrite Hx, Hy. exact Vp. }
  rewrite (proper_items _ Hpr). change (t_x (TCluster (qregion d sc) p 0%Z)) with (t_x (qregion d sc)).
  change (t_y (TCluster (qregion d sc) p 0%Z)) with (t_y (qregion d sc)). rewrite q_x, q_y, Hx, Hy.
  change (t_memb (TCluster (qregion d sc) p 0%Z)) with (has_lab p 0%Z). cbn [bind]. rewrite map_map. cbn [fst].
  destruct (filter (has_lab p 0%Z) (grid x y)) as [ | pt pts ] eqn:Ef.
  - exfalso. destruct (Hlab 0%Z ltac:(lia)) as (pt & Hg & Hl0). assert (A : In pt (filter (has_lab p 0%Z) (grid x y))).
    { apply filter_In. split; [ apply in_grid_iff, Hg | apply (has_lab_iff _ _ _ _ _ Vp Hg), Hl0 ]. }
    rewrite Ef in A. destruct A.
  - cbn [map foldM]. unfold centroid_step at 1. unfold distances_to_point. cbn [negb]. rewrite Ho, Hl. reflexivity.
Qed.
Print Assumptions C116_regular_needs_matrix.

(** Every algorithm uses the matrix in the file of the region's metadata, if there is one, in place of what the distance
    measure had; if the file is missing, or there is no metadata, what it had. *)
Theorem C116_matrix_of_the_region : forall choice env c md r wm o,
  (forall f g x y M, md = Some (DMeta f g) -> spans g x y -> np_load env f = Ok M -> square (x * y) M -> d_kind o = PlainDTW ->
     exists o', d_kind o' = PlainDTW /\ d_matrix o' = Some M /\
       clustering_impl choice env c md r wm o = (algorithm_partition_impl choice env c md r wm o', o')) /\
  (forall f g, md = Some (DMeta f g) -> np_load env f = Raise IOError -> d_kind o = PlainDTW ->
     clustering_impl choice env c md r wm o = (algorithm_partition_impl choice env c md r wm o, o)) /\
  (md = None -> clustering_impl choice env c md r wm o = (algorithm_partition_impl choice env c md r wm o, o)).
Proof.
  intros choice env c md r wm o. split; [ | split ].
  - intros f g x y M -> Hsp Hl Hs Hkind. unfold clustering_impl. cbn [try_load_distance_matrix load_distance_matrix_md md_filename md_region].
    unfold load_distance_matrix_2d. rewrite Hkind. rewrite (base_load_ok env f g x y _ M Hsp Hl Hs). eexists. split; [ | split; [ | reflexivity ] ]; [ exact Hkind | reflexivity ].
  - intros f g -> Hl Hkind. unfold clustering_impl. cbn [try_load_distance_matrix load_distance_matrix_md md_filename md_region].
    unfold load_distance_matrix_2d, base_load. rewrite Hkind, Hl. reflexivity.
  - intros ->. reflexivity.
Qed.
Print Assumptions C116_matrix_of_the_region.

(** Asking for two or more clusters of points that are all equal always fails when the report is on. *)
Theorem C116_equal_points : forall choice env o d sc x y dist k m starts wm,
  qwf d sc -> a3x d = x -> a3y d = y -> 0 < x * y -> measured env o d dist ->
  (forall q pt, in_grid x y q -> in_grid x y pt -> feqb (dist q pt) (Fin 0) = true) ->
  can_start choice m x y k starts -> 2 <= k -> km_verbose m = true ->
  kmedoids_partition_impl choice env m (qregion d sc) wm o = Raise IndexError.
Proof.
  intros choice env o d sc x y dist k m starts wm Hq Hx Hy Hpos Hd H0 Hstart Hk Hv.
  assert (Hnan : forall q pt, in_grid x y q -> in_grid x y pt -> is_nan (dist q pt) = false).
  { intros q pt Hg Hg'. specialize (H0 q pt Hg Hg'). destruct (dist q pt); cbn in *; congruence. }
  destruct (C116_kmedoids choice env o d sc x y dist k m starts Hq Hx Hy Hpos Hd Hnan Hstart) as (p & ms & Hcl & _ & Hfail).
  apply Hfail; [ exact Hv | ]. intros Hev. destruct (Hev 1 ltac:(lia)) as (pt & Hg & Hl).
  destruct Hcl as (_ & _ & HL & _ & HG & Hnear). destruct (Hnear pt Hg) as (i & Li & mi & Ei & _ & Hlt). unfold label_at in Hl, Li. rewrite Hl in Li. injection Li as Li.
  assert (i = 1) as -> by lia. destruct (nth_error ms 0) as [ m0 | ] eqn:E0; [ | apply nth_error_None in E0; lia ].
  specialize (Hlt 0 m0 ltac:(lia) E0). rewrite Forall_forall in HG.
  pose proof (H0 mi pt (HG _ (nth_error_In _ _ Ei)) Hg) as A. pose proof (H0 m0 pt (HG _ (nth_error_In _ _ E0)) Hg) as B.
  rewrite (feqb_flt_l _ _ _ A), (feqb_flt_r _ _ _ B), flt_irrefl in Hlt. discriminate.
Qed.
Print Assumptions C116_equal_points.

(* ---------- examples ---------- *)
Definition ex_pick (seed : Z) (n : nat) (k : Z) : res (list Z) := Ok (firstn (Z.to_nat k) (map Z.of_nat (seq 0 n))).
Definition ex_loaded : dobj := DObj PlainDTW (Some ex_matrix) false.
Definition ex_dist (q pt : point) : Q := match entry ex_matrix (index_of 3 q) (index_of 3 pt) with Some (Fin v) => v | _ => 0%Q end.
Lemma ex_points : forall q, in_grid 1 3 q -> q = (0, 0)%Z \/ q = (0, 1)%Z \/ q = (0, 2)%Z.
Proof. intros [ i j ] [ H1 H2 ]. cbn in H1, H2. assert (i = 0)%Z as -> by lia. assert (j = 0 \/ j = 1 \/ j = 2)%Z as [ -> | [ -> | -> ] ] by lia; auto. Qed.
Lemma ex_measured : measured ex_env ex_loaded ex_d (fun q pt => Fin (ex_dist q pt)).
Proof.
  cbn. split; [ exact ex_square | ]. intros q pt Hq Hp. apply ex_points in Hq, Hp.
  destruct Hq as [ -> | [ -> | -> ] ]; destruct Hp as [ -> | [ -> | -> ] ]; reflexivity.
Qed.
Lemma ex_starts : can_start ex_pick (kmeta_default 2 7 "lite") 1 3 2 [0; 1]%Z.
Proof.
  unfold can_start. cbn. repeat split; auto; try lia.
  - repeat constructor; cbn; intuition lia.
Qed.
(* the points (0,0) and (0,1) are near each other: starting from them, the search moves one of the medoids to (0,2) *)
Example C116_ex : qwf ex_d None /\ a3x ex_d = 1 /\ a3y ex_d = 3 /\ measured ex_env ex_loaded ex_d (fun q pt => Fin (ex_dist q pt)) /\
  can_start ex_pick (kmeta_default 2 7 "lite") 1 3 2 [0; 1]%Z /\
  (forall q pt, in_grid 1 3 q -> in_grid 1 3 pt -> q <> pt -> flt (Fin 0) (Fin (ex_dist q pt)) = true) /\
  exists p, kmedoids_partition_impl ex_pick ex_env (kmeta_default 2 7 "lite") (TPlain ex_d) true ex_loaded = Ok (p, Some [(0, 0); (0, 2)]%Z) /\
    exists p', algorithm_partition_impl ex_pick ex_env (CRegular 3) None (TPlain ex_d) true ex_loaded = Ok (p', Some [(0, 0); (0, 1); (0, 2)]%Z) /\
    exists p'' o', clustering_impl ex_pick ex_env (CRegular 1) (Some (DMeta "raw" ex_region)) (TPlain ex_d) true (fresh PlainDTW) = (Ok (p'', Some [(0, 1)%Z]), o').
Proof.
  split; [ split; [ exact ex_wf | exact I ] | ]. do 2 (split; [ reflexivity | ]). split; [ exact ex_measured | ]. split; [ exact ex_starts | ]. split.
  - intros q pt Hq Hp Hn. apply ex_points in Hq, Hp. destruct Hq as [ -> | [ -> | -> ] ]; destruct Hp as [ -> | [ -> | -> ] ]; try congruence; reflexivity.
  - eexists. split; [ vm_compute; reflexivity | ]. eexists. split; [ vm_compute; reflexivity | ]. eexists _, _. vm_compute. reflexivity.
Qed.

(** Clustering fails for some regions with at least k points (default settings; two equal points, two clusters). *)
Theorem C116_enough_points_refuted :
  ~ (forall choice env o d sc x y dist k m starts,
       qwf d sc -> a3x d = x -> a3y d = y -> 0 < x * y -> measured env o d dist ->
       (forall q pt, in_grid x y q -> in_grid x y pt -> is_nan (dist q pt) = false) -> can_start choice m x y k starts ->
       exists p ms, kmedoids_partition_impl choice env m (qregion d sc) true o = Ok (p, Some ms)).
Proof.
  intros H. destruct (H ex_pick ex_env (DObj PlainDTW (Some (Mat 2 [[Fin 0; Fin 0]; [Fin 0; Fin 0]])) false) (mk3 1 1 2 [Fin 4; Fin 4]) None 1 2
    (fun _ _ => Fin 0) 2 (kmeta_default 2 7 "lite") [0; 1]%Z) as (p & ms & E).
  - split; [ reflexivity | exact I ].
  - reflexivity.
  - reflexivity.
  - lia.
  - cbn. split; [ split; [ reflexivity | split; [ reflexivity | ] ]; intros row [ <- | [ <- | [] ] ]; reflexivity | ].
    intros [ i j ] [ i' j' ] [ H1 H2 ] [ H3 H4 ]. cbn in H1, H2, H3, H4. assert (i = 0)%Z as -> by lia. assert (i' = 0)%Z as -> by lia.
    assert (j = 0 \/ j = 1)%Z as [ -> | -> ] by lia; assert (j' = 0 \/ j' = 1)%Z as [ -> | -> ] by lia; reflexivity.
  - reflexivity.
  - unfold can_start. cbn. repeat split; auto; try lia.
    + repeat constructor; cbn; intuition lia.
  - vm_compute in E. discriminate.
Qed.
Print Assumptions C116_enough_points_refuted.
