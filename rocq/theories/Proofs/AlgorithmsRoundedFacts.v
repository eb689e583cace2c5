(** The k-medoids algorithm on a region in floating point. *)
From Coq Require Import String Lia QArith.
From Verif Require Import Base.Py Base.PyFacts Base.Str Base.Arr Base.ArrFacts Base.Float Base.FloatFacts Model.Region Model.Arrays Model.Distance Model.KMedoids
  Model.Clustering Model.SolverFiles Model.Algorithms Model.Rounded Model.KMedoidsRounded Model.AlgorithmsRounded Spec.Grid Spec.Partition Spec.Distance Spec.Medoids Spec.Solver Spec.Regions Spec.Algorithms
  Spec.Rounded Spec.KMedoidsRounded Proofs.RegionFacts Proofs.PartitionFacts Proofs.ProperFacts Proofs.SolverFacts Proofs.DistanceFacts Proofs.DistanceObjFacts Proofs.VarianceFacts
  Proofs.KMedoidsFacts Proofs.ReportFacts Proofs.AlgorithmFacts Props.Basics Props.KMedoids Props.KMedoidsRounded.
From Coq Require Import ZifyBool ZifyNat.
Local Notation length := List.length.
Local Close Scope Q_scope.
Local Open Scope nat_scope.

Lemma region_search_r : forall rnd sum choice env o d sc dist k m ms0,
  rounding rnd -> qwf d sc -> measured env o d dist -> 0 < a3x d * a3y d ->
  (forall q pt, in_grid (a3x d) (a3y d) q -> in_grid (a3x d) (a3y d) pt -> is_nan (dist q pt) = false) ->
  km_k m = Z.of_nat k -> 0 < k -> fle (Fin 0) (km_tol m) = true -> (km_mode m = "lite" \/ km_mode m = "robust")%string ->
  match km_init m with None | Some [] => choice (km_seed m) (a3x d * a3y d) (Z.of_nat k) | Some l => Ok l end = Ok ms0 ->
  length ms0 = k -> NoDup ms0 -> (forall i, In i ms0 -> 0 <= i < Z.of_nat (a3x d * a3y d))%Z ->
  let X := map (t_ser (qregion d sc)) (grid (a3x d) (a3y d)) in
  let D := distance_of env o in
  exists r p, run_kmedoids_r rnd sum (choice (km_seed m)) X (Z.of_nat k) D (km_init m) (mode_of (km_mode m)) (km_max_iter m) (km_tol m) = Ok r /\
    starts_from (choice (km_seed m)) X k (km_init m) ms0 /\ mode_of (km_mode m) <> OtherMode /\
    consistent_by sum X D (r_medoids r) (r_cost r) /\ valid_indices X (r_medoids r) /\ length (r_medoids r) = k /\
    from_membership_array (map Z.of_nat (c_labels (r_cost r))) (a3x d) (a3y d) = Ok p /\
    clustered dist (a3x d) (a3y d) k p (map (zdecode (a3y d)) (r_medoids r)) /\
    (forall i, i < a3x d * a3y d -> exists l, nth_error (c_labels (r_cost r)) i = Some l /\ label_at p (decode (a3y d) i) (Z.of_nat l)) /\
    ((forall j, j < k -> In j (c_labels (r_cost r))) <-> (forall j, j < k -> exists pt, in_grid (a3x d) (a3y d) pt /\ label_at p pt (Z.of_nat j))) /\
    forall wm, kmedoids_partition_impl_r rnd sum choice env m (qregion d sc) wm o =
      if km_verbose m && negb (forallb (fun j => existsb (Nat.eqb j) (c_labels (r_cost r))) (seq 0 k)) then Raise IndexError
      else Ok (p, if wm then Some (map (zdecode (a3y d)) (r_medoids r)) else None).
Proof.
  intros rnd sum choice env o d sc dist k m ms0 HR Hq Hd Hpos Hnan Hk Hk0 Htol Hmode Hinit Hlen Hnd Hval X D.
  pose proof (samples d sc) as LX. fold X in LX.
  pose proof (region_instance env o d sc dist Hd) as HI. fold X D in HI.
  pose proof (region_no_nan env o d sc dist Hq Hd Hnan) as HN. fold X D in HN.
  assert (Hm : mode_of (km_mode m) <> OtherMode) by (destruct Hmode as [ -> | -> ]; discriminate).
  assert (Hs : starts_from (choice (km_seed m)) X k (km_init m) ms0).
  { split; [ rewrite LX; exact Hinit | ]. split; [ exact Hlen | ]. split; [ exact Hk0 | ]. intros i Hi. rewrite LX. apply Hval, Hi. }
  destruct (C153_search rnd sum (choice (km_seed m)) X k D (km_init m) (mode_of (km_mode m)) (km_max_iter m) (km_tol m) ms0 HR HI HN Htol Hm Hs)
    as (r & Er & _ & Lr & Nr & Vr & HC & _). specialize (Nr Hnd).
  destruct HC as (C1 & C2 & C3). assert (HC : consistent_by sum X D (r_medoids r) (r_cost r)) by (split; [ exact C1 | split; [ exact C2 | exact C3 ] ]). rewrite LX in C1.
  set (labels := c_labels (r_cost r)) in *.
  destruct (C85_from_labels (map Z.of_nat labels) (a3x d) (a3y d)) as [ HF _ ].
  destruct HF as (p & mx & Ep & Imx & Hmx & Hpk & Hlab & Hvp).
  { intros E. apply (f_equal (@length Z)) in E. rewrite map_length in E. cbn in E. lia. }
  { rewrite map_length. exact C1. }
  assert (HV : valid_partition p (a3x d) (a3y d)). { apply Hvp. intros v Hv. apply in_map_iff in Hv. destruct Hv as (l & <- & _). lia. }
  assert (Hat : forall i, i < a3x d * a3y d -> exists l, nth_error labels i = Some l /\ label_at p (decode (a3y d) i) (Z.of_nat l)).
  { intros i Hi. destruct (Hlab (i / a3y d) (i mod a3y d)) as (v & Ev & Lv).
    - apply flat_div_lt, Hi.
    - apply (flat_mod_lt (a3x d)), Hi.
    - rewrite flat_recompose in Ev by (intros E; rewrite E in Hi; lia). rewrite nth_error_map in Ev. destruct (nth_error labels i) as [ l | ]; [ | discriminate ].
      injection Ev as <-. exists l. split; [ reflexivity | exact Lv ]. }
  assert (Hlt : forall i l, nth_error labels i = Some l -> l < k).
  { intros i l E. assert (Hi : i < length X) by (rewrite LX, <- C1; apply nth_error_Some; congruence).
    destruct (C2 i Hi) as (H1 & _). rewrite (nth_error_nth labels i _ E) in H1. rewrite Lr in H1. exact H1. }
  exists r, p. split; [ exact Er | ]. split; [ exact Hs | ]. split; [ exact Hm | ]. split; [ exact HC | ]. split; [ exact Vr | ]. split; [ exact Lr | ].
  split; [ exact Ep | ]. split; [ | split; [ exact Hat | split ] ].
  - split; [ exact HV | ]. split.
    { apply in_map_iff in Imx. destruct Imx as (l & <- & Hl). apply In_nth_error in Hl. destruct Hl as [ i Hi ]. apply Hlt in Hi. lia. }
    split; [ rewrite map_length; exact Lr | ]. assert (Vr' : forall i, In i (r_medoids r) -> (0 <= i < Z.of_nat (a3x d * a3y d))%Z).
    { intros i Hi. specialize (Vr i Hi). rewrite LX in Vr. exact Vr. }
    split.
    { apply nodup_map_inj_in; [ | exact Nr ]. intros a b Ha Hb E. apply Vr' in Ha, Hb. unfold zdecode in E. apply (decode_inj (a3x d)) in E; lia. }
    split. { apply Forall_forall. intros q Hin. apply in_map_iff in Hin. destruct Hin as (i & <- & Hi). apply Vr' in Hi. apply decode_in_grid. lia. }
    intros pt Hg. destruct (index_of_encode _ _ _ Hg) as [ _ Li ]. set (i := index_of (a3y d) pt) in *.
    assert (Ei : decode (a3y d) i = pt). { pose proof (nth_error_grid_index _ _ _ Hg) as A. fold i in A. rewrite nth_error_grid in A by exact Li. congruence. }
    destruct (Hat i Li) as (l & El & Al). exists l. rewrite Ei in Al. split; [ exact Al | ].
    assert (Li' : i < length X) by lia. destruct (C2 i Li') as (N1 & N2 & N3). rewrite (nth_error_nth labels i _ El) in *.
    assert (ED : forall j mj, nth_error (map (zdecode (a3y d)) (r_medoids r)) j = Some mj -> dist_j X D (r_medoids r) j i = dist mj pt /\ j < length (r_medoids r)).
    { intros j mj Ej. rewrite nth_error_map in Ej. destruct (nth_error (r_medoids r) j) as [ z | ] eqn:Ez; [ | discriminate ]. injection Ej as <-.
      split; [ | apply nth_error_Some; congruence ].
      unfold dist_j. rewrite (nth_error_nth _ _ 0%Z Ez). pose proof (Vr' z (nth_error_In _ _ Ez)) as Hz. unfold X, D.
      rewrite (region_dist env o d sc dist Hq Hd) by lia. rewrite Ei. reflexivity. }
    destruct (nth_error (map (zdecode (a3y d)) (r_medoids r)) l) as [ ml | ] eqn:Eml.
    2:{ apply nth_error_None in Eml. rewrite map_length in Eml. lia. }
    exists ml. split; [ exact Eml | ]. destruct (ED l ml Eml) as [ Dl _ ]. split.
    + intros j mj Ej. destruct (ED j mj Ej) as [ Dj Lj ]. rewrite <- Dl, <- Dj. apply N2, Lj.
    + intros j mj Hj Ej. destruct (ED j mj Ej) as [ Dj Lj ]. rewrite <- Dl, <- Dj. apply N3, Hj.
  - split; intros H j Hj; specialize (H j Hj).
    + apply In_nth_error in H. destruct H as [ i Hi ]. fold labels in Hi. assert (Li : i < a3x d * a3y d) by (rewrite <- C1; apply nth_error_Some; rewrite Hi; discriminate).
      destruct (Hat i Li) as (l & El & Al). exists (decode (a3y d) i). split; [ apply decode_in_grid, Li | ]. rewrite Hi in El. injection El as <-. exact Al.
    + destruct H as (pt & Hg & Hl). destruct (index_of_encode _ _ _ Hg) as [ _ Li ]. destruct (Hat _ Li) as (l & El & Al).
      pose proof (nth_error_grid_index _ _ _ Hg) as A. rewrite nth_error_grid in A by exact Li. injection A as A. rewrite A in Al. unfold label_at in *.
      rewrite Hl in Al. injection Al as Al. apply Nat2Z.inj in Al. subst l. apply nth_error_In in El. exact El.
  - intros wm. unfold kmedoids_partition_impl_r. rewrite (q_as_list d sc Hq). cbn [bind]. fold X. rewrite LX. replace (a3x d * a3y d =? 0) with false by lia. cbn [bind].
    rewrite Hk. fold D.
    rewrite Er. cbn [bind]. fold labels.
    assert (Hin : forall l, In l labels -> l < k) by (intros l Hl; destruct (In_nth_error _ _ Hl) as (i & Ei); exact (Hlt i l Ei)).
    assert (ER : (if km_verbose m then show_report (Z.of_nat k) (r_medoids r) labels else Ok tt) =
                 if km_verbose m && negb (forallb (fun j => existsb (Nat.eqb j) labels) (seq 0 k)) then Raise IndexError else Ok tt).
    { destruct (km_verbose m); [ | reflexivity ]. cbn [andb]. rewrite report_ok by assumption. destruct (forallb _ _) eqn:Ef; cbn [negb].
      - rewrite (proj2 (nodup_full k labels Hin)), Nat.eqb_refl; [ reflexivity | ]. intros j Hj. rewrite forallb_forall in Ef.
        assert (Hs' : In j (seq 0 k)) by (apply in_seq; lia). specialize (Ef j Hs').
        apply existsb_exists in Ef. destruct Ef as (l & Hl & E). apply Nat.eqb_eq in E. subst l. exact Hl.
      - apply forallb_false_ex in Ef. destruct Ef as (j & Hj & E). apply in_seq in Hj. destruct (Nat.eqb_spec (length (nodup Nat.eq_dec labels)) k) as [ Ek | Ek ]; [ | reflexivity ].
        pose proof (proj1 (nodup_full k labels Hin) Ek j ltac:(lia)) as Hj'.
        assert (existsb (Nat.eqb j) labels = true) by (apply existsb_exists; exists j; split; [ exact Hj' | apply Nat.eqb_refl ]). congruence. }
    rewrite ER. destruct (_ && _); [ reflexivity | ]. cbn [bind]. rewrite q_x, q_y. rewrite Ep. cbn [bind].
    destruct wm; [ | reflexivity ]. rewrite (decode_all (a3x d)) by (intros i Hi; specialize (Vr i Hi); rewrite LX in Vr; exact Vr). reflexivity.
Qed.
