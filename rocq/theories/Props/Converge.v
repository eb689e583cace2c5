(** C152: the k-medoids search stops by itself, and what it has then found. *)
From Coq Require Import String Lia Lqa.
From Verif Require Import Base.Py Base.PyFacts Base.Str Base.Arr Base.ArrFacts Base.Float Base.FloatFacts Model.Region Model.Arrays Model.Distance Model.KMedoids
  Model.Clustering Model.SolverFiles Model.Algorithms Spec.Grid Spec.Partition Spec.Distance Spec.Medoids Spec.Solver Spec.Regions Spec.Algorithms
  Proofs.RegionFacts Proofs.PartitionFacts Proofs.ProperFacts Proofs.SolverFacts Proofs.ArraysFacts Proofs.DistanceFacts Proofs.DistanceObjFacts Proofs.VarianceFacts
  Proofs.KMedoidsFacts Proofs.ReportFacts Proofs.AlgorithmFacts Proofs.BarycenterFacts Proofs.ConvergeFacts Props.Basics Props.KMedoids Props.Distance Props.Algorithms.
From Coq Require Import ZifyBool ZifyNat.
Local Notation length := List.length.
Local Open Scope nat_scope.

(** Every pass but the last lowers the total cost by more than the tolerance, so the number of passes is bounded by the
    cost of the starting medoids. If that cost is below (max_iter + 1) * tol the limit on the passes plays no part. *)
Theorem C152_passes : forall choice X k D init md max_iter t verbose ms0 c0 r,
  instance X D -> dist_finite X D ->
  (forall a b, a < length X -> b < length X -> fle (Fin 0) (sample_dist X D a b) = true) ->
  (0 < t)%Q -> md <> OtherMode -> starts_from choice X k init ms0 -> consistent X D ms0 c0 ->
  run_kmedoids choice X (Z.of_nat k) D init md max_iter (Fin t) verbose = Ok r ->
  exists q0 q, c_total c0 = Fin q0 /\ c_total (r_cost r) = Fin q /\ (0 <= q)%Q /\ (inject_Z (r_cc r) * t <= q0 - q)%Q /\
    ((q0 < inject_Z (max_iter + 1) * t)%Q -> (r_cc r <= max_iter)%Z).
Proof.
  intros choice X k D init md mi t vb ms0 c0 r HI HF Hpos Ht Hmd (Hs & Hl & Hk & HV) Hc Hr.
  pose proof (conv_no_nan X D HF) as HN. assert (Hne : ms0 <> []) by (destruct ms0; cbn in Hl; [ lia | discriminate ]).
  destruct (run_spec X D (Fin t) md k HI (conv_tol t Ht) Hk choice init mi vb ms0 Hmd Hs HV Hl) as (c & st & ms & cc & Ec & _ & _ & Er & HB & _).
  rewrite (consistent_get_cost X D ms0 c0 HI HV Hne HN Hc) in Ec. injection Ec as <-.
  pose proof Hr as Hr'. rewrite Er in Hr'. destruct (if vb then _ else _); [ | discriminate ]. cbn [bind] in Hr'. injection Hr' as Hr'.
  unfold run_kmedoids, choose_initial_medoids in Hr. rewrite Hs in Hr. cbn [bind] in Hr. rewrite medoids_ok in Hr by auto. cbn [bind] in Hr.
  pose proof (consistent_get_cost X D ms0 c0 HI HV Hne HN Hc) as Eg. rewrite Eg in Hr. cbn [bind] in Hr.
  destruct (kmedoids_loop _ _ _ _ _ _ _ _ _) as [ [ st2 cc2 ] | e ] eqn:El; [ | discriminate ]. cbn [bind] in Hr.
  destruct (if vb then _ else _); [ | discriminate ]. cbn [bind] in Hr. injection Hr as Hr.
  assert (Hok : ok_state X D k (mkst (mk X ms0) c0) ms0) by (split; [ | split; [ | split ] ]; auto).
  destruct (loop_gain X D t md HI HF Hpos Ht Hmd k Hk mi _ _ _ _ _ _ Hok El) as (q & q' & Eq & Eq' & Hq' & Hg).
  assert (Hcc : (0 <= r_cc r <= Z.max 0 (mi + 1))%Z) by (rewrite <- Hr'; exact HB).
  rewrite <- Hr. rewrite <- Hr in Hcc. cbn [r_cc r_cost] in *. rewrite Z.sub_0_r in Hg.
  exists q, q'. split; [ exact Eq | ]. split; [ exact Eq' | ]. split; [ exact Hq' | ]. split; [ exact Hg | ].
  intros Hlim. apply Z.nlt_ge. intros Hgt. assert (Hle : (mi + 1 <= cc2)%Z) by lia. rewrite Zle_Qle in Hle.
  pose proof (Qmult_le_compat_r _ _ t Hle ltac:(lra)). lra.
Qed.
Print Assumptions C152_passes.

(** If some assignment of the points to the starting medoids adds up to less than (max_iter + 1) * tol, the medoids found
    cannot be improved by more than the tolerance by changing one of them: in mode "robust" into any point of the region, in
    mode "lite" into any point of its own cluster. *)
Theorem C152_local_optimum : forall choice env o d sc x y (dist : point -> point -> Q) k m starts start tol p ms own,
  qwf d sc -> a3x d = x -> a3y d = y -> 0 < x * y -> measured env o d (fun q pt => Fin (dist q pt)) ->
  (forall q pt, in_grid x y q -> in_grid x y pt -> 0 <= dist q pt)%Q ->
  can_start choice m x y k starts -> km_tol m = Fin tol -> (0 < tol)%Q ->
  (forall pt, in_grid x y pt -> in_grid x y (start pt) /\ In (Z.of_nat (index_of y (start pt))) starts) ->
  (qsum (map (fun pt => dist (start pt) pt) (grid x y)) < inject_Z (km_max_iter m + 1) * tol)%Q ->
  kmedoids_partition_impl choice env m (qregion d sc) true o = Ok (p, Some ms) ->
  (forall pt, in_grid x y pt -> exists l, label_at p pt l /\ nth_error ms (Z.to_nat l) = Some (own pt)) ->
  forall j q other, j < k -> in_grid x y q -> (km_mode m = "lite"%string -> label_at p q (Z.of_nat j)) ->
    (forall pt, in_grid x y pt -> other pt = q \/ exists i, i <> j /\ nth_error ms i = Some (other pt)) ->
    (qsum (map (fun pt => dist (own pt) pt) (grid x y)) <= qsum (map (fun pt => dist (other pt) pt) (grid x y)) + tol)%Q.
Proof.
  intros choice env o d sc x y dist k m starts start tol p ms own Hq Hx Hy Hpos Hd Hnn (Hk & Hk0 & Htol & Hmode & Hinit & Hlen & Hnd & Hval) Et Ht
    Hstart Hlim Hrun Hown j q other Hj Gq Hlite Hother. subst x y.
  destruct (region_search choice env o d sc _ k m starts Hq Hd Hpos (fun _ _ _ _ => eq_refl) Hk Hk0 Htol Hmode Hinit Hlen Hnd Hval)
    as (r & p' & Er & Hs & Hm & HC & Vr & Lr & Ep & Hcl & Hat & Hall & E).
  rewrite E in Hrun. destruct (_ && _); [ discriminate | ]. injection Hrun as <- <-. clear E.
  set (X := map (t_ser (qregion d sc)) (grid (a3x d) (a3y d))) in *. set (D := distance_of env o) in *.
  pose proof (samples d sc) as LX. fold X in LX.
  pose proof (region_instance env o d sc _ Hd) as HI. fold X D in HI.
  pose proof (region_finite env o d sc _ Hq Hd (fun _ _ _ _ => eq_refl)) as HF. fold X D in HF.
  pose proof (conv_no_nan X D HF) as HN.
  assert (HP : forall a b, a < length X -> b < length X -> fle (Fin 0) (sample_dist X D a b) = true).
  { intros a b Ha Hb. rewrite LX in *. unfold X, D. rewrite (region_dist env o d sc _ Hq Hd) by assumption. apply fle_Fin. apply Hnn; apply decode_in_grid; assumption. }
  assert (Hne : starts <> []) by (intros ->; cbn in Hlen; lia).
  pose proof Hs as (_ & _ & _ & Vs).
  destruct (get_cost_ok X D starts HI Vs Hne) as (l0 & E0 & _).
  pose proof (get_cost_consistent X D starts _ HI Vs Hne HN E0) as C0. set (c0 := cost_of X D starts l0) in *.
  rewrite Et in *.
  destruct (C152_passes _ _ _ _ _ _ _ _ _ _ _ _ HI HF HP Ht Hm Hs C0 Er) as (q0 & qr & Eq0 & Eqr & _ & _ & Hconv).
  destruct (region_total_le env o d sc dist starts c0 start Hq Hd Vs C0 Hstart) as (q0' & Eq0' & Hq0). rewrite Eq0 in Eq0'. injection Eq0' as <-.
  specialize (Hconv ltac:(lra)).
  assert (G : forall f, qsum (map f (grid (a3x d) (a3y d))) = qsum (map (fun i => f (decode (a3y d) i)) (seq 0 (a3x d * a3y d)))).
  { intros f. rewrite grid_decode, map_map. reflexivity. }
  assert (T1 : feqv (c_total (r_cost r)) (Fin (qsum (map (fun pt => dist (own pt) pt) (grid (a3x d) (a3y d)))))).
  { etransitivity; [ apply (total_is_sum_of_least X D _ _ Vr HF HC) | ]. rewrite G, LX. apply feqv_fsum_map. intros i Hi. apply in_seq in Hi.
    destruct (Hat i ltac:(lia)) as (l & El & Al). rewrite (nth_error_nth _ _ (length (r_medoids r)) El).
    destruct (Hown (decode (a3y d) i) (decode_in_grid (a3x d) (a3y d) i ltac:(lia))) as (l' & Al' & Eo). unfold label_at in Al, Al'. rewrite Al in Al'. injection Al' as <-.
    rewrite Nat2Z.id, nth_error_map in Eo. destruct (nth_error (r_medoids r) l) as [ z | ] eqn:Ez; [ | discriminate ]. injection Eo as <-.
    unfold dist_j. rewrite (nth_error_nth _ _ 0%Z Ez). pose proof (Vr z (nth_error_In _ _ Ez)) as Hz. rewrite LX in Hz. unfold X, D.
    rewrite (region_dist env o d sc _ Hq Hd) by lia. reflexivity. }
  rewrite Eqr in T1. cbn in T1. rewrite <- T1.
  assert (Em : forall pt, in_grid (a3x d) (a3y d) pt -> forall i, nth_error (map (zdecode (a3y d)) (r_medoids r)) i = Some pt ->
            nth_error (r_medoids r) i = Some (Z.of_nat (index_of (a3y d) pt))).
  { intros pt Gp i Ei. rewrite nth_error_map in Ei. destruct (nth_error (r_medoids r) i) as [ z | ] eqn:Ez; [ | discriminate ]. injection Ei as <-.
    pose proof (Vr z (nth_error_In _ _ Ez)) as Hz. rewrite LX in Hz. unfold zdecode. rewrite (index_of_decode (a3x d)) by lia. f_equal. lia. }
  assert (Gms : forall i pt, nth_error (map (zdecode (a3y d)) (r_medoids r)) i = Some pt -> in_grid (a3x d) (a3y d) pt).
  { destruct Hcl as (_ & _ & _ & _ & HG & _). rewrite Forall_forall in HG. intros i pt Ei. apply HG. eapply nth_error_In. exact Ei. }
  set (i := index_of (a3y d) q) in *. destruct (index_of_encode _ _ _ Gq) as [ _ Li ]. fold i in Li.
  destruct (in_dec Z.eq_dec (Z.of_nat i) (r_medoids r)) as [ Hin | Hni ].
  - (* a point that is already a medoid: the other medoids are among the present ones *)
    destruct (region_total_le env o d sc dist (r_medoids r) (r_cost r) other Hq Hd Vr HC) as (qr' & Eqr' & Hle).
    { intros pt Gp. destruct (Hother pt Gp) as [ -> | (i' & _ & Ei') ]; [ split; auto | ]. split; [ eapply Gms; exact Ei' | ].
      eapply nth_error_In. apply Em; [ eapply Gms; exact Ei' | exact Ei' ]. }
    rewrite Eqr in Eqr'. injection Eqr' as <-. lra.
  - destruct (nth_error (r_medoids r) j) as [ z | ] eqn:Ej; [ | apply nth_error_None in Ej; lia ].
    destruct (nth_error_split _ _ Ej) as (before & after & Esplit & Lb). set (ms' := before ++ Z.of_nat i :: after).
    assert (V' : valid_indices X ms').
    { intros a Ha. unfold ms' in Ha. apply in_app_or in Ha. destruct Ha as [ Ha | [ <- | Ha ] ]; [ | rewrite LX; lia | ];
        apply Vr; rewrite Esplit; apply in_or_app; [ left; exact Ha | right; right; exact Ha ]. }
    assert (Hne' : ms' <> []) by (unfold ms'; destruct before; discriminate).
    destruct (get_cost_ok X D ms' HI V' Hne') as (l1 & E1 & _). pose proof (get_cost_consistent X D ms' _ HI V' Hne' HN E1) as C1. set (c1 := cost_of X D ms' l1) in *.
    assert (Hcand : candidate_of (mode_of (km_mode m)) X (c_labels (r_cost r)) (length before) i).
    { split; [ rewrite LX; exact Li | ]. rewrite Lb. destruct Hmode as [ M | M ]; rewrite M; cbn; [ | exact I ]. specialize (Hlite M).
      destruct (Hat i Li) as (l & El & Al). unfold i in Al. rewrite (decode_index_of (a3x d)) in Al by exact Gq. unfold label_at in *. rewrite Hlite in Al.
      injection Al as Al. apply Nat2Z.inj in Al. subst l. exact El. }
    pose proof (C29_local_optimum _ _ _ _ _ _ _ _ _ _ _ HI HN (conv_tol tol Ht) Hm Hs Er Hconv before (z :: after) i c1 Esplit ltac:(discriminate) Hcand Hni C1) as Hno.
    destruct (region_total_le env o d sc dist ms' c1 other Hq Hd V' C1) as (q1 & Eq1 & Hle).
    { intros pt Gp. destruct (Hother pt Gp) as [ -> | (i' & Hi' & Ei') ].
      - split; [ exact Gq | ]. unfold ms'. apply in_or_app. right. left. reflexivity.
      - pose proof (Gms _ _ Ei') as Go. split; [ exact Go | ]. pose proof (Em _ Go _ Ei') as A. rewrite Esplit in A. unfold ms'. apply in_or_app.
        destruct (Nat.lt_ge_cases i' (length before)) as [ H | H ].
        + rewrite nth_error_app1 in A by exact H. left. eapply nth_error_In. exact A.
        + rewrite nth_error_app2 in A by exact H. destruct (i' - length before) as [ | n ] eqn:En; [ lia | ]. right. right. eapply nth_error_In. exact A. }
    rewrite Eqr, Eq1 in Hno. change (flt (Fin tol) (Fin (qr - q1)) = false) in Hno.
    destruct (Qlt_le_dec tol (qr - q1)) as [ H | H ]; [ apply flt_Fin in H; congruence | ]. lra.
Qed.
Print Assumptions C152_local_optimum.

(* ---------- examples ---------- *)
Definition ex_km (md : string) (init : list Z) : kmeta := KMeta 2 7 md (Some init) 1000 (Fin 1) true.
Definition ex_first (pt : point) : point := if (snd pt =? 0)%Z then (0, 0)%Z else (0, 1)%Z.
Lemma ex_nonneg : forall q pt, in_grid 1 3 q -> in_grid 1 3 pt -> (0 <= ex_dist q pt)%Q.
Proof.
  intros q pt Hq Hp. apply ex_points in Hq, Hp. destruct Hq as [ -> | [ -> | -> ] ]; destruct Hp as [ -> | [ -> | -> ] ]; vm_compute; discriminate.
Qed.
(* from the medoids (0,0) and (0,1), which the points reach with the sum 6, to two medoids which they reach with the sum 4 *)
Example C152_ex : forall md, (md = "lite" \/ md = "robust")%string ->
  can_start ex_pick (ex_km md [0; 1]%Z) 1 3 2 [0; 1]%Z /\
  (forall pt, in_grid 1 3 pt -> in_grid 1 3 (ex_first pt) /\ In (Z.of_nat (index_of 3 (ex_first pt))) [0; 1]%Z) /\
  (qsum (map (fun pt => ex_dist (ex_first pt) pt) (grid 1 3)) < inject_Z (1000 + 1) * 1)%Q /\
  exists p ms own, kmedoids_partition_impl ex_pick ex_env (ex_km md [0; 1]%Z) (qregion ex_d None) true ex_loaded = Ok (p, Some ms) /\
    (forall pt, in_grid 1 3 pt -> exists l, label_at p pt l /\ nth_error ms (Z.to_nat l) = Some (own pt)) /\
    ms = if (md =? "lite")%string then [(0, 0); (0, 2)]%Z else [(0, 2); (0, 1)]%Z.
Proof.
  intros md Hmd. split; [ | split; [ | split ] ].
  - unfold can_start, ex_km. cbn. repeat split; auto; try lia. repeat constructor; cbn; intuition lia.
  - intros pt Hp. apply ex_points in Hp. destruct Hp as [ -> | [ -> | -> ] ]; (split; [ split; cbn; lia | cbn; auto ]).
  - vm_compute. reflexivity.
  - destruct Hmd as [ -> | -> ].
    + eexists _, _, (fun pt => if (snd pt =? 2)%Z then (0, 2)%Z else (0, 0)%Z). split; [ vm_compute; reflexivity | ]. split; [ | reflexivity ].
      intros pt Hp; apply ex_points in Hp; destruct Hp as [ -> | [ -> | -> ] ]; eexists; (split; [ vm_compute; reflexivity | reflexivity ]).
    + eexists _, _, (fun pt => if (snd pt =? 2)%Z then (0, 2)%Z else (0, 1)%Z). split; [ vm_compute; reflexivity | ]. split; [ | reflexivity ].
      intros pt Hp; apply ex_points in Hp; destruct Hp as [ -> | [ -> | -> ] ]; eexists; (split; [ vm_compute; reflexivity | reflexivity ]).
Qed.

(* four points on a line at 0, 10, 1000 and 1001 *)
Definition line_matrix : mat := Mat 4
  [[Fin 0; Fin 10; Fin 1000; Fin 1001]; [Fin 10; Fin 0; Fin 990; Fin 991]; [Fin 1000; Fin 990; Fin 0; Fin 1]; [Fin 1001; Fin 991; Fin 1; Fin 0]].
Definition line_d : arr3 fnum := mk3 1 1 4 [Fin 0; Fin 10; Fin 1000; Fin 1001].
Definition line_loaded : dobj := DObj PlainDTW (Some line_matrix) false.
Definition line_dist (q pt : point) : Q := match entry line_matrix (index_of 4 q) (index_of 4 pt) with Some (Fin v) => v | _ => 0%Q end.
Definition line_km (md : string) : kmeta := KMeta 3 7 md (Some [0; 2; 3]%Z) 1000 (Fin 1) true.
Lemma line_points : forall q, in_grid 1 4 q -> q = (0, 0)%Z \/ q = (0, 1)%Z \/ q = (0, 2)%Z \/ q = (0, 3)%Z.
Proof. intros [ i j ] [ H1 H2 ]. cbn in H1, H2. assert (i = 0)%Z as -> by lia. assert (j = 0 \/ j = 1 \/ j = 2 \/ j = 3)%Z as [ -> | [ -> | [ -> | -> ] ] ] by lia; auto. Qed.
Definition line_own (pt : point) : point := if (snd pt <=? 1)%Z then (0, 0)%Z else pt.
Definition line_other (pt : point) : point := if (snd pt =? 3)%Z then (0, 2)%Z else pt.
Lemma line_square : square 4 line_matrix.
Proof. split; [ reflexivity | split; [ reflexivity | ] ]. intros row [ <- | [ <- | [ <- | [ <- | [] ] ] ] ]; reflexivity. Qed.

(** In mode "lite" a change of one medoid into a point of another cluster can still improve the medoids by more than the
    tolerance, even if the search stopped by itself: the points at 0, 10, 1000 and 1001 keep the medoids 0, 1000 and 1001. *)
Theorem C152_lite_any_point_refuted :
  ~ (forall choice env o d sc x y (dist : point -> point -> Q) k m starts start tol p ms own,
       qwf d sc -> a3x d = x -> a3y d = y -> 0 < x * y -> measured env o d (fun q pt => Fin (dist q pt)) ->
       (forall q pt, in_grid x y q -> in_grid x y pt -> 0 <= dist q pt)%Q ->
       can_start choice m x y k starts -> km_tol m = Fin tol -> (0 < tol)%Q ->
       (forall pt, in_grid x y pt -> in_grid x y (start pt) /\ In (Z.of_nat (index_of y (start pt))) starts) ->
       (qsum (map (fun pt => dist (start pt) pt) (grid x y)) < inject_Z (km_max_iter m + 1) * tol)%Q ->
       kmedoids_partition_impl choice env m (qregion d sc) true o = Ok (p, Some ms) ->
       (forall pt, in_grid x y pt -> exists l, label_at p pt l /\ nth_error ms (Z.to_nat l) = Some (own pt)) ->
       forall j q other, j < k -> in_grid x y q ->
         (forall pt, in_grid x y pt -> other pt = q \/ exists i, i <> j /\ nth_error ms i = Some (other pt)) ->
         (qsum (map (fun pt => dist (own pt) pt) (grid x y)) <= qsum (map (fun pt => dist (other pt) pt) (grid x y)) + tol)%Q).
Proof.
  intros H.
  destruct (kmedoids_partition_impl ex_pick ex_env (line_km "lite") (qregion line_d None) true line_loaded) as [ [ p w ] | e ] eqn:E; [ | vm_compute in E; discriminate ].
  assert (Ew : w = Some [(0, 0); (0, 2); (0, 3)]%Z) by (vm_compute in E; congruence). subst w.
  assert (Ep : p = Crisp (mk2 1 4 [0; 0; 1; 2]%Z) 3) by (vm_compute in E; congruence).
  specialize (H ex_pick ex_env line_loaded line_d None 1 4 line_dist 3 (line_km "lite") [0; 2; 3]%Z line_own 1%Q p [(0, 0); (0, 2); (0, 3)]%Z line_own).
  assert (C : (qsum (map (fun pt => line_dist (line_own pt) pt) (grid 1 4)) <= qsum (map (fun pt => line_dist (line_other pt) pt) (grid 1 4)) + 1)%Q).
  { apply (H ltac:(split; [ reflexivity | exact I ]) eq_refl eq_refl ltac:(lia)) with (j := 2) (q := (0, 1)%Z); clear H; try reflexivity; try lia.
    - cbn. split; [ exact line_square | ]. intros q pt Hq Hp. apply line_points in Hq, Hp.
      destruct Hq as [ -> | [ -> | [ -> | -> ] ] ]; destruct Hp as [ -> | [ -> | [ -> | -> ] ] ]; reflexivity.
    - intros q pt Hq Hp. apply line_points in Hq, Hp. destruct Hq as [ -> | [ -> | [ -> | -> ] ] ]; destruct Hp as [ -> | [ -> | [ -> | -> ] ] ]; vm_compute; discriminate.
    - unfold can_start, line_km. cbn. repeat split; auto; try lia. repeat constructor; cbn; intuition lia.
    - intros pt Hp. apply line_points in Hp. destruct Hp as [ -> | [ -> | [ -> | -> ] ] ]; (split; [ split; cbn; lia | cbn; auto ]).
    - exact E.
    - subst p. intros pt Hp. apply line_points in Hp. destruct Hp as [ -> | [ -> | [ -> | -> ] ] ]; eexists; (split; [ vm_compute; reflexivity | reflexivity ]).
    - split; cbn; lia.
    - intros pt Hp. apply line_points in Hp. destruct Hp as [ -> | [ -> | [ -> | -> ] ] ]; [ right; exists 0 | left | right; exists 1 | right; exists 1 ];
        try reflexivity; (split; [ lia | reflexivity ]). }
  vm_compute in C. apply C. reflexivity.
Qed.
Print Assumptions C152_lite_any_point_refuted.
