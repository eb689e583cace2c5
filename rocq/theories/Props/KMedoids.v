(** Properties C26-C30 and C74: k-medoids. *)
From Coq Require Import ZifyBool ZifyNat QArith Qabs.
From Verif Require Import Base.Py Base.Arr Base.Float Base.FloatFacts Model.KMedoids Spec.Medoids Proofs.KMedoidsFacts Props.Scaling.
Local Close Scope Q_scope.
Local Open Scope nat_scope.

(* ---------------------------------------------------------------- C26 *)
(** Either nothing was swapped and the initial medoids and their cost are returned, or the total is lower than
    the total of the initial medoids by more than tol. *)
Theorem C26_cost_never_increases : forall choice X k D init md max_iter tol verbose ms0 c0 r,
  instance X D -> dist_no_nan X D -> fle (Fin 0) tol = true -> md <> OtherMode ->
  starts_from choice X k init ms0 -> consistent X D ms0 c0 ->
  run_kmedoids choice X (Z.of_nat k) D init md max_iter tol verbose = Ok r ->
  (r_medoids r = ms0 /\ r_cost r = c0) \/ flt tol (fsub (c_total c0) (c_total (r_cost r))) = true.
Proof.
  intros choice X k D init md mi tol vb ms0 c0 r HI HN Ht Hmd (Hs & Hl & Hk & HV) Hc Hr.
  destruct (run_spec X D tol md k HI Ht Hk choice init mi vb ms0 Hmd Hs HV Hl)
    as (c & st & ms & cc & Ec & Hok & (_ & _ & HL) & Er & _).
  rewrite Er in Hr. destruct (if vb then _ else _); [|discriminate]. cbn [bind] in Hr. injection Hr as <-. cbn [r_medoids r_cost].
  rewrite (consistent_get_cost X D ms0 c0 HI HV ltac:(destruct ms0; cbn in Hl; [lia|congruence]) HN Hc) in Ec.
  injection Ec as <-. destruct HL as [[-> ->]|HL]; auto.
Qed.
Print Assumptions C26_cost_never_increases.

(** In particular, with finite distances, the total returned is at most the initial one; and if the medoids
    differ from the initial ones it is strictly lower by more than tol. *)
Theorem C26_at_most_initial_cost : forall choice X k D init md max_iter tol verbose ms0 c0 r,
  instance X D -> dist_finite X D -> fle (Fin 0) tol = true -> md <> OtherMode ->
  starts_from choice X k init ms0 -> consistent X D ms0 c0 ->
  run_kmedoids choice X (Z.of_nat k) D init md max_iter tol verbose = Ok r ->
  fle (c_total (r_cost r)) (c_total c0) = true /\
  (r_medoids r <> ms0 -> flt tol (fsub (c_total c0) (c_total (r_cost r))) = true).
Proof.
  intros choice X k D init md mi tol vb ms0 c0 r HI HF Ht Hmd Hs Hc Hr.
  assert (HN : dist_no_nan X D) by (intros m i Hm Hi; specialize (HF m i Hm Hi); destruct (sample_dist X D m i); auto; discriminate).
  destruct (C26_cost_never_increases choice X k D init md mi tol vb ms0 c0 r HI HN Ht Hmd Hs Hc Hr) as [[E1 E2]|G].
  - split; [|congruence]. rewrite E2. apply fle_refl.
    destruct Hs as (_ & _ & _ & HV).
    pose proof (total_is_sum_of_least X D ms0 c0 HV HF Hc) as T.
    assert (T2 : feqv (c_total c0) (Fin (FloatFacts.qsum (map (fun i => qof (dist_j X D ms0 (nth i (c_labels c0) (length ms0)) i)) (seq 0 (length X)))))).
    { etransitivity; [exact T|]. apply feqv_fsum_map. intros i Hi. apply in_seq in Hi.
      destruct Hc as (_ & C2 & _). destruct (C2 i ltac:(lia)) as (L & _).
      rewrite <- is_fin_qof; [reflexivity|]. apply HF; [|lia].
      assert (Hin : In (nth (nth i (c_labels c0) (length ms0)) ms0 0%Z) ms0) by (apply nth_In; auto). apply HV in Hin. lia. }
    destruct (c_total c0); cbn in T2; auto; contradiction.
  - split; auto. revert G Ht. clear. generalize (c_total c0) (c_total (r_cost r)). intros a b.
    destruct tol as [| | |t], a as [| | |a], b as [| | |b]; cbn; try discriminate; auto.
    intros G Ht. apply fle_Fin. apply fle_Fin in Ht. apply Qltb_spec in G. Lqa.lra.
Qed.
Print Assumptions C26_at_most_initial_cost.

(* ---------------------------------------------------------------- C27 *)
(** Labels, cluster costs, total and distances returned are consistent with the returned medoids, and the total
    is the sum over the samples of the least distance to a medoid. *)
Theorem C27_result_consistent : forall choice X k D init md max_iter tol verbose ms0 r,
  instance X D -> dist_no_nan X D -> fle (Fin 0) tol = true -> md <> OtherMode ->
  starts_from choice X k init ms0 ->
  run_kmedoids choice X (Z.of_nat k) D init md max_iter tol verbose = Ok r ->
  consistent X D (r_medoids r) (r_cost r).
Proof.
  intros choice X k D init md mi tol vb ms0 r HI HN Ht Hmd (Hs & Hl & Hk & HV) Hr.
  destruct (run_spec X D tol md k HI Ht Hk choice init mi vb ms0 Hmd Hs HV Hl)
    as (c & st & ms & cc & Ec & (HV' & Hl' & Hm' & Hc') & _ & Er & _).
  rewrite Er in Hr. destruct (if vb then _ else _); [|discriminate]. cbn [bind] in Hr. injection Hr as <-. cbn [r_medoids r_cost].
  apply get_cost_consistent; auto. destruct ms; cbn in Hl'; [lia|congruence].
Qed.
Print Assumptions C27_result_consistent.

Theorem C27_total_is_sum_of_least_distances : forall choice X k D init md max_iter tol verbose ms0 r,
  instance X D -> dist_finite X D -> fle (Fin 0) tol = true -> md <> OtherMode ->
  starts_from choice X k init ms0 ->
  run_kmedoids choice X (Z.of_nat k) D init md max_iter tol verbose = Ok r ->
  exists least, length least = length X /\
    (forall i, i < length X -> is_least (nth i least NaN) (map (fun m => sample_dist X D (Z.to_nat m) i) (r_medoids r))) /\
    feqv (c_total (r_cost r)) (fsum least).
Proof.
  intros choice X k D init md mi tol vb ms0 r HI HF Ht Hmd (Hs & Hl & Hk & HV) Hr.
  assert (HN : dist_no_nan X D) by (intros m i Hm Hi; specialize (HF m i Hm Hi); destruct (sample_dist X D m i); auto; discriminate).
  pose proof (C27_result_consistent choice X k D init md mi tol vb ms0 r HI HN Ht Hmd
    (conj Hs (conj Hl (conj Hk HV))) Hr) as HC.
  destruct (run_spec X D tol md k HI Ht Hk choice init mi vb ms0 Hmd Hs HV Hl)
    as (c & st & ms & cc & Ec & (HV' & _) & _ & Er & _).
  rewrite Er in Hr. destruct (if vb then _ else _); [|discriminate]. cbn [bind] in Hr. injection Hr as <-. cbn [r_medoids r_cost] in *.
  exists (map (fun i => dist_j X D ms (nth i (c_labels (st_cost st)) (length ms)) i) (seq 0 (length X))).
  split; [rewrite map_length, seq_length; auto|]. split; [|apply total_is_sum_of_least; auto].
  intros i Hi. rewrite nth_map_lt with (d' := 0) by (rewrite seq_length; auto). rewrite seq_nth by auto. cbn [plus].
  destruct HC as (_ & C2 & _). destruct (C2 i Hi) as (L1 & L2 & _). split.
  - apply in_map_iff. eexists; split; [reflexivity|]. apply nth_In; auto.
  - intros u Hu. apply in_map_iff in Hu. destruct Hu as (m & <- & Hm). apply In_nth with (d := 0%Z) in Hm.
    destruct Hm as (j & Hj & <-). apply L2; auto.
Qed.
Print Assumptions C27_total_is_sum_of_least_distances.

(* ---------------------------------------------------------------- C28 *)
(** For every distance (missing values included). *)
Theorem C28_medoids_stay_valid : forall choice X k D init md max_iter tol verbose ms0 r,
  instance X D -> fle (Fin 0) tol = true -> md <> OtherMode -> starts_from choice X k init ms0 -> NoDup ms0 ->
  run_kmedoids choice X (Z.of_nat k) D init md max_iter tol verbose = Ok r ->
  length (r_medoids r) = k /\ NoDup (r_medoids r) /\ valid_indices X (r_medoids r).
Proof.
  intros choice X k D init md mi tol vb ms0 r HI Ht Hmd (Hs & Hl & Hk & HV) Hnd Hr.
  destruct (run_spec X D tol md k HI Ht Hk choice init mi vb ms0 Hmd Hs HV Hl)
    as (c & st & ms & cc & Ec & (HV' & Hl' & _) & (_ & HN & _) & Er & _).
  rewrite Er in Hr. destruct (if vb then _ else _); [|discriminate]. cbn [bind] in Hr. injection Hr as <-. auto.
Qed.
Print Assumptions C28_medoids_stay_valid.

(* ---------------------------------------------------------------- C29 *)
(** The search always ends: without the report a result is returned, after at most max(0,max_iter)+2 passes
    (the counter of the result is the number of passes minus one). *)
Theorem C29_terminates : forall choice X k D init md max_iter tol ms0,
  instance X D -> fle (Fin 0) tol = true -> md <> OtherMode -> starts_from choice X k init ms0 ->
  exists r, run_kmedoids choice X (Z.of_nat k) D init md max_iter tol false = Ok r /\
    (0 <= r_cc r)%Z /\ (r_cc r + 1 <= Z.max 0 max_iter + 2)%Z.
Proof.
  intros choice X k D init md mi tol ms0 HI Ht Hmd (Hs & Hl & Hk & HV).
  destruct (run_spec X D tol md k HI Ht Hk choice init mi false ms0 Hmd Hs HV Hl)
    as (c & st & ms & cc & Ec & _ & _ & Er & HB & _).
  rewrite Er. cbn [bind]. eexists. split; [reflexivity|]. cbn [r_cc]. lia.
Qed.
Print Assumptions C29_terminates.

(** If it stopped before the limit, making any candidate that is not a medoid the medoid of any cluster j gives
    medoids whose (consistent) total is not lower by more than tol. *)
Theorem C29_local_optimum : forall choice X k D init md max_iter tol verbose ms0 r,
  instance X D -> dist_no_nan X D -> fle (Fin 0) tol = true -> md <> OtherMode ->
  starts_from choice X k init ms0 ->
  run_kmedoids choice X (Z.of_nat k) D init md max_iter tol verbose = Ok r -> (r_cc r <= max_iter)%Z ->
  forall before after i c, r_medoids r = before ++ after -> after <> [] ->
    candidate_of md X (c_labels (r_cost r)) (length before) i -> ~ In (Z.of_nat i) (r_medoids r) ->
    consistent X D (before ++ Z.of_nat i :: tl after) c ->
    flt tol (fsub (c_total (r_cost r)) (c_total c)) = false.
Proof.
  intros choice X k D init md mi tol vb ms0 r HI HN Ht Hmd (Hs & Hl & Hk & HV) Hr Hlim before after i c Hm Ha Hcand Hni Hc.
  destruct (run_spec X D tol md k HI Ht Hk choice init mi vb ms0 Hmd Hs HV Hl)
    as (c0 & st & ms & cc & Ec & (HV' & Hl' & _) & _ & Er & _ & HO & _).
  rewrite Er in Hr. destruct (if vb then _ else _); [|discriminate]. cbn [bind] in Hr. injection Hr as <-. cbn [r_medoids r_cost r_cc] in *.
  destruct after as [|a0 after]; [congruence|]. cbn [tl] in Hc.
  assert (Hj : length before < k) by (rewrite <- Hl', Hm, app_length; cbn; lia).
  destruct (HO Hlim (length before) i Hj Hcand) as [H|(c' & E & G)]; [contradiction|].
  assert (Er' : replace_nth ms (length before) (Z.of_nat i) = before ++ Z.of_nat i :: after).
  { rewrite Hm. clear. induction before; cbn; auto. f_equal; auto. }
  rewrite Er' in E. destruct Hcand as [Hi _].
  rewrite (consistent_get_cost X D _ c HI) in E; auto.
  - injection E as <-. exact G.
  - rewrite <- Er'. apply replace_valid; auto.
  - destruct before; discriminate.
Qed.
Print Assumptions C29_local_optimum.

(* ---------------------------------------------------------------- C30 *)
Theorem C30_medoid_in_own_cluster : forall choice X k D init md max_iter tol verbose ms0 r,
  instance X D -> dist_no_nan X D -> fle (Fin 0) tol = true -> md <> OtherMode ->
  starts_from choice X k init ms0 -> NoDup ms0 ->
  run_kmedoids choice X (Z.of_nat k) D init md max_iter tol verbose = Ok r ->
  (forall a, In a (r_medoids r) -> feqb (sample_dist X D (Z.to_nat a) (Z.to_nat a)) (Fin 0) = true) ->
  (forall a b, In a (r_medoids r) -> In b (r_medoids r) -> a <> b ->
     flt (Fin 0) (sample_dist X D (Z.to_nat a) (Z.to_nat b)) = true) ->
  (forall j, j < k -> nth_error (c_labels (r_cost r)) (Z.to_nat (nth j (r_medoids r) 0%Z)) = Some j) /\
  (forall j, j < k -> In j (c_labels (r_cost r))).
Proof.
  intros choice X k D init md mi tol vb ms0 r HI HN Ht Hmd Hs Hnd Hr H0 Hpos.
  pose proof (C27_result_consistent choice X k D init md mi tol vb ms0 r HI HN Ht Hmd Hs Hr) as HC.
  destruct (C28_medoids_stay_valid choice X k D init md mi tol vb ms0 r HI Ht Hmd Hs Hnd Hr) as (L & N & V).
  assert (G : forall j, j < k -> nth_error (c_labels (r_cost r)) (Z.to_nat (nth j (r_medoids r) 0%Z)) = Some j).
  { intros j Hj. eapply own_cluster; eauto. lia. }
  split; auto. intros j Hj. eapply nth_error_In. apply G; auto.
Qed.
Print Assumptions C30_medoid_in_own_cluster.

(* four samples: 0 and 1 are equal, 2 is near, 3 is far *)
Definition ex_dup_X : dataset := [fl [0%Z]; fl [0%Z]; fl [1%Z]; fl [9%Z]].
Definition ex_dup_D : distance := DMatrix (mk2 4 4 (fl [0; 0; 1; 9;  0; 0; 1; 9;  1; 1; 0; 8;  9; 9; 8; 0]%Z)).
Definition ex_choice (n : nat) (k : Z) : res (list Z) := Ok (firstn (Z.to_nat k) (map Z.of_nat (seq 0 n))).

Lemma C30_broken : exists r,
  run_kmedoids ex_choice ex_dup_X 2 ex_dup_D (Some [0; 1]%Z) Lite 0 (Fin 100) false = Ok r /\
  r_medoids r = [0; 1]%Z /\ nth_error (c_labels (r_cost r)) 1 = Some 0 /\ ~ In 1 (c_labels (r_cost r)).
Proof. eexists. split; [vm_compute; reflexivity|]. split; [reflexivity|]. split; [reflexivity|]. cbn. intuition discriminate. Qed.

(** Two medoids at distance 0: the second is labelled with the first cluster, and its own cluster is empty. *)
Theorem C30_own_cluster_with_equal_samples_refuted :
  ~ (forall choice X k D init md max_iter tol ms0 r,
       instance X D -> dist_no_nan X D -> fle (Fin 0) tol = true -> md <> OtherMode ->
       starts_from choice X k init ms0 -> NoDup ms0 ->
       run_kmedoids choice X (Z.of_nat k) D init md max_iter tol false = Ok r ->
       forall j, j < k -> In j (c_labels (r_cost r))).
Proof.
  intros H. destruct C30_broken as (r & Hr & _ & _ & Hn).
  apply Hn. eapply (H ex_choice ex_dup_X 2 ex_dup_D (Some [0; 1]%Z) Lite 0%Z (Fin 100) [0; 1]%Z r); try exact Hr; try reflexivity.
  - repeat split.
  - intros m i Hm Hi. cbn in Hm, Hi.
    do 4 (destruct m as [|m]; [do 4 (destruct i as [|i]; [vm_compute; reflexivity|]); cbn in Hi; lia|]). cbn in Hm; lia.
  - discriminate.
  - split; [reflexivity|]. split; [reflexivity|]. split; [lia|]. intros i [<-|[<-|[]]]; cbn; lia.
  - repeat constructor; cbn; intuition lia.
  - lia.
Qed.
Print Assumptions C30_own_cluster_with_equal_samples_refuted.

(* ---------------------------------------------------------------- C74 *)
(** With the report on (the default), the same search that ends with a result when the report is off raises
    IndexError exactly when some cluster of that result is empty. *)
Theorem C74_report_fails_exactly_on_empty_cluster : forall choice X k D init md max_iter tol ms0,
  instance X D -> fle (Fin 0) tol = true -> md <> OtherMode -> starts_from choice X k init ms0 ->
  exists r, run_kmedoids choice X (Z.of_nat k) D init md max_iter tol false = Ok r /\
    ((forall j, j < k -> In j (c_labels (r_cost r))) ->
       run_kmedoids choice X (Z.of_nat k) D init md max_iter tol true = Ok r) /\
    ((exists j, j < k /\ ~ In j (c_labels (r_cost r))) ->
       run_kmedoids choice X (Z.of_nat k) D init md max_iter tol true = Raise IndexError).
Proof.
  intros choice X k D init md mi tol ms0 HI Ht Hmd (Hs & Hl & Hk & HV).
  destruct (run_spec X D tol md k HI Ht Hk choice init mi false ms0 Hmd Hs HV Hl)
    as (c & st & ms & cc & Ec & (HV1 & Hl1 & Hm1 & Hc1) & _ & Er & _).
  destruct (get_cost_ok X D ms HI HV1) as (labels & E & _ & Hlt & _); [destruct ms; cbn in Hl1; [lia|congruence]|].
  rewrite Hc1 in E. injection E as E. rewrite Hl1 in Hlt.
  assert (E2 : c_labels (st_cost st) = labels) by (rewrite E; reflexivity).
  cbn [bind] in Er. eexists. split; [exact Er|]. cbn [r_cost]. rewrite E2.
  assert (Et : run_kmedoids choice X (Z.of_nat k) D init md mi tol true
     = (_ <- show_report (Z.of_nat k) ms labels ;; Ok (mkres ms (st_cost st) cc))).
  { revert Er. unfold run_kmedoids. destruct (choose_initial_medoids choice X (Z.of_nat k) init); [|discriminate]. cbn [bind].
    destruct (get_cost X D a); [|discriminate]. cbn [bind].
    destruct (kmedoids_loop _ _ _ _ _ _ _ _ _) as [[st2 cc2]|]; [|discriminate]. cbn [bind]. intros Er. injection Er as E3 E4 E5.
    cbn [r_medoids r_cost]. rewrite E3, E4, E5, E2. reflexivity. }
  rewrite Et, report_ok by auto. split.
  - intros H. rewrite (proj2 (nodup_full k labels Hlt) H), Nat.eqb_refl. reflexivity.
  - intros (j & Hj & Hn). destruct (Nat.eqb_spec (length (nodup Nat.eq_dec labels)) k) as [Ek|Ek]; [|reflexivity].
    exfalso. apply Hn. apply (proj1 (nodup_full k labels Hlt) Ek j Hj).
Qed.
Print Assumptions C74_report_fails_exactly_on_empty_cluster.

(* ---------- the hypotheses are met by runs that do swap ---------- *)
Definition ex_X : dataset := [fl [0%Z]; fl [1%Z]; fl [2%Z]; fl [8%Z]; fl [9%Z]].
Definition ex_D : distance := DMeasure (fun a b => match a, b with Fin p :: _, Fin q :: _ => Fin (Qabs (p - q)%Q) | _, _ => NaN end).
Definition ex_M : distance :=
  DMatrix (mk2 5 5 (fl [0;1;2;8;9; 1;0;1;7;8; 2;1;0;6;7; 8;7;6;0;1; 9;8;7;1;0]%Z)).

Example C26_nonvacuous : exists r c0,
  instance ex_X ex_M /\ starts_from ex_choice ex_X 2 (Some [0; 4]%Z) [0; 4]%Z /\
  get_cost ex_X ex_M (mk ex_X [0; 4]%Z) = Ok c0 /\
  run_kmedoids ex_choice ex_X 2 ex_M (Some [0; 4]%Z) Lite 1000 (Fin 0) true = Ok r /\
  r_medoids r = [1; 4]%Z /\ c_labels (r_cost r) = [0; 0; 0; 1; 1] /\ feqb (c_total (r_cost r)) (Fin 3) = true /\
  feqb (c_total c0) (Fin 4) = true /\ r_cc r = 1%Z.
Proof.
  eexists. eexists. split; [repeat split|]. split.
  { split; [reflexivity|]. split; [reflexivity|]. split; [lia|]. intros i [<-|[<-|[]]]; cbn; lia. }
  split; [vm_compute; reflexivity|]. split; [vm_compute; reflexivity|]. repeat split.
Qed.
Example C26_finite_matrix : dist_finite ex_X ex_M.
Proof.
  intros m i Hm Hi. cbn in Hm, Hi.
  do 5 (destruct m as [|m]; [do 5 (destruct i as [|i]; [vm_compute; reflexivity|]); cbn in Hi; lia|]). cbn in Hm; lia.
Qed.
Lemma ex_run : exists r, starts_from ex_choice ex_X 2 (Some [0; 4]%Z) [0; 4]%Z /\
  run_kmedoids ex_choice ex_X 2 ex_M (Some [0; 4]%Z) Lite 1000 (Fin 0) true = Ok r /\ r_medoids r = [1; 4]%Z /\
  c_labels (r_cost r) = [0; 0; 0; 1; 1].
Proof. destruct C26_nonvacuous as (r & c0 & _ & H1 & _ & H2 & H3 & H4 & _). exists r. auto. Qed.
Lemma ex_no_nan : dist_no_nan ex_X ex_M.
Proof.
  intros m i Hm Hi. cbn in Hm, Hi.
  do 5 (destruct m as [|m]; [do 5 (destruct i as [|i]; [vm_compute; reflexivity|]); cbn in Hi; lia|]). cbn in Hm; lia.
Qed.
(** the theorems of C27, C28 and C30 at the run of C26 *)
Example C27_ex : exists r, run_kmedoids ex_choice ex_X 2 ex_M (Some [0; 4]%Z) Lite 1000 (Fin 0) true = Ok r /\
  consistent ex_X ex_M (r_medoids r) (r_cost r) /\
  (forall i, i < 5 -> is_least (nth i [Fin 1; Fin 0; Fin 1; Fin 1; Fin 0] NaN) (map (fun m => sample_dist ex_X ex_M (Z.to_nat m) i) (r_medoids r))).
Proof.
  destruct ex_run as (r & Hs & Hr & Hm & _). exists r. split; [exact Hr|]. split.
  - eapply (C27_result_consistent ex_choice ex_X 2 ex_M (Some [0; 4]%Z) Lite 1000 (Fin 0) true); [repeat split|exact ex_no_nan|reflexivity|discriminate|exact Hs|exact Hr].
  - rewrite Hm. intros i Hi. destruct i as [|[|[|[|[|i]]]]]; [..|lia]; (split; [vm_compute; auto|intros u [<-|[<-|[]]]; vm_compute; reflexivity]).
Qed.
Example C28_ex : exists r, run_kmedoids ex_choice ex_X 2 ex_M (Some [0; 4]%Z) Lite 1000 (Fin 0) true = Ok r /\
  length (r_medoids r) = 2 /\ NoDup (r_medoids r) /\ valid_indices ex_X (r_medoids r).
Proof.
  destruct ex_run as (r & Hs & Hr & _). exists r. split; [exact Hr|].
  eapply (C28_medoids_stay_valid ex_choice ex_X 2 ex_M (Some [0; 4]%Z) Lite 1000 (Fin 0) true); [repeat split|reflexivity|discriminate|exact Hs|repeat constructor; cbn; intuition discriminate|exact Hr].
Qed.
Example C30_ex : exists r, run_kmedoids ex_choice ex_X 2 ex_M (Some [0; 4]%Z) Lite 1000 (Fin 0) true = Ok r /\
  (forall j, j < 2 -> nth_error (c_labels (r_cost r)) (Z.to_nat (nth j (r_medoids r) 0%Z)) = Some j) /\
  (forall j, j < 2 -> In j (c_labels (r_cost r))).
Proof.
  destruct ex_run as (r & Hs & Hr & Hm & _). exists r. split; [exact Hr|].
  eapply (C30_medoid_in_own_cluster ex_choice ex_X 2 ex_M (Some [0; 4]%Z) Lite 1000 (Fin 0) true); [repeat split|exact ex_no_nan|reflexivity|discriminate|exact Hs|repeat constructor; cbn; intuition discriminate|exact Hr| |].
  - rewrite Hm. intros a [<-|[<-|[]]]; vm_compute; reflexivity.
  - rewrite Hm. intros a b [<-|[<-|[]]] [<-|[<-|[]]] H; try congruence; vm_compute; reflexivity.
Qed.
Example C29_nonvacuous_measured : exists r,
  run_kmedoids ex_choice ex_X 2 ex_D None Robust 1000 (Fin (1#1000)) true = Ok r /\ (r_cc r <= 1000)%Z /\
  r_medoids r = [3; 1]%Z.
Proof. eexists. split; [vm_compute; reflexivity|]. split; [cbn; lia|]. vm_compute; reflexivity. Qed.
Example C74_report_raises :
  run_kmedoids ex_choice ex_dup_X 2 ex_dup_D (Some [0; 1]%Z) Lite 0 (Fin 100) true = Raise IndexError.
Proof. vm_compute. reflexivity. Qed.
