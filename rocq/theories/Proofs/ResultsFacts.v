(** Lemmas about query results. *)
From Coq Require Import ZifyBool ZifyNat String.
From Verif Require Import Base.Py Base.PyFacts Base.Arr Base.ArrFacts Base.Str Base.StrFacts Base.Dict Base.Float Model.Region Model.Scaling Model.Series
  Model.Errors Model.Models Model.Clustering Model.Solver Model.SolverFiles Model.Results
  Spec.Grid Spec.Partition Spec.Rect Spec.Solver Spec.Results
  Proofs.RegionFacts Proofs.PartitionFacts Proofs.ProperFacts Proofs.SubsetFacts Proofs.SolverFacts.
Local Notation length := List.length.

Lemma fits_base r : forall d sc tl, fits r d sc tl -> base_fits (base_of r) d sc tl.
Proof. induction r; cbn [fits base_of]; intros d' sc tl H; try tauto; apply IHr; tauto. Qed.

Lemma pt_eqb_eq (a b : point) : point_eqb a b = true <-> a = b.
Proof. destruct a, b. unfold point_eqb. cbn [fst snd]. rewrite andb_true_iff, !Z.eqb_eq. split; [intros [-> ->]; auto|intros [= -> ->]; auto]. Qed.

Lemma dict_get_in {V} (labels : list (point * V)) pt l : NoDup (map fst labels) -> In (pt, l) labels -> dict_get point_eqb pt labels = Ok l.
Proof.
  induction labels as [|[k v] t IH]; intros Hn Hi; [inversion Hi|]. cbn [dict_get map fst] in *. inversion Hn as [|? ? Hk Ht]; subst.
  destruct Hi as [[= -> ->]|Hi].
  - rewrite (proj2 (pt_eqb_eq pt pt)) by auto. auto.
  - destruct (point_eqb k pt) eqn:E; [|auto]. apply pt_eqb_eq in E. subst. exfalso. apply Hk. apply in_map_iff. exists (pt, l). auto.
Qed.

Lemma cluster_index_ok p x y pt : valid_partition p x y -> in_grid x y pt -> exists c, cluster_index_of p pt = Ok c /\ label_at p pt c.
Proof.
  intros Hv Hg. destruct (membership_of_points_spec p x y [pt] Hv (Forall_cons _ Hg (Forall_nil _))) as (ls & E & F).
  unfold cluster_index_of. rewrite E. inversion F as [|? c ? ? Hc Hn]; subst. inversion Hn; subst. exists c. split; auto.
Qed.

Definition agree {A} (P : string -> A -> Prop) (h : list string) (row : list A) : Prop := Forall2 P h row.

Lemma domain_in r d sc tl pt : base_fits (base_of r) d sc tl -> in_grid (width (rb_region (base_of r))) (height (rb_region (base_of r))) pt ->
  in_grid (a3x d) (a3y d) (to_domain_coordinates r pt) /\ to_domain_coordinates r pt = in_domain (rb_region (base_of r)) pt.
Proof.
  intros (Hq & _ & _ & _ & Hr & _) Hp. split; [|reflexivity]. change (to_domain_coordinates r pt) with (in_domain (rb_region (base_of r)) pt).
  eapply in_domain_grid; eauto.
Qed.

Lemma base_tuple_ok r d sc tl pt : base_fits (base_of r) d sc tl -> in_grid (width (rb_region (base_of r))) (height (rb_region (base_of r))) pt ->
  exists row, base_tuple r pt = Ok row /\ Forall2 (says r pt) ["Point"; "error"; "forecast_series"]%string row.
Proof.
  intros H Hp. pose proof H as (_ & _ & _ & _ & _ & _ & _ & Hc). destruct (Hc pt Hp) as [(s & Es) (e & Ee)].
  unfold base_tuple, prediction_error_at, prediction_forecast_at. rewrite Ee, Es. cbn [bind]. eexists. split; [reflexivity|].
  constructor; [|constructor; [constructor; auto|constructor; [constructor; auto|constructor]]].
  pose proof (says_point r pt) as S. cbn zeta in S.
  replace (absolute_coordinates_of r (to_domain_coordinates r pt)) with
    (x1 (rm_region (sm_region (rb_meta (base_of r)))) + (x1 (rb_region (base_of r)) + fst pt), y1 (rm_region (sm_region (rb_meta (base_of r)))) + (y1 (rb_region (base_of r)) + snd pt))%Z; auto.
  unfold absolute_coordinates_of, absolute_position_of_point, to_domain_coordinates. cbn [fst snd]. f_equal; lia.
Qed.

Lemma Forall2_insert1 {A B} (P : A -> B -> Prop) a b l l' : P a b -> Forall2 P l l' -> Forall2 P (insert1 a l) (insert1 b l').
Proof. intros H F. inversion F; subst; cbn [insert1]; auto. Qed.
Lemma Forall2_mono {A B} (P Q : A -> B -> Prop) l l' : (forall a b, P a b -> Q a b) -> Forall2 P l l' -> Forall2 Q l l'.
Proof. intros H F. induction F; auto. Qed.

Lemma tuple_ok r : forall d sc tl pt, fits r d sc tl -> in_grid (width (rb_region (base_of r))) (height (rb_region (base_of r))) pt ->
  exists row, result_tuple_for_point r pt = Ok row /\ Forall2 (says r pt) (result_header r) row.
Proof.
  induction r as [b test|b|r IH c dist p ms|r IH suite labels]; intros d sc tl pt Hf Hp; cbn [fits base_of] in *.
  - destruct Hf as [Hb Ht]. destruct (base_tuple_ok (InSample b test) d sc tl pt Hb Hp) as (row & E & F). cbn [result_tuple_for_point].
    rewrite E. destruct (Ht pt Hp) as (s & Es). rewrite Es. cbn [bind]. eexists. split; [reflexivity|]. cbn [result_header].
    apply Forall2_app; auto. constructor; [constructor; auto|constructor].
  - apply (base_tuple_ok (OutOfSample b) d sc tl pt Hf Hp).
  - destruct Hf as (Hr & Hv & _). destruct (IH d sc tl pt Hr Hp) as (row & E & F). cbn [result_tuple_for_point]. rewrite E. cbn [bind].
    destruct (domain_in (WithPartition r c dist p ms) d sc tl pt (fits_base _ _ _ _ Hr) Hp) as [Hg Eg].
    destruct (cluster_index_ok p _ _ _ Hv Hg) as (i & Ei & Hi). rewrite Ei. cbn [bind]. eexists. split; [reflexivity|].
    cbn [result_header]. apply Forall2_insert1.
    + rewrite Eg in Hi. apply says_cluster. exact Hi.
    + eapply Forall2_mono; [|exact F]. intros n v Hs. apply says_under_partition; auto.
  - destruct Hf as (Hr & Hn & Hl). destruct (IH d sc tl pt Hr Hp) as (row & E & F). cbn [result_tuple_for_point]. rewrite E. cbn [bind].
    destruct (Hl pt Hp) as (l & Hin). rewrite (dict_get_in _ _ _ Hn Hin). cbn [bind]. eexists. split; [reflexivity|].
    cbn [result_header]. apply Forall2_insert1; [apply says_label; auto|]. eapply Forall2_mono; [|exact F]. intros n v Hs. apply says_under_classifier; auto.
Qed.

Lemma mapM_Forall2 {A B} (f : A -> res B) (P : A -> B -> Prop) l : (forall a, In a l -> exists b, f a = Ok b /\ P a b) ->
  exists bs, mapM f l = Ok bs /\ Forall2 P l bs /\ Forall2 (fun a b => f a = Ok b) l bs.
Proof.
  induction l as [|a l IH]; intros H; cbn [mapM]; [exists []; auto|].
  destruct (H a (or_introl eq_refl)) as (b & E & Hb). destruct IH as (bs & E2 & F & F2); [intros; apply H; right; auto|].
  exists (b :: bs). rewrite E, E2. cbn [bind]. auto.
Qed.

Lemma points_ok r d sc tl : base_fits (base_of r) d sc tl ->
  snd (base_for (t_x (rb_forecast (base_of r))) (t_y (rb_forecast (base_of r))) 0) = Ok (grid (width (rb_region (base_of r))) (height (rb_region (base_of r)))).
Proof. intros (_ & _ & _ & _ & _ & Hx & Hy & _). rewrite Hx, Hy. apply base_for_0. Qed.

Lemma clusters_ok p x y g : valid_partition p x y -> rect_in g x y ->
  exists cs, find_indices_of_clusters_intersecting_with p g = Ok cs /\ clusters_in p g cs.
Proof.
  intros Hv Hr. destruct Hr as (H1 & H2 & H3 & H4). destruct (intersecting_spec p x y g Hv) as (cs & E & Hn & Hc); [lia|].
  exists cs. split; auto. split; auto. intros c. rewrite Hc. split.
  - intros (pt & Hx & Hy & Hl). exists (fst pt - x1 g, snd pt - y1 g)%Z. unfold in_domain, in_grid, width, height. cbn [fst snd].
    split; [lia|]. replace (fst pt - x1 g + x1 g, snd pt - y1 g + y1 g)%Z with pt; auto. destruct pt; cbn; f_equal; lia.
  - intros (pt & [Hx Hy] & Hl). exists (in_domain g pt). unfold in_domain, width, height in *. cbn [fst snd] in *. repeat split; auto; lia.
Qed.

Lemma summary_mse_ok r d sc tl : base_fits (base_of r) d sc tl -> exists m, summary_generalization_mse r = Ok m /\
  forall sqrt tl', sums sqrt r tl' "mse" (FNum 3 m).
Proof.
  intros H. pose proof H as (_ & _ & _ & _ & _ & _ & _ & Hc). unfold summary_generalization_mse. rewrite (points_ok r d sc tl H). cbn [bind].
  destruct (mapM_Forall2 (prediction_error_at r) (fun pt e => value_at (rb_errors (base_of r)) pt = Ok e)
    (grid (width (rb_region (base_of r))) (height (rb_region (base_of r))))) as (es & E & F & _).
  { intros pt Hp. apply in_grid_iff in Hp. destruct (Hc pt Hp) as [_ (e & Ee)]. exists e. auto. }
  rewrite E. cbn [bind]. eexists. split; [reflexivity|]. intros. apply sums_mse. auto.
Qed.

Lemma medoid_list p x y g l cs : valid_partition p x y -> rect_in g x y -> medoids_of p x y l ->
  find_indices_of_clusters_intersecting_with p g = Ok cs -> clusters_in p g cs ->
  exists ms, find_medoids_of_clusters_intersecting_with p (Some l) g = Ok ms /\
    Forall2 (fun i m => nth_error l (Z.to_nat i) = Some m /\ in_grid x y m) cs ms.
Proof.
  intros Hv Hr [Hlen Hm] E [_ Hc]. unfold find_medoids_of_clusters_intersecting_with. rewrite E. cbn [bind].
  destruct (mapM_Forall2 (getitem l) (fun i m => nth_error l (Z.to_nat i) = Some m /\ in_grid x y m) cs) as (ms & E2 & F & _); [|eauto].
  intros c Hin. apply Hc in Hin. destruct Hin as (pt & Hp & Hl). pose proof (in_domain_grid _ _ _ _ Hr Hp) as Hd.
  destruct Hv as (_ & _ & _ & Hb & _). specialize (Hb _ _ Hd Hl).
  destruct (nth_error l (Z.to_nat c)) as [m|] eqn:En; [|apply nth_error_None in En; lia].
  exists m. destruct (Hm _ _ En) as [Hg _]. split; auto. unfold getitem. unfold norm_index.
  replace ((0 <=? c) && (c <? Z.of_nat (length l)))%Z with true by lia. rewrite En. auto.
Qed.

Lemma Forall2_map_r {A B C} (P : A -> C -> Prop) (f : B -> C) l l' : Forall2 (fun a b => P a (f b)) l l' -> Forall2 P l (map f l').
Proof. intros F. induction F; cbn; auto. Qed.
Lemma Forall2_map_self {A C} (P : A -> C -> Prop) (f : A -> C) l : (forall a, In a l -> P a (f a)) -> Forall2 P l (map f l).
Proof. intros H. induction l; cbn; constructor; [apply H; left; auto|apply IHl; intros; apply H; right; auto]. Qed.

Lemma summary_distances_ok sqrt r measure p l d sc tl : base_fits (base_of r) d sc tl -> valid_partition p (a3x d) (a3y d) -> medoids_of p (a3x d) (a3y d) l ->
  forall c, exists v, summary_distances sqrt r (ByDTW measure) p (Some l) = Ok v /\
    sums sqrt (WithPartition r c (ByDTW measure) p (Some l)) tl "dtw_r_m" (FNum 2 v).
Proof.
  intros (Hq & Es & Et & Htl & Hr & _) Hv Hm c.
  destruct (clusters_ok p _ _ _ Hv Hr) as (cs & Ecs & Hcs).
  destruct (medoid_list p _ _ _ l cs Hv Hr Hm Ecs Hcs) as (ms & Ems & Fms).
  destruct (q_split d sc tl Hq Htl) as (d1 & d2 & Esp & Hq1 & Hq2 & T1 & T2 & X1 & Y1 & X2 & Y2 & Ss).
  unfold summary_distances. rewrite Ems, Es, Et, Esp. cbn [bind].
  destruct (q_subset d2 sc (rb_region (base_of r)) Hq2) as (m & Esub & Hqm & TS & XS & YS & Ssub); [rewrite X2, Y2; auto|].
  rewrite Esub. cbn [bind]. rewrite (proper_items _ (q_proper _ _ Hqm)). cbn [bind]. rewrite q_x, q_y, XS, YS.
  set (g := rb_region (base_of r)) in *.
  assert (Ef : filter (t_memb (qregion m (slice_sc sc g))) (grid (Z.to_nat (x2 g - x1 g)) (Z.to_nat (y2 g - y1 g))) = grid (width g) (height g)).
  { unfold width, height. apply filter_all. intros pt _. apply q_memb. }
  rewrite Ef. rewrite map_map. cbn [snd]. set (ts := map (t_ser (qregion m (slice_sc sc g))) (grid (width g) (height g))).
  assert (Test : forall pt, in_grid (a3x d) (a3y d) pt -> exists s, series_at (qregion d2 sc) pt = Ok s /\ test_series (qregion d sc) tl pt s).
  { intros pt Hp. destruct (ser_ok d pt (proj1 Hq) Hp) as (s & E & L). destruct (Ss pt s Hp E) as [_ E2].
    exists (skipn (length s - tl) s). rewrite q_series_at. split; auto. exists s. rewrite q_series_at. auto. }
  assert (Fts : Forall2 (fun pt t => test_series (qregion d sc) tl (in_domain g pt) t) (grid (width g) (height g)) ts).
  { apply Forall2_map_self. intros pt Hp. apply in_grid_iff in Hp. destruct (Ssub pt Hp) as [E3 _].
    pose proof (in_domain_grid _ _ _ _ Hr Hp) as Hd. destruct (Test _ Hd) as (s & E4 & Hs). rewrite q_series_at in E4. rewrite E4 in E3.
    rewrite (q_ser _ _ _ _ E3). auto. }
  assert (X : exists ds, mapM (fun medoid => s <- series_at (qregion d2 sc) medoid ;; distances_combined (ByDTW measure) s ts) ms = Ok ds /\
     Forall2 (fun i s => exists medoid m, nth_error l (Z.to_nat i) = Some medoid /\ test_series (qregion d sc) tl medoid m /\ s = fsum (map (measure m) ts)) cs ds).
  { clear - Fms Test. set (f := fun medoid => s <- series_at (qregion d2 sc) medoid ;; distances_combined (ByDTW measure) s ts). induction Fms as [|i medoid cs ms (Hn & Hg) F IH]; cbn [mapM]; [exists []; auto|].
    destruct IH as (ds & E & Fd). destruct (Test medoid Hg) as (s & Es & Hs). unfold f at 1. rewrite Es. cbn [bind distances_combined]. rewrite E. cbn [bind].
    eexists. split; [reflexivity|]. constructor; auto. exists medoid, s. auto. }
  destruct X as (ds & E & Fd). rewrite E. cbn [bind]. eexists. split; [reflexivity|].
  apply (sums_dtw_r_m sqrt r c measure p l tl cs ts ds); auto; rewrite Es; auto.
Qed.

Lemma summary_ok sqrt r : forall d sc tl, fits r d sc tl -> uses_dtw r ->
  exists row, summary_tuple sqrt r = Ok row /\ Forall2 (sums sqrt r tl) (summary_header r) row.
Proof.
  induction r as [b test|b|r IH c dist p ms|r IH suite labels]; intros d sc tl Hf Hd; cbn [fits base_of uses_dtw] in *.
  - destruct Hf as [Hb _]. destruct (summary_mse_ok (InSample b test) d sc tl Hb) as (m & E & S). cbn [summary_tuple]. rewrite E. cbn [bind].
    eexists. split; [reflexivity|]. cbn [base_of summary_header]. destruct Hb as (_ & _ & Et & _). rewrite Et. constructor; [constructor|constructor; auto].
  - destruct (summary_mse_ok (OutOfSample b) d sc tl Hf) as (m & E & S). cbn [summary_tuple]. rewrite E. cbn [bind].
    eexists. split; [reflexivity|]. cbn [base_of summary_header]. destruct Hf as (_ & _ & Et & _). rewrite Et. constructor; [constructor|constructor; auto].
  - destruct Hf as (Hr & Hv & l & -> & Hm). destruct Hd as (Hd & measure & ->). destruct (IH d sc tl Hr Hd) as (row & E & F).
    pose proof (fits_base _ _ _ _ Hr) as Hb. pose proof Hb as (_ & _ & _ & _ & Hg & _).
    destruct (clusters_ok p _ _ _ Hv Hg) as (cs & Ecs & Hcs). destruct (summary_distances_ok sqrt r measure p l d sc tl Hb Hv Hm c) as (v & Ev & Sv).
    cbn [summary_tuple base_of]. rewrite Ecs. cbn [bind]. unfold summary_distances in *. cbn [base_of]. rewrite Ev. cbn [bind]. rewrite E. cbn [bind].
    eexists. split; [reflexivity|]. cbn [summary_header]. apply Forall2_app.
    + destruct c as [k|m]; cbn [as_dict map fst snd]; repeat constructor.
    + constructor; [apply sums_clusters; auto|]. constructor; [exact Sv|]. eapply Forall2_mono; [|exact F]. intros n v' Hs. apply sums_under_partition. auto.
  - destruct Hf as (Hr & _ & _). destruct (IH d sc tl Hr Hd) as (row & E & F). cbn [summary_tuple]. rewrite E. cbn [bind].
    eexists. split; [reflexivity|]. cbn [summary_header]. constructor; [constructor|]. eapply Forall2_mono; [|exact F]. intros n v Hs. apply sums_under_classifier. auto.
Qed.

Lemma insert1_nonempty {A} (a : A) l : insert1 a l <> [].
Proof. destruct l; discriminate. Qed.
Lemma header_nonempty r : result_header r <> [].
Proof. destruct r; cbn [result_header]; try discriminate; apply insert1_nonempty. Qed.
Lemma Forall2_len {A B} (P : A -> B -> Prop) l l' : Forall2 P l l' -> length l = length l'.
Proof. intros F. induction F; cbn; auto. Qed.

Lemma in_dataset_abs r pt : absolute_coordinates_of r (to_domain_coordinates r pt) = in_dataset r pt.
Proof. unfold absolute_coordinates_of, absolute_position_of_point, to_domain_coordinates, in_dataset. cbn [fst snd]. f_equal; lia. Qed.

Lemma relative_domain r pt : to_relative_coordinates r (to_domain_coordinates r pt) = pt.
Proof. unfold to_relative_coordinates, to_domain_coordinates. destruct pt. cbn [fst snd]. f_equal; lia. Qed.

Lemma lines_ok r : forall d sc tl pt, fits r d sc tl -> in_grid (width (rb_region (base_of r))) (height (rb_region (base_of r))) pt ->
  exists first others, lines_for_point r pt = Ok (first :: others) /\ first_line pt r first /\ other_lines pt r others.
Proof.
  induction r as [b test|b|r IH c dist p ms|r IH suite labels]; intros d sc tl pt Hf Hp; cbn [fits base_of] in *.
  - destruct Hf as [Hb Ht]. pose proof Hb as (_ & _ & _ & _ & _ & _ & _ & Hc). destruct (Hc pt Hp) as [(s & Es) (e & Ee)]. destruct (Ht pt Hp) as (t & Et).
    cbn [lines_for_point text_intro bind]. unfold prediction_forecast_at, prediction_error_at. cbn [base_of]. rewrite Es, Et, Ee. cbn [bind].
    eexists _, _. split; [reflexivity|]. rewrite in_dataset_abs. split; [apply first_in|apply others_in; auto].
  - pose proof Hf as (_ & _ & _ & _ & _ & _ & _ & Hc). destruct (Hc pt Hp) as [(s & Es) (e & Ee)].
    cbn [lines_for_point text_intro bind]. unfold prediction_forecast_at, prediction_error_at. cbn [base_of]. rewrite Es, Ee. cbn [bind].
    eexists _, _. split; [reflexivity|]. rewrite in_dataset_abs. split; [apply first_out|apply others_out; auto].
  - destruct Hf as (Hr & Hv & _). destruct (IH d sc tl pt Hr Hp) as (first & others & E & _ & Ho). cbn [lines_for_point text_intro]. rewrite E. cbn [bind].
    destruct (domain_in r d sc tl pt (fits_base _ _ _ _ Hr) Hp) as [Hg Eg].
    destruct (cluster_index_ok p _ _ _ Hv Hg) as (i & Ei & Hi). change (to_domain_coordinates (WithPartition r c dist p ms) pt) with (to_domain_coordinates r pt).
    rewrite Ei. cbn [bind set_first]. eexists _, _. split; [reflexivity|]. rewrite in_dataset_abs. rewrite Eg in Hi.
    split; [apply first_cluster; auto|apply others_partition; auto].
  - destruct Hf as (Hr & Hn & Hl). destruct (IH d sc tl pt Hr Hp) as (first & others & E & _ & Ho). cbn [lines_for_point text_intro]. rewrite E. cbn [bind].
    change (to_domain_coordinates (FromClassifier r suite labels) pt) with (to_domain_coordinates r pt). rewrite relative_domain.
    destruct (Hl pt Hp) as (l & Hin). rewrite (dict_get_in _ _ _ Hn Hin). cbn [bind set_first].
    eexists _, _. split; [reflexivity|]. rewrite in_dataset_abs. split; [apply first_label; auto|apply others_classifier; auto].
Qed.

(** rows of the results file *)
Lemma results_file_ok show_f show_s r d sc tl : fits r d sc tl ->
  exists lines rows, prediction_results_csv show_f show_s r = Ok lines /\
    map csv_parse lines = result_header r :: map (map (render show_f show_s)) rows /\
    Forall2 (fun pt row => result_tuple_for_point r pt = Ok row /\ Forall2 (says r pt) (result_header r) row)
      (grid (width (rb_region (base_of r))) (height (rb_region (base_of r)))) rows.
Proof.
  intros Hf. unfold prediction_results_csv. rewrite (points_ok r d sc tl (fits_base _ _ _ _ Hf)). cbn [bind].
  destruct (mapM_Forall2 (result_tuple_for_point r) (fun pt row => Forall2 (says r pt) (result_header r) row)
    (grid (width (rb_region (base_of r))) (height (rb_region (base_of r))))) as (rows & E & F1 & F2).
  { intros pt Hp. apply in_grid_iff in Hp. eapply tuple_ok; eauto. }
  rewrite E. cbn [bind]. eexists _, rows. split; [reflexivity|]. split.
  - cbn [map]. unfold writerow. rewrite csv_roundtrip by apply header_nonempty. f_equal. rewrite map_map.
    apply map_ext_in. intros row Hin. apply csv_roundtrip.
    assert (length (result_header r) = length row).
    { clear - F1 Hin. induction F1 as [|pt row' pts rows H F IH]; [inversion Hin|]. destruct Hin as [->|Hin]; [eapply Forall2_len; eauto|auto]. }
    pose proof (header_nonempty r). destruct row; [destruct (result_header r); [congruence|discriminate]|discriminate].
  - clear - F1 F2. induction F1; inversion F2; subst; constructor; auto.
Qed.

Lemma summary_nonempty r : summary_header r <> [].
Proof. destruct r as [| |d c dist p ms|]; cbn [summary_header]; try discriminate. destruct c; discriminate. Qed.

Lemma summary_file_ok sqrt show_f show_s r d sc tl : fits r d sc tl -> uses_dtw r ->
  exists lines row, prediction_summary_csv sqrt show_f show_s r = Ok lines /\
    map csv_parse lines = [summary_header r; map (render show_f show_s) row] /\ Forall2 (sums sqrt r tl) (summary_header r) row.
Proof.
  intros Hf Hd. destruct (summary_ok sqrt r d sc tl Hf Hd) as (row & E & F). unfold prediction_summary_csv. rewrite E. cbn [bind].
  eexists _, row. split; [reflexivity|]. split; auto. cbn [map]. unfold writerow.
  rewrite !csv_roundtrip; auto; try apply summary_nonempty.
  apply Forall2_len in F. pose proof (summary_nonempty r). destruct row; [destruct (summary_header r); [congruence|discriminate]|discriminate].
Qed.

(** the result of a solver *)
Lemma solver_fits {P M} (kind : model_kind P M) mp refit cluster d sc tl et s p medoids m dist c repr Q g fl r :
  forecasts_fit kind -> qwf d sc -> tl <= a3t d -> cluster (qregion d sc) = Ok (p, medoids) ->
  valid_partition p (a3x d) (a3y d) -> medoids_of p (a3x d) (a3y d) medoids ->
  refits kind refit mp Q d sc tl medoids ->
  solver_train kind (full2 (a3x d) (a3y d) (Some mp)) refit cluster (qregion d sc) (Z.of_nat tl) et = Ok s ->
  rect_in g (a3x d) (a3y d) -> sm_test_len m = Z.of_nat tl -> sm_kind m = SClustering c repr ->
  solver_result kind s m dist (match sc with None => false | Some _ => true end) (qregion d sc) g fl = Ok r ->
  exists q inner, solver_predict kind s (match sc with None => false | Some _ => true end) (qregion d sc) (Z.of_nat tl) g fl = Ok q /\
    let b := RBase m (Z.max fl 0) (pr_forecast q) (pr_errors q) g (qregion d sc) in
    r = WithPartition inner c dist p (Some medoids) /\ fits r d sc tl /\
    (((0 < fl)%Z /\ inner = OutOfSample b) \/ ((fl <= 0)%Z /\ exists test, pr_test q = Some test /\ inner = InSample b test)).
Proof.
  intros Hfit Hq Htl Hcl Hv Hm Href Htr Hg Etl Ek Hr.
  destruct (solver_train_spec kind mp refit cluster d sc tl et s p medoids Q Hfit Hq Htl Hcl Hv Hm Href Htr)
    as (Ep & Em & Hmt & _ & Hmw & _ & e & func & Ee & We & Xe & Ye & _ & _).
  unfold solver_result in Hr. rewrite Etl in Hr.
  destruct (solver_predict kind s (match sc with None => false | Some _ => true end) (qregion d sc) (Z.of_nat tl) g fl) as [q|] eqn:Eq; cbn [bind] in Hr; [|discriminate].
  exists q. destruct (0 <? fl)%Z eqn:Efl.
  - cbn [builder bind] in Hr. unfold with_partition in Hr. cbn [base_of rb_meta] in Hr. rewrite Ek, Ep, Em in Hr. injection Hr as <-.
    eexists. split; [reflexivity|]. cbn zeta. replace (Z.max fl 0) with fl by lia. split; [reflexivity|]. split; [|left; split; [lia|reflexivity]].
    destruct (predict_out kind s d sc tl fl g q e Hfit Hq Htl Hg ltac:(lia) Hmw Ee We Xe Ye Eq) as (f & Ef & _ & Eerr & Wf & Tf & Xf & Yf & Sf).
    cbn [fits base_of]. split; [|split; [auto|eauto]]. red. cbn [rb_region rb_spt_region rb_meta rb_forecast rb_errors].
    rewrite Ef. cbn [t_x t_y]. do 5 (split; [auto|]). split; [exact Xf|]. split; [exact Yf|]. intros pt Hp.
    destruct (Sf pt Hp) as [(f0 & f' & _ & _ & E) Ev]. split; [exists f'; exact E|].
    rewrite Ev. destruct (in_domain_grid _ _ _ _ Hg Hp) as [G1 G2].
    rewrite <- Xe in G1. rewrite <- Ye in G2. destruct (get2_ok e (fst (in_domain g pt)) (snd (in_domain g pt)) We G1 G2) as (v & Evv & _). eauto.
  - destruct (predict_in kind s d sc tl fl g q e Hfit Hq Htl Hg ltac:(lia) Hmt Ee We Xe Ye Eq) as (f & tst & Ef & Et & Eerr & Wf & Tf & Xf & Yf & _ & _ & _ & Sf).
    cbn [builder] in Hr. rewrite Et in Hr. cbn [bind] in Hr. unfold with_partition in Hr. cbn [base_of rb_meta] in Hr. rewrite Ek, Ep, Em in Hr. injection Hr as <-.
    eexists. split; [reflexivity|]. cbn zeta. replace (Z.max fl 0) with 0%Z by lia. split; [reflexivity|]. split; [|right; split; [lia|eauto]].
    cbn [fits base_of]. split; [|split; [auto|eauto]].
    assert (Hown : forall pt, in_grid (Z.to_nat (x2 g - x1 g)) (Z.to_nat (y2 g - y1 g)) pt -> exists own, series3 d (fst (in_domain g pt)) (snd (in_domain g pt)) = Ok own).
    { intros pt Hp. destruct (ser_ok d (in_domain g pt) (proj1 Hq) (in_domain_grid _ _ _ _ Hg Hp)) as (own & E & _). eauto. }
    split.
    + red. cbn [rb_region rb_spt_region rb_meta rb_forecast rb_errors].
      rewrite Ef. cbn [t_x t_y]. do 5 (split; [auto|]). split; [exact Xf|]. split; [exact Yf|]. intros pt Hp.
      destruct (Hown pt Hp) as (own & Eo). destruct (Sf pt own Hp Eo) as [(f0 & f' & _ & _ & E) [_ Ev]]. split; [exists f'; exact E|].
      rewrite Ev. destruct (in_domain_grid _ _ _ _ Hg Hp) as [G1 G2].
      rewrite <- Xe in G1. rewrite <- Ye in G2. destruct (get2_ok e (fst (in_domain g pt)) (snd (in_domain g pt)) We G1 G2) as (v & Evv & _). eauto.
    + cbn [rb_region]. intros pt Hp. destruct (Hown pt Hp) as (own & Eo). destruct (Sf pt own Hp Eo) as [_ [(t & E & _) _]]. eauto.
Qed.
