(** C121: the program that computes the distance matrix of a region. *)
From Coq Require Import String Lia ZifyBool ZifyNat.
From Verif Require Import Base.Py Base.PyFacts Base.Arr Base.ArrFacts Base.Str Base.StrFacts Base.Float Base.FloatFacts Model.Region Spec.Calendar Model.Pool Model.Distance
  Model.Clustering Model.Dataset Model.Plots Model.Algorithms Model.Programs Model.PartitionAnalysis Model.DistanceProgram
  Spec.Grid Spec.Rect Spec.Scaling Spec.Distance Spec.Dataset Spec.Solver Spec.PartitionAnalysis Spec.DistanceProgram
  Proofs.RegionFacts Proofs.DistanceFacts Proofs.DatasetFacts Proofs.AlgorithmFacts Proofs.ProgramFacts Proofs.DistanceProgramFacts Props.Distance Props.Dataset Props.Plots.
Local Open Scope string_scope.
Local Open Scope list_scope.
Local Notation length := List.length.

(** After a run for a region, whatever happened to the cache files before and whichever regions the program was run for before
    and after, the other programs find the region's own distances ([ready] is what Spec/PartitionAnalysis.v asks for): the file
    can be loaded for the region, and its entries are the distances of the region's series. *)
Theorem C121_after_any_history : forall color measure norm junk garbage pool raw fs os mats before region r parallel n plots after,
  raw_dataset raw -> delivered fs raw -> Forall dallowed os ->
  region_by_name region = Ok r -> rect_in (rm_region r) (a3x raw) (a3y raw) -> asks_for parallel n ->
  (forall spt, snd (create_instance garbage fs r) = Ok spt -> finished measure pool n spt) ->
  Forall (fun other => fst (fst other) <> region) after ->
  let w := run_all color measure junk garbage pool (DWorld (fold_left dexec os fs) mats) (before ++ (region, parallel, plots) :: after) in
  exists d sc M dist,
    ready (env_with measure norm junk (dw_mats w)) (fun m => snd (create_instance garbage (dw_data w) m)) region r d sc M dist /\
    distances_by measure n d dist.
Proof.
  intros color measure norm junk garbage pool raw fs os mats before region r parallel n plots after Hr Hd Ho Hn Hg Ha Hf Hafter w.
  destruct (predefined_facts _ _ Hn) as (En & _ & Es & _ & _ & _ & Ys & Ye).
  assert (Hs : (rm_spd r = 1 \/ rm_spd r = 4)%Z) by (left; exact Es).
  assert (Hv : valid_years (rm_start r) (rm_end r)) by (unfold valid_years; lia).
  pose proof (dinv_delivered _ _ Hd) as Hi. pose proof (dinv_history os fs raw Hr Hi Ho) as Hi0.
  destruct (created garbage raw fs r Hr Hi Hs Hv Hg) as (d & sc & Hq & Hsp & Hc).
  destruct (asked _ _ Ha) as [ Hp Hn0 ].
  destruct (matrix_computed measure junk pool n d sc Hq Hn0 (Hf _ (Hc garbage fs Hi))) as (M & dist & EM & HM & Hent & Hdist).
  set (w0 := DWorld (fold_left dexec os fs) mats) in w.
  set (w1 := run_all color measure junk garbage pool w0 before).
  assert (I1 : dinv (dw_data w1) raw) by (apply runs_keep_data; assumption).
  set (w2 := fst (@calculate_distances color measure junk garbage pool w1 region parallel plots)).
  assert (I2 : dinv (dw_data w2) raw) by (apply run_keeps_data; assumption).
  assert (Ew : w = run_all color measure junk garbage pool w2 after) by (unfold w, run_all; rewrite fold_left_app; reflexivity).
  assert (I3 : dinv (dw_data w) raw) by (rewrite Ew; apply runs_keep_data; assumption).
  assert (E2 : dw_mats w2 (distances_filename r) = Some M).
  { unfold w2, calculate_distances. rewrite Hn. pose proof (Hc garbage _ I1) as C1.
    destruct (create_instance garbage (dw_data w1) r) as [ fs1 res ]. cbn [snd] in C1. rewrite C1, Hp. cbn [bind]. rewrite EM.
    cbn [fst dw_mats]. unfold save_mat. rewrite String.eqb_refl. reflexivity. }
  exists d, sc, M, dist. split; [ | exact Hdist ]. unfold ready. repeat (apply conj; auto).
  unfold env_with, load_mat. cbn [np_load]. rewrite Ew, (runs_keep_others measure junk garbage pool after region r Hn Hafter), E2. reflexivity.
Qed.
Print Assumptions C121_after_any_history.

(** So a distance measure loads the file for the region, without an error. *)
Theorem C121_loaded : forall env create_instance region r d sc M dist b, ready env create_instance region r d sc M dist ->
  load_distance_matrix_2d env (distances_filename r) (rm_region r) (DObj PlainDTW None b) = (Ok (Some M), DObj PlainDTW (Some M) b).
Proof.
  intros env create region r d sc M dist b (_ & _ & _ & [ Sx Sy ] & Hl & (C & L & _) & _).
  unfold load_distance_matrix_2d, base_load. cbn [d_kind]. rewrite Hl. unfold r_points. rewrite Sx, Sy, C, L.
  replace (_ && _)%bool with true by lia. reflexivity.
Qed.
Print Assumptions C121_loaded.

(** The result of a run: with --plots, the picture of the distances to the first point and the picture of the distances to the
    point in the middle. *)
Theorem C121_pictures : forall color measure junk garbage pool raw fs os mats before region r parallel n (plots : bool),
  let w := run_all color measure junk garbage pool (DWorld (fold_left dexec os fs) mats) before in
  raw_dataset raw -> delivered fs raw -> Forall dallowed os ->
  region_by_name region = Ok r -> rect_in (rm_region r) (a3x raw) (a3y raw) -> asks_for parallel n ->
  (forall spt, snd (create_instance garbage (dw_data w) r) = Ok spt -> finished measure pool n spt) ->
  exists d sc M dist, qwf d sc /\ snd (create_instance garbage (dw_data w) r) = Ok (qregion d sc) /\ distances_by measure n d dist /\
    let w' := fst (@calculate_distances color measure junk garbage pool w region parallel plots) in
    dw_mats w' (distances_filename r) = Some M /\
    (forall q, q <> distances_filename r -> dw_mats w' q = dw_mats w q) /\
    (forall p q, in_grid (a3x d) (a3y d) p -> in_grid (a3x d) (a3y d) q -> entry M (index_of (a3y d) p) (index_of (a3y d) q) = Some (dist p q)) /\
    if plots
    then exists first center,
      snd (@calculate_distances color measure junk garbage pool w region parallel plots) =
        Ok [("plots/distances_0_0_" ++ rm_name r ++ ".eps", [Heatmap first]); ("plots/distances_center_" ++ rm_name r ++ ".eps", [Heatmap center])]%string /\
      a2x first = a3x d /\ a2y first = a3y d /\ a2x center = a3x d /\ a2y center = a3y d /\
      let middle := (Z.of_nat (a3x d / 2), Z.of_nat (a3y d / 2)) in
      forall q, in_grid (a3x d) (a3y d) q ->
        get2 first (fst q) (snd q) = Ok (dist (0, 0)%Z q) /\ get2 center (fst q) (snd q) = Ok (dist middle q)
    else snd (@calculate_distances color measure junk garbage pool w region parallel plots) = Ok [].
Proof.
  intros color measure junk garbage pool raw fs os mats before region r parallel n plots w Hr Hd Ho Hn Hg Ha Hf.
  assert (Hi : dinv (dw_data w) raw) by (apply runs_keep_data; [ assumption | ]; apply dinv_history; [ assumption | apply dinv_delivered; assumption | assumption ]).
  clearbody w. clear Hd Ho before os fs mats.
  destruct (predefined_facts _ _ Hn) as (En & _ & Es & _ & Gx & Gy & Ys & Ye).
  assert (Hs : (rm_spd r = 1 \/ rm_spd r = 4)%Z) by (left; exact Es).
  assert (Hv : valid_years (rm_start r) (rm_end r)) by (unfold valid_years; lia).
  destruct (created garbage raw (dw_data w) r Hr Hi Hs Hv Hg) as (d & sc & Hq & [ Sx Sy ] & Hc).
  destruct (asked _ _ Ha) as [ Hp Hn0 ]. specialize (Hc garbage _ Hi).
  destruct (matrix_computed measure junk pool n d sc Hq Hn0 (Hf _ Hc)) as (M & dist & EM & HM & Hent & Hdist).
  exists d, sc, M, dist. split; [ exact Hq | ]. split; [ exact Hc | ]. split; [ exact Hdist | ].
  unfold calculate_distances. rewrite Hn. destruct (create_instance garbage (dw_data w) r) as [ fs1 res ]. cbn [snd] in Hc. subst res.
  rewrite Hp. cbn [bind]. rewrite EM. cbn [fst snd dw_mats]. cbv zeta.
  split; [ unfold save_mat; rewrite String.eqb_refl; reflexivity | ].
  split; [ intros q Hq'; unfold save_mat; rewrite (proj2 (String.eqb_neq _ _) Hq'); reflexivity | ].
  split; [ exact Hent | ]. destruct plots; [ | reflexivity ].
  assert (Td : t_data (qregion d sc) = d) by (destruct sc as [ [ mn mx ] | ]; reflexivity).
  assert (Tx : t_x (qregion d sc) = a3x d) by (unfold t_x; rewrite Td; reflexivity).
  assert (Ty : t_y (qregion d sc) = a3y d) by (unfold t_y; rewrite Td; reflexivity).
  rewrite Tx, Ty. destruct (arr2_of_square _ _ HM) as (Wa & Xa & Ya).
  destruct (C101_distance_pictures color (a3x d) (a3y d) (arr2_of_mat M) ltac:(lia) ltac:(lia) Wa Xa Ya) as (first & center & Es' & X1 & Y1 & X2 & Y2 & V).
  exists first, center. rewrite Es'. cbn [bind combine picture_files]. split; [ reflexivity | ]. repeat (apply conj; [ assumption | ]).
  intros q [ Q1 Q2 ]. destruct (V (Z.to_nat (fst q)) (Z.to_nat (snd q)) ltac:(lia) ltac:(lia)) as [ V1 V2 ].
  rewrite !Z2Nat.id in V1, V2 by lia. rewrite V1, V2.
  assert (Gq : in_grid (a3x d) (a3y d) q) by (split; assumption).
  assert (G0 : in_grid (a3x d) (a3y d) (0, 0)%Z) by (split; cbn; lia).
  assert (Gm : in_grid (a3x d) (a3y d) (Z.of_nat (a3x d / 2), Z.of_nat (a3y d / 2))).
  { assert (a3x d / 2 < a3x d) by (apply Nat.div_lt; lia). assert (a3y d / 2 < a3y d) by (apply Nat.div_lt; lia). split; cbn [fst snd]; lia. }
  destruct (index_of_encode _ _ _ Gq) as [ _ Lq ]. destruct (index_of_encode _ _ _ Gm) as [ _ Lm ]. destruct (index_of_encode _ _ _ G0) as [ _ L0 ].
  split.
  - apply (arr2_of_entry _ M 0 (index_of (a3y d) q) _ HM L0 Lq). exact (Hent _ _ G0 Gq).
  - pose proof (Hent _ _ Gm Gq) as E. unfold index_of in E at 1. cbn [fst snd] in E. rewrite !Nat2Z.id in E.
    apply (arr2_of_entry _ M _ (index_of (a3y d) q) _ HM) in E; [ exact E | | exact Lq ].
    unfold index_of in Lm. cbn [fst snd] in Lm. rewrite !Nat2Z.id in Lm. exact Lm.
Qed.
Print Assumptions C121_pictures.

(** A run that cannot compute the matrix changes no distance file: the region has to be offered, its data has to be there, and the
    number of workers must be a number that is not negative. *)
Theorem C121_nothing_written : forall color measure junk garbage pool w region parallel plots e,
  (region_by_name region = Raise e \/
   exists r, region_by_name region = Ok r /\
     (snd (create_instance garbage (dw_data w) r) = Raise e \/
      (exists spt, snd (create_instance garbage (dw_data w) r) = Ok spt) /\
      e = ValueError /\ exists s, parallel = Some s /\ s <> ""%string /\ (py_int s = Raise e \/ exists n, (n < 0)%Z /\ s = str_int n))) ->
  exists fs, @calculate_distances color measure junk garbage pool w region parallel plots = (DWorld fs (dw_mats w), Raise e).
Proof.
  intros color measure junk garbage pool w region parallel plots e H. unfold calculate_distances.
  destruct H as [ -> | (r & -> & H) ]; [ exists (dw_data w); destruct w; reflexivity | ].
  destruct (create_instance garbage (dw_data w) r) as [ fs res ]. cbn [snd] in H. exists fs.
  destruct H as [ -> | ((spt & ->) & -> & s & -> & Hne & H) ]; [ reflexivity | ].
  unfold parallel_workers. rewrite (proj2 (String.eqb_neq _ _) Hne).
  destruct H as [ -> | (n & Hn & ->) ]; [ reflexivity | ]. rewrite py_int_str. cbn [bind]. unfold distances_of.
  replace (n =? 0)%Z with false by lia. replace (n <? 0)%Z with true by lia. reflexivity.
Qed.
Print Assumptions C121_nothing_written.

(** The pictures of a region and of its scaled version go to the same files, although the distance matrices do not. *)
Theorem C121_pictures_kept_apart_refuted : exists region1 region2 r1 r2,
  region_by_name region1 = Ok r1 /\ region_by_name region2 = Ok r2 /\ region1 <> region2 /\
  distances_filename r1 <> distances_filename r2 /\
  ("plots/distances_0_0_" ++ rm_name r1 ++ ".eps" = "plots/distances_0_0_" ++ rm_name r2 ++ ".eps")%string /\
  picture_files r1 = picture_files r2.
Proof.
  exists "nordeste_small_2015_2015_1spd"%string, "nordeste_small_2015_2015_1spd_scaled"%string. do 2 eexists.
  split; [ reflexivity | ]. split; [ reflexivity | ]. split; [ discriminate | ]. split; [ vm_compute; discriminate | ]. split; reflexivity.
Qed.
Print Assumptions C121_pictures_kept_apart_refuted.

(** a run with two worker processes on a dataset of 60 x 100 points, after a run for the scaled region and before a failing run *)
Definition ex_wide : arr3 fnum := full3 (4 * Z.to_nat (days_in_years 1979 37)) 60 100 (Fin 1).
Definition ex_wide_dfs : dfs := dfs_put (fun _ => None) RAW_DATASET (Some (Hdf5 ex_wide)).
Lemma ex_wide_delivered : raw_dataset ex_wide /\ delivered ex_wide_dfs ex_wide.
Proof.
  split; [ split; [ apply wf3_full | reflexivity ] | ].
  split; [ apply put_same | ]. intros name a b spd. unfold ex_wide_dfs. rewrite put_other; auto. apply format_not_raw.
Qed.

Definition ex_region := "nordeste_small_2015_2015_1spd"%string.
Definition ex_before : list run := [("nordeste_small_2015_2015_1spd_scaled"%string, None, true)].
Definition ex_after : list run := [("nowhere"%string, None, false); ("nordeste_small_2014_2014_1spd"%string, Some "many"%string, false)].
Example C121_ex : forall color measure norm junk mats, exists r pool, region_by_name ex_region = Ok r /\
  rect_in (rm_region r) (a3x ex_wide) (a3y ex_wide) /\ asks_for (Some "2"%string) 2 /\
  (forall spt, snd (create_instance NaN ex_wide_dfs r) = Ok spt -> finished measure pool 2 spt) /\
  Forall (fun other => fst (fst other) <> ex_region) ex_after /\
  let w := run_all color measure junk NaN pool (DWorld ex_wide_dfs mats) (ex_before ++ (ex_region, Some "2"%string, true) :: ex_after) in
  exists d sc M dist,
    ready (env_with measure norm junk (dw_mats w)) (fun m => snd (create_instance NaN (dw_data w) m)) ex_region r d sc M dist /\
    distances_by measure 2 d dist /\ a3x d = 7 /\ a3y d = 10.
Proof.
  intros color measure norm junk mats. destruct ex_wide_delivered as [ Hr Hd ].
  assert (P : exists r, region_by_name ex_region = Ok r /\ rm_region r = Rect 43 50 85 95) by (eexists; split; reflexivity).
  destruct P as (r & Er & Rr).
  assert (Hin : rect_in (rm_region r) (a3x ex_wide) (a3y ex_wide)).
  { rewrite Rr. change (a3x ex_wide) with 60. change (a3y ex_wide) with 100. unfold rect_in. cbn. lia. }
  destruct (predefined_facts _ _ Er) as (_ & _ & Es & _ & _ & _ & Ys & Ye).
  destruct (created NaN ex_wide ex_wide_dfs r Hr (dinv_delivered _ _ Hd) ltac:(left; exact Es) ltac:(unfold valid_years; lia) Hin)
    as (d0 & sc0 & Hq0 & Hsp0 & Hc0).
  specialize (Hc0 NaN ex_wide_dfs (dinv_delivered _ _ Hd)).
  assert (P : exists s, inter_points_steps measure (qregion d0 sc0) (inter_points_start 2 (qregion d0 sc0)) s /\ pool_done s).
  { destruct (C46_pool_completes nat (inter_points_slot (qregion d0 sc0)) (inter_points_task measure (qregion d0 sc0))
      (seq 0 ((t_x (qregion d0 sc0) * t_y (qregion d0 sc0)) * (t_x (qregion d0 sc0) * t_y (qregion d0 sc0))))
      (repeat (Fin 0) ((t_x (qregion d0 sc0) * t_y (qregion d0 sc0)) * (t_x (qregion d0 sc0) * t_y (qregion d0 sc0)))) 2 50
      (inter_points_start 2 (qregion d0 sc0))) as (_ & _ & s & S1 & S2); try lia.
    - apply tasks_nodup.
    - apply tasks_in_range.
    - apply ps_refl.
    - exists s. split; assumption. }
  destruct P as (s & S1 & S2). exists r, (fun _ _ => s).
  assert (Hf : forall spt, snd (create_instance NaN ex_wide_dfs r) = Ok spt -> finished measure (fun _ _ => s) 2 spt).
  { intros spt E. rewrite Hc0 in E. injection E as <-. intros _. split; assumption. }
  assert (Ha : asks_for (Some "2"%string) 2) by (apply (workers 2); lia).
  assert (Hafter : Forall (fun other => fst (fst other) <> ex_region) ex_after) by (repeat constructor; discriminate).
  repeat (split; [ assumption | ]).
  destruct (C121_after_any_history color measure norm junk NaN (fun _ _ => s) ex_wide ex_wide_dfs [] mats ex_before ex_region r (Some "2"%string) 2 true
    ex_after Hr Hd (Forall_nil _) Er Hin Ha Hf Hafter) as (d & sc & M & dist & HR & HD).
  exists d, sc, M, dist. split; [ exact HR | ]. split; [ exact HD | ].
  destruct HR as (_ & _ & _ & [ Sx Sy ] & _). rewrite Rr in Sx, Sy. cbn in Sx, Sy. lia.
Qed.
