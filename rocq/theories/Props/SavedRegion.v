(** C122: saving regions in numpy files and pickles. *)
From Coq Require Import String Lia ZifyBool ZifyNat.
From Verif Require Import Base.Py Base.PyFacts Base.Arr Base.ArrFacts Base.Str Base.StrFacts Base.Float Model.Region Model.Scaling Model.Clustering Model.Dataset
  Model.SavedRegion Spec.Grid Spec.Rect Spec.Dataset Spec.Calendar Spec.Scaling Spec.SavedRegion Proofs.RegionFacts Proofs.DatasetFacts Proofs.SavedRegionFacts
  Proofs.DistanceProgramFacts Spec.Solver Props.Basics Props.Dataset.
Local Open Scope list_scope.
Local Notation length := List.length.

(** The operations here are the earlier ones with the metadata added: without it, they give the same regions. *)
Theorem C122_same_operations : forall r : mregion,
  (forall g, match m_region_subset r g with Ok r' => t_region_subset (erase r) g = Ok (erase r') | Raise e => t_region_subset (erase r) g = Raise e end) /\
  (forall ti, interval_subset (erase r) ti = erase (m_interval_subset r ti)) /\
  (forall p i, match m_create_spt_cluster p r i with Ok r' => create_spt_cluster p (erase r) i = Ok (erase r') | Raise e => create_spt_cluster p (erase r) i = Raise e end) /\
  (forall x y n, match m_scale_apply_to x y r n with Ok r' => scale_apply_to x y (erase r) n = Ok (erase r') | Raise e => scale_apply_to x y (erase r) n = Raise e end) /\
  match m_descale r with Ok r' => descale (erase r) = Ok (erase r') | Raise e => descale (erase r) = Raise e end.
Proof.
  intros r. split; [ | split; [ | split; [ | split ] ] ].
  - intros g. rewrite <- erase_region_subset. destruct (m_region_subset r g); reflexivity.
  - intros ti. rewrite erase_interval_subset. reflexivity.
  - intros p i. rewrite <- erase_cluster. destruct (m_create_spt_cluster p r i); reflexivity.
  - intros x y n. rewrite <- erase_scale. destruct (m_scale_apply_to x y r n); reflexivity.
  - rewrite <- erase_descale. destruct (m_descale r); reflexivity.
Qed.
Print Assumptions C122_same_operations.
Theorem C122_same_creation : forall garbage fs m, fst (m_create_instance garbage fs m) = fst (create_instance garbage fs m) /\
  match snd (m_create_instance garbage fs m) with
  | Ok r => snd (create_instance garbage fs m) = Ok (erase r)
  | Raise e => snd (create_instance garbage fs m) = Raise e
  end.
Proof.
  intros garbage fs m. destruct (erase_create garbage fs m) as [ E1 E2 ]. split; [ exact E1 | ]. rewrite <- E2.
  destruct (snd (m_create_instance garbage fs m)); reflexivity.
Qed.
Print Assumptions C122_same_creation.

Lemma created_md : forall garbage fs m r, snd (m_create_instance garbage fs m) = Ok r ->
  m_md r = Some m /\ (if rm_scaled m then innermost_md r = None /\ exists d mn mx, r = MScaled (MPlain d None) mn mx (Some m) else exists d, r = MPlain d (Some m)).
Proof.
  intros garbage fs m r. unfold m_create_instance. destruct (negb _); [ discriminate | ].
  destruct (retrieve_dataset_interval _ _ _ _ _ _) as [ fs' [ d | e ] ]; cbn [snd bind]; [ | discriminate ].
  destruct (rm_scaled m).
  - intros E. destruct (innermost_scale _ _ _ _ _ E) as [ E1 E2 ]. split; [ exact E2 | ]. split; [ exact E1 | ].
    revert E. unfold m_scale_apply_to. destruct (py_assert _); cbn [bind]; [ | discriminate ].
    destruct (t_apply_scalar (Fin 0) (fregion_same nanmin _ _) _); cbn [bind]; [ | discriminate ].
    destruct (t_apply_scalar (Fin 0) (fregion_same nanmax _ _) _); cbn [bind]; [ | discriminate ].
    destruct (t_apply_series _ _ _ _); cbn [bind]; [ | discriminate ]. intros [= <-]. cbn. eauto.
  - intros [= <-]. cbn. eauto.
Qed.

(** Whatever is done with a region that was created from its metadata, and whichever of the results is saved: the file of the
    region is written with the data of the whole region, or ValueError is raised and no file changes. *)
Theorem C122_only_the_regions_own_data : forall garbage fs0 m r r' fs,
  snd (m_create_instance garbage fs0 m) = Ok r -> made r r' ->
  save fs r' = (fs, Raise ValueError) \/
  rm_scaled m = false /\ snd (save fs r') = Ok tt /\
  fst (save fs r') (dataset_filename m) = Some (Npy (t_data (erase r))) /\
  forall q, q <> dataset_filename m -> fst (save fs r') q = fs q.
Proof.
  intros garbage fs0 m r r' fs Hc Hm. destruct (created_md _ _ _ _ Hc) as [ Emd Hd ].
  destruct (made_innermost _ _ Hm) as [ E | [ E Ed ] ]; [ left; apply save_none; exact E | ].
  destruct (rm_scaled m); [ left; apply save_none; rewrite E; apply Hd | ]. destruct Hd as [ d -> ]. right. cbn [innermost_md] in E.
  rewrite (save_some fs r' m E), Ed. cbn [fst snd t_data erase]. split; [ reflexivity | ].
  assert (Hs : has_scaling (erase r') = false).
  { clear Hc. cut (innermost_md r' = None \/ has_scaling (erase r') = false); [ intros [ Hn | Hs ]; [ congruence | exact Hs ] | ].
    clear E Ed. induction Hm as [ | r1 r2 g H1 IH E | r1 ti H1 IH | r1 r2 p i H1 IH E | r1 r2 x y n H1 IH E | r1 r2 H1 IH E | r1 d' H1 IH ].
    - right. reflexivity.
    - left. eapply innermost_subset, E.
    - left. apply innermost_interval.
    - destruct (innermost_cluster _ _ _ _ E) as (Ei & _ & Ee). rewrite Ei, Ee. exact IH.
    - left. eapply innermost_scale, E.
    - left. eapply innermost_descale, E.
    - left. apply innermost_new. }
  rewrite Hs. split; [ reflexivity | ]. unfold dfs_put. rewrite String.eqb_refl. split; [ reflexivity | ].
  intros q Hq. rewrite (proj2 (String.eqb_neq _ _) Hq). reflexivity.
Qed.
Print Assumptions C122_only_the_regions_own_data.

(** A region that is not scaled and was created from its metadata can be saved, and so can its clusters, for which the whole
    region is saved.  Loading the file gives a region with the same series. *)
Theorem C122_saved_and_loaded : forall garbage fs0 m r fs, rm_scaled m = false -> snd (m_create_instance garbage fs0 m) = Ok r ->
  (forall p i c, m_create_spt_cluster p r i = Ok c -> save fs c = save fs r) /\
  snd (save fs r) = Ok tt /\
  exists loaded, load_saved (fst (save fs r)) m = Ok loaded /\ erase loaded = erase r /\ forall pt, series_at (erase loaded) pt = series_at (erase r) pt.
Proof.
  intros garbage fs0 m r fs Hs Hc. destruct (created_md _ _ _ _ Hc) as [ Emd Hd ]. rewrite Hs in Hd. destruct Hd as [ d -> ].
  split; [ | split; [ reflexivity | ] ].
  - intros p i c. unfold m_create_spt_cluster. destruct (py_assert _); cbn [bind]; [ | discriminate ].
    destruct (py_assert _); cbn [bind]; [ | discriminate ]. intros [= <-]. reflexivity.
  - exists (MPlain d None). unfold load_saved. cbn [save fst]. unfold dfs_put. rewrite String.eqb_refl. split; [ reflexivity | ]. split; reflexivity.
Qed.
Print Assumptions C122_saved_and_loaded.

(** One expects that the region of any metadata can be saved, as temporal.py:483-489 does for a scaled region.  No scaled region
    can: ValueError, and no file is written. *)
Theorem C122_scaled_region_saved_refuted : forall garbage fs0 m r fs, rm_scaled m = true -> snd (m_create_instance garbage fs0 m) = Ok r ->
  save fs r = (fs, Raise ValueError).
Proof.
  intros garbage fs0 m r fs Hs Hc. destruct (created_md _ _ _ _ Hc) as [ Emd Hd ]. rewrite Hs in Hd. apply save_none, Hd.
Qed.
Print Assumptions C122_scaled_region_saved_refuted.

(** Even with metadata inside, the values for descaling are never written: the save ends with AttributeError after the dataset. *)
Theorem C122_scaled_save_never_succeeds : forall fs r, has_scaling (erase r) = true -> exists e, snd (save fs r) = Raise e.
Proof.
  intros fs r H. destruct (innermost_md r) as [ m | ] eqn:E; [ exists AttributeError; rewrite (save_some _ _ _ E), H; reflexivity | ].
  exists ValueError. rewrite save_none by exact E. reflexivity.
Qed.
Print Assumptions C122_scaled_save_never_succeeds.

(** A region without metadata is neither saved nor pickled, and a part of a region has no metadata: it cannot replace the files
    of the region. *)
Theorem C122_parts_not_saved : forall r g r' fs pk home, m_region_subset r g = Ok r' ->
  save fs r' = (fs, Raise ValueError) /\ pickle pk r' home = (pk, Raise ValueError).
Proof.
  intros r g r' fs pk home E. destruct (innermost_subset _ _ _ E) as [ E1 E2 ]. split; [ apply save_none; exact E1 | ].
  unfold pickle. rewrite E2. reflexivity.
Qed.
Print Assumptions C122_parts_not_saved.
Theorem C122_intervals_not_saved : forall r ti fs pk home,
  save fs (m_interval_subset r ti) = (fs, Raise ValueError) /\
  ((forall r' mn mx md, r <> MScaled r' mn mx md) -> pickle pk (m_interval_subset r ti) home = (pk, Raise ValueError)).
Proof.
  intros r ti fs pk home. split; [ apply save_none, innermost_interval | ]. intros H. destruct r as [ d md | r p i md | r mn mx md ]; [ reflexivity | reflexivity | ].
  destruct (H _ _ _ _ eq_refl).
Qed.
Print Assumptions C122_intervals_not_saved.

(** A pickled region can be read again, scaled or not, with its metadata and everything else; other pickles stay. *)
Theorem C122_pickled_and_read : forall garbage fs0 m r pk home, snd (m_create_instance garbage fs0 m) = Ok r ->
  snd (pickle pk r home) = Ok tt /\
  from_pickle (fst (pickle pk r home)) (pickle_filename m home) = Ok r /\
  (forall q, q <> pickle_filename m home -> from_pickle (fst (pickle pk r home)) q = from_pickle pk q).
Proof.
  intros garbage fs0 m r pk home Hc. destruct (created_md _ _ _ _ Hc) as [ Emd _ ]. unfold pickle. rewrite Emd. cbn [fst snd].
  split; [ reflexivity | ]. unfold from_pickle. rewrite String.eqb_refl. split; [ reflexivity | ].
  intros q Hq. rewrite (proj2 (String.eqb_neq _ _) Hq). reflexivity.
Qed.
Print Assumptions C122_pickled_and_read.

(** One expects the pickle of a region to be replaced by that of another version of the region only.  But a cluster keeps the
    metadata of the region, so its pickle goes to the same file, like the pickles of the other clusters. *)
Theorem C122_cluster_pickle_refuted : forall garbage fs0 m r p i c pk home, snd (m_create_instance garbage fs0 m) = Ok r ->
  m_create_spt_cluster p r i = Ok c ->
  from_pickle (fst (pickle (fst (pickle pk r home)) c home)) (pickle_filename m home) = Ok c /\ c <> r.
Proof.
  intros garbage fs0 m r p i c pk home Hc Hcl. destruct (created_md _ _ _ _ Hc) as [ Emd _ ].
  destruct (innermost_cluster _ _ _ _ Hcl) as (_ & E2 & E3). unfold pickle at 1. rewrite E2, Emd. cbn [fst].
  unfold from_pickle. rewrite String.eqb_refl. split; [ reflexivity | ]. intros ->.
  assert (N : forall x : stregion fnum, x <> TCluster x p i) by (induction x; congruence). exact (N _ E3).
Qed.
Print Assumptions C122_cluster_pickle_refuted.

(** Some days of a scaled region also keep the metadata: their pickle replaces the pickle of the whole region. *)
Theorem C122_interval_pickle_refuted : forall garbage fs0 m r ti pk home, snd (m_create_instance garbage fs0 m) = Ok r -> rm_scaled m = true ->
  from_pickle (fst (pickle (fst (pickle pk r home)) (m_interval_subset r ti) home)) (pickle_filename m home) = Ok (m_interval_subset r ti) /\
  t_data (erase (m_interval_subset r ti)) = slice3 (t_data (erase r)) (Some (t1 ti, t2 ti)) None None.
Proof.
  intros garbage fs0 m r ti pk home Hc Hs. destruct (created_md _ _ _ _ Hc) as [ _ Hd ]. rewrite Hs in Hd. destruct Hd as (_ & d & mn & mx & ->).
  unfold pickle at 1. cbn [m_interval_subset m_new_st m_md fst]. unfold from_pickle. rewrite String.eqb_refl. split; reflexivity.
Qed.
Print Assumptions C122_interval_pickle_refuted.

(** One expects that saving a region leaves the dataset alone.  But the dataset is cached in files that are named like regions: a
    region that is called like the dataset replaces the cache, and the regions that are created from it later are wrong. *)
Theorem C122_dataset_kept_refuted : exists raw fs m m' r r' r'',
  raw_dataset raw /\ delivered fs raw /\ valid_years (rm_start m) (rm_end m) /\ rect_in (rm_region m) (a3x raw) (a3y raw) /\ rect_in (rm_region m') (a3x raw) (a3y raw) /\
  m_create_instance NaN fs m = (fst (m_create_instance NaN fs m), Ok r) /\
  snd (m_create_instance NaN (fst (m_create_instance NaN fs m)) m') = Ok r' /\
  snd (m_create_instance NaN (fst (save (fst (m_create_instance NaN fs m)) r)) m') = Ok r'' /\
  t_x (erase r') = 1 /\ t_x (erase r'') = 0.
Proof.
  pose (m := RMeta DATASET_NAME (Rect 0 1 0 1) 1980 1980 4 false "raw"%string).
  pose (m' := RMeta "other"%string (Rect 1 2 0 1) 1980 1980 4 false "raw"%string).
  pose (raw := ex_flat (Fin 1)). pose (fs := ex_dfs (Fin 1)).
  assert (V : valid_years 1980 1980) by (unfold valid_years; lia).
  assert (S4 : (4 = 1 \/ 4 = 4)%Z) by auto.
  destruct (dinv_request fs raw NaN 1980 1980 4 DATASET_NAME (ex_flat_dataset _) (dinv_delivered _ _ (ex_dfs_delivered _)) S4) as (Hi & Hq & _).
  destruct (Hq V) as (d & Ed & Hd). pose proof Hd as (Wd & Td & Xd & Yd & _).
  assert (E1 : m_create_instance NaN fs m = (fst (retrieve_dataset_interval NaN fs 1980 1980 4 DATASET_NAME), Ok (MPlain (slice3 d None (Some (0, 1)) (Some (0, 1)))%Z (Some m)))).
  { unfold m_create_instance. cbn [m rm_spd rm_start rm_end rm_scaled rm_region x1 x2 y1 y2]. cbn [Z.eqb Pos.eqb orb negb].
    destruct (retrieve_dataset_interval NaN fs 1980 1980 4 DATASET_NAME) as [ fs' q ]. cbn [snd fst] in *. subst q. reflexivity. }
  set (fs1 := fst (retrieve_dataset_interval NaN fs 1980 1980 4 DATASET_NAME)) in *.
  destruct (dinv_request fs1 raw NaN 1980 1980 4 DATASET_NAME (ex_flat_dataset _) Hi S4) as (_ & Hq1 & _).
  destruct (Hq1 V) as (d1 & Ed1 & Hd1). pose proof Hd1 as (Wd1 & Td1 & Xd1 & Yd1 & _).
  set (c := (slice3 d None (Some (0, 1)) (Some (0, 1)))%Z) in *.
  set (fs2 := fst (save fs1 (MPlain c (Some m)))).
  assert (Ed2 : snd (retrieve_dataset_interval NaN fs2 1980 1980 4 DATASET_NAME) = Ok c).
  { unfold retrieve_dataset_interval. cbn [Z.eqb Pos.eqb orb negb]. unfold try_load_dataset_interval, fs2. cbn [save fst].
    change (dataset_filename m) with (FORMAT_BY_YEAR DATASET_NAME 1980 1980 4). rewrite put_same. reflexivity. }
  assert (C : forall fs' d', snd (retrieve_dataset_interval NaN fs' 1980 1980 4 DATASET_NAME) = Ok d' ->
    snd (m_create_instance NaN fs' m') = Ok (MPlain (slice3 d' None (Some (1, 2)) (Some (0, 1)))%Z (Some m'))).
  { intros fs' d' E. unfold m_create_instance. cbn [m' rm_spd rm_start rm_end rm_scaled rm_region x1 x2 y1 y2]. cbn [Z.eqb Pos.eqb orb negb].
    destruct (retrieve_dataset_interval NaN fs' 1980 1980 4 DATASET_NAME) as [ fs'' q ]. cbn [snd fst] in *. subst q. reflexivity. }
  exists raw, fs, m, m', (MPlain c (Some m)), (MPlain (slice3 d1 None (Some (1, 2)) (Some (0, 1)))%Z (Some m')), (MPlain (slice3 c None (Some (1, 2)) (Some (0, 1)))%Z (Some m')).
  split; [ apply ex_flat_dataset | ]. split; [ apply ex_dfs_delivered | ]. split; [ exact V | ].
  split; [ unfold rect_in; cbn; clear; lia | ]. split; [ unfold rect_in; cbn; clear; lia | ].
  rewrite E1. cbn [fst]. split; [ reflexivity | ]. split; [ apply C; exact Ed1 | ]. split; [ apply C; exact Ed2 | ].
  change (a3x raw) with 3 in Xd, Xd1. unfold t_x, slice3. cbn [erase t_data a3x]. split; [ rewrite Xd1; reflexivity | ].
  unfold c, slice3. cbn [a3x]. rewrite Xd. reflexivity.
Qed.
Print Assumptions C122_dataset_kept_refuted.

(** regions that meet the hypotheses: a region of 2 x 2 points, not scaled and scaled, its clusters and parts *)
Definition ex_md (scaled : bool) : rmeta := RMeta "corner"%string (Rect 1 3 0 2) 1980 1980 4 scaled "raw"%string.
Definition ex_two : crisp := Crisp (mk2 2 2 [0; 1; 0; 1]%Z) 2.
Lemma ex_created (scaled : bool) : exists r, snd (m_create_instance NaN (ex_dfs (Fin 1)) (ex_md scaled)) = Ok r /\ t_x (erase r) = 2 /\ t_y (erase r) = 2.
Proof.
  destruct (created NaN (ex_flat (Fin 1)) (ex_dfs (Fin 1)) (ex_md scaled) (ex_flat_dataset _) (dinv_delivered _ _ (ex_dfs_delivered _))) as (d & sc & _ & [ Sx Sy ] & Hc);
    [ right; reflexivity | unfold valid_years; cbn; lia | unfold rect_in; cbn; lia | ].
  specialize (Hc NaN _ (dinv_delivered _ _ (ex_dfs_delivered _))). destruct (erase_create NaN (ex_dfs (Fin 1)) (ex_md scaled)) as [ _ E ]. rewrite Hc in E.
  destruct (snd (m_create_instance NaN (ex_dfs (Fin 1)) (ex_md scaled))) as [ r | ]; [ | discriminate E ]. injection E as E. exists r.
  split; [ reflexivity | ]. rewrite E. cbn in Sx, Sy. destruct sc as [ [ mn mx ] | ]; unfold t_x, t_y; cbn [qregion t_data]; lia.
Qed.
Example C122_ex : forall scaled, exists r c, snd (m_create_instance NaN (ex_dfs (Fin 1)) (ex_md scaled)) = Ok r /\ m_create_spt_cluster ex_two r 1 = Ok c /\
  made r c /\ made r (m_interval_subset c (Interval 0 10)).
Proof.
  intros scaled. destruct (ex_created scaled) as (r & Er & Ex & Ey). exists r, (MCluster r ex_two 1 (m_md r)). split; [ exact Er | ].
  assert (Ec : m_create_spt_cluster ex_two r 1 = Ok (MCluster r ex_two 1 (m_md r))) by (unfold m_create_spt_cluster; rewrite Ex, Ey; reflexivity).
  split; [ exact Ec | ]. split; [ eapply made_cluster; [ apply made_self | exact Ec ] | ].
  apply made_interval_subset. eapply made_cluster; [ apply made_self | exact Ec ].
Qed.
Example C122_ex_files : dataset_filename (ex_md false) = "raw/corner_1980_1980_4spd.npy"%string /\
  pickle_filename (ex_md true) "pickle" = "pickle/corner_1980_1980_4spd_scaled/corner_1980_1980_4spd_scaled.pickle"%string.
Proof. split; reflexivity. Qed.
