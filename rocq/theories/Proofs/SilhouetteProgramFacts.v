(** Facts about the program of the silhouette analysis: what its runs and the events around it do to the files. *)
From Coq Require Import String Lia ZifyBool ZifyNat.
From Verif Require Import Base.Py Base.PyFacts Base.Dict Base.Arr Base.ArrFacts Base.Str Base.StrFacts Base.Float Model.Region Model.Scaling Model.KMedoids Model.Distance Model.Clustering
  Model.Dataset Model.Plots Model.Algorithms Model.Programs Model.DistanceProgram Model.SavedRegion Model.SilhouetteProgram
  Spec.Grid Spec.Rect Spec.Distance Spec.Dataset Spec.Solver Spec.SavedRegion Spec.SilhouetteProgram
  Proofs.SubsetFacts Proofs.DistanceFacts Proofs.DatasetFacts Proofs.ProgramFacts Proofs.DistanceProgramFacts Proofs.SavedRegionFacts Props.SavedRegion.
Local Notation length := List.length.

(** the dataset is in place, and every file of its cache that can be loaded holds its interval *)
Definition minv (fs : dfs) (raw : arr3 fnum) : Prop :=
  fs RAW_DATASET = Some (Hdf5 raw) /\
  forall a b spd d, (spd = 1 \/ spd = 4)%Z -> fs (FORMAT_BY_YEAR DATASET_NAME a b spd) = Some (Npy d) -> valid_years a b /\ interval_of raw a b spd d.

Lemma minv_delivered fs raw : delivered fs raw -> minv fs raw.
Proof. intros H. destruct (dinv_delivered _ _ H) as [ H1 H2 ]. split; [ exact H1 | ]. intros a b spd d. apply H2. Qed.

Lemma minv_put fs raw p f : minv fs raw -> p <> RAW_DATASET ->
  (forall a b spd d, p = FORMAT_BY_YEAR DATASET_NAME a b spd -> (spd = 1 \/ spd = 4)%Z -> f = Some (Npy d) -> valid_years a b /\ interval_of raw a b spd d) ->
  minv (dfs_put fs p f) raw.
Proof.
  intros [ H1 H2 ] Hp Hf. split; [ rewrite put_other; auto | ].
  intros a b spd d Hs. unfold dfs_put. destruct (String.eqb_spec (FORMAT_BY_YEAR DATASET_NAME a b spd) p) as [ E | E ]; [ | apply H2; auto ].
  intros Hd. apply (Hf a b spd d); auto.
Qed.

Lemma minv_request fs raw garbage a b spd : raw_dataset raw -> minv fs raw ->
  minv (fst (retrieve_dataset_interval garbage fs a b spd DATASET_NAME)) raw /\
  (forall q, (forall a b spd, q <> FORMAT_BY_YEAR DATASET_NAME a b spd) -> fst (retrieve_dataset_interval garbage fs a b spd DATASET_NAME) q = fs q) /\
  ((spd = 1 \/ spd = 4)%Z -> valid_years a b -> exists d, snd (retrieve_dataset_interval garbage fs a b spd DATASET_NAME) = Ok d /\ interval_of raw a b spd d).
Proof.
  intros Hr [ Hi1 Hi2 ]. destruct (Z.eq_dec spd 1) as [ S1 | S1 ]; [ | destruct (Z.eq_dec spd 4) as [ S4 | S4 ] ].
  3:{ rewrite retrieve_bad_spd by auto. cbn [fst]. split; [ split; auto | ]. split; [ auto | lia ]. }
  all: assert (Hs : (spd = 1 \/ spd = 4)%Z) by auto; rewrite retrieve_eq by auto; unfold try_load_dataset_interval;
    (assert (C : (exists d, fs (FORMAT_BY_YEAR DATASET_NAME a b spd) = Some (Npy d)) \/
              match fs (FORMAT_BY_YEAR DATASET_NAME a b spd) with Some (Npy d) => Some d | _ => None end = None)
      by (destruct (fs (FORMAT_BY_YEAR DATASET_NAME a b spd)) as [ [ r | d | ] | ]; eauto));
    (destruct C as [ [ d E ] | E ];
      [ rewrite E; cbn [fst snd]; destruct (Hi2 _ _ _ _ Hs E) as [ V Q ]; split; [ split; auto | ]; split; [ auto | eauto ]
      | rewrite E; destruct (valid_years_dec a b) as [ V | V ];
        [ destruct (computed_ok garbage fs raw a b spd V Hi1 Hr Hs) as (d & Ed & Q); rewrite Ed; cbn [fst snd]; unfold save_dataset_interval;
          split; [ apply minv_put; [ split; auto | apply format_not_raw | ]; intros a' b' spd' d' Hp Hs' Hd; apply format_inj in Hp;
                   destruct Hp as (_ & -> & -> & ->); injection Hd as <-; auto
                 | split; [ intros q Hq; apply put_other; apply Hq | eauto ] ]
        | rewrite computed_bad_years by auto; cbn [fst snd]; split; [ split; auto | ]; split; [ auto | tauto ] ] ]).
Qed.

Lemma create_mfacts garbage fs raw m : raw_dataset raw -> minv fs raw ->
  minv (fst (m_create_instance garbage fs m)) raw /\
  forall q, (forall a b spd, q <> FORMAT_BY_YEAR DATASET_NAME a b spd) -> fst (m_create_instance garbage fs m) q = fs q.
Proof.
  intros Hr Hi. unfold m_create_instance. destruct (negb _); [ cbn [fst]; auto | ].
  destruct (minv_request fs raw garbage (rm_start m) (rm_end m) (rm_spd m) Hr Hi) as (K1 & K2 & _).
  destruct (retrieve_dataset_interval garbage fs (rm_start m) (rm_end m) (rm_spd m) DATASET_NAME). cbn [fst] in *. auto.
Qed.

(** a region that is not scaled, created from metadata *)
Lemma create_mplain raw m : raw_dataset raw -> (rm_spd m = 1 \/ rm_spd m = 4)%Z -> valid_years (rm_start m) (rm_end m) ->
  rect_in (rm_region m) (a3x raw) (a3y raw) -> rm_scaled m = false ->
  (exists fs0, minv fs0 raw) ->
  exists d, wf3 d /\ spans (rm_region m) (a3x d) (a3y d) /\
    forall garbage fs, minv fs raw -> snd (m_create_instance garbage fs m) = Ok (MPlain d (Some m)) /\ snd (create_instance garbage fs m) = Ok (TPlain d).
Proof.
  intros Hr Hs Hv Hg Hsc [ fs0 Hi0 ]. destruct (minv_request fs0 raw NaN (rm_start m) (rm_end m) (rm_spd m) Hr Hi0) as (_ & _ & Q). destruct (Q Hs Hv) as (d0 & _ & Hd0).
  pose proof Hd0 as (W & T & X & Y & _).
  destruct (region_subset_plain d0 (rm_region m) W) as (c & Ec & Wc & Tc & Xc & Yc & _); [ rewrite X, Y; exact Hg | ].
  exists c. split; [ exact Wc | ]. split; [ split; auto | ]. intros garbage fs Hi.
  destruct (minv_request fs raw garbage (rm_start m) (rm_end m) (rm_spd m) Hr Hi) as (_ & _ & Q'). destruct (Q' Hs Hv) as (d & E & Hd).
  assert (d = d0) by (eapply interval_unique; eauto). subst d0.
  assert (M : snd (m_create_instance garbage fs m) = Ok (MPlain c (Some m))).
  { unfold m_create_instance. rewrite (proj1 (spd_ok _) Hs).
    destruct (retrieve_dataset_interval garbage fs (rm_start m) (rm_end m) (rm_spd m) DATASET_NAME) as [ fs' q ]. cbn [snd] in *. subst q.
    cbn [bind]. rewrite Hsc. cbn [t_region_subset] in Ec. injection Ec as ->. reflexivity. }
  split; [ exact M | ]. destruct (erase_create garbage fs m) as [ _ E2 ]. rewrite M in E2. cbn [rmap erase] in E2. auto.
Qed.

(** the files of predefined regions are not files of the dataset *)
Lemma predefined_not_cache region r : region_by_name region = Ok r ->
  (forall a b spd, dataset_filename r <> FORMAT_BY_YEAR DATASET_NAME a b spd) /\ dataset_filename r <> RAW_DATASET.
Proof.
  intros H. apply dict_get_in in H. unfold predefined_regions in H. cbn [In] in H.
  repeat (destruct H as [ [= <- <-] | H ]; [ split; [ intros a b spd E; cbn in E; discriminate E | intros E; discriminate E ] | ]). contradiction.
Qed.
Lemma dataset_filename_inj region region' r r' : region_by_name region = Ok r -> region_by_name region' = Ok r' ->
  dataset_filename r = dataset_filename r' -> region = region'.
Proof.
  intros H H' E. destruct (predefined_facts _ _ H) as (En & _ & _ & Ed & _). destruct (predefined_facts _ _ H') as (En' & _ & _ & Ed' & _).
  unfold dataset_filename in E. rewrite En, En', Ed, Ed' in E. apply sapp_inj_l, sapp_inj_l, sapp_inj_r in E. exact E.
Qed.

(** what one event does *)
Section Step.
Context (color : Type) (cmap : fnum -> color) (is_black : color -> bool) (choice : Z -> nat -> Z -> res (list Z)).
Context (score : arr2 fnum -> list Z -> res fnum) (samples : arr2 fnum -> list Z -> res (list fnum)).
Context (measure : list fnum -> list fnum -> fnum) (norm : Z -> Z -> fnum) (junk garbage : fnum).
Local Notation run := (run_silhouette color cmap is_black choice score samples measure norm junk garbage).
Local Notation happens := (happens color cmap is_black choice score samples measure norm junk garbage).
Local Notation after_events := (after_events color cmap is_black choice score samples measure norm junk garbage).

Lemma save_step raw w region r : raw_dataset raw -> minv (dw_data w) raw -> region_by_name region = Ok r ->
  let w' := fst (@save_sptr color garbage w r) in
  minv (dw_data w') raw /\ dw_mats w' = dw_mats w /\
  (forall q, q <> dataset_filename r -> (forall a b spd, q <> FORMAT_BY_YEAR DATASET_NAME a b spd) -> dw_data w' q = dw_data w q) /\
  (rm_scaled r = true -> (exists e, snd (@save_sptr color garbage w r) = Raise e) /\ dw_data w' (dataset_filename r) = dw_data w (dataset_filename r)).
Proof.
  intros Hr Hi Hn. cbv zeta. unfold save_sptr. destruct (predefined_not_cache _ _ Hn) as [ P1 P2 ].
  destruct (create_mfacts garbage (dw_data w) raw r Hr Hi) as [ K1 K2 ].
  destruct (m_create_instance garbage (dw_data w) r) as [ fs [ sptr | e ] ] eqn:E; cbn [fst] in K1, K2.
  2:{ cbn [fst snd dw_data dw_mats]. split; [ exact K1 | ]. split; [ reflexivity | ]. split; [ intros q _ Hq; apply K2; exact Hq | ].
      intros _. split; [ eauto | apply K2; exact P1 ]. }
  destruct (created_md garbage (dw_data w) r sptr ltac:(rewrite E; reflexivity)) as [ Emd Hd ].
  destruct (rm_scaled r).
  - destruct Hd as [ Hin _ ]. rewrite (save_none _ _ Hin). cbn [fst snd dw_data dw_mats bind]. split; [ exact K1 | ]. split; [ reflexivity | ].
    split; [ intros q _ Hq; apply K2; exact Hq | ]. intros _. split; [ eauto | apply K2; exact P1 ].
  - destruct Hd as [ d -> ]. cbn [save]. cbn [fst snd dw_data dw_mats bind]. split; [ | split; [ reflexivity | split; [ | discriminate ] ] ].
    + apply minv_put; [ exact K1 | exact P2 | ]. intros a b spd d' Hp. destruct (P1 _ _ _ Hp).
    + intros q Hq Hq'. rewrite put_other by exact Hq. apply K2. exact Hq'.
Qed.

Lemma cache_step raw w e : raw_dataset raw -> minv (dw_data w) raw -> (forall region command, e <> ERun region command) ->
  minv (dw_data (happens w e)) raw /\ dw_mats (happens w e) = dw_mats w /\
  forall q, (forall a b spd, q <> FORMAT_BY_YEAR DATASET_NAME a b spd) -> dw_data (happens w e) q = dw_data w q.
Proof.
  intros Hr Hi Hne. destruct e as [ region command | g a b spd | g a b spd | a b spd | a b spd ]; cbn [SilhouetteProgram.happens dw_data dw_mats dexec].
  - destruct (Hne region command eq_refl).
  - destruct (minv_request (dw_data w) raw g a b spd Hr Hi) as (K1 & K2 & _). auto.
  - destruct (try_load_dataset_interval _ _ _ _ _); [ auto | ]. destruct (snd (retrieve_dataset_interval _ _ _ _ _ _)); [ | auto ].
    split; [ apply minv_put; [ exact Hi | apply format_not_raw | discriminate ] | ]. split; [ reflexivity | ]. intros q Hq. apply put_other. apply Hq.
  - split; [ apply minv_put; [ exact Hi | apply format_not_raw | discriminate ] | ]. split; [ reflexivity | ]. intros q Hq. apply put_other. apply Hq.
  - split; [ apply minv_put; [ exact Hi | apply format_not_raw | discriminate ] | ]. split; [ reflexivity | ]. intros q Hq. apply put_other. apply Hq.
Qed.

(** which run touches which file *)
Lemma event_step raw w e region r : raw_dataset raw -> minv (dw_data w) raw -> region_by_name region = Ok r ->
  minv (dw_data (happens w e)) raw /\
  ((e <> ERun region "save"%string \/ rm_scaled r = true) -> dw_data (happens w e) (dataset_filename r) = dw_data w (dataset_filename r)) /\
  (e <> ERun region "distances"%string -> dw_mats (happens w e) (distances_filename r) = dw_mats w (distances_filename r)).
Proof.
  intros Hr Hi Hn. destruct (predefined_not_cache _ _ Hn) as [ P1 P2 ].
  assert (C : (exists region' command, e = ERun region' command) \/ forall region' command, e <> ERun region' command)
    by (destruct e; [ left; eauto | right; discriminate .. ]).
  destruct C as [ (region' & command & ->) | C ].
  2:{ destruct (cache_step raw w e Hr Hi C) as (K1 & K2 & K3). rewrite K2, K3 by exact P1. auto. }
  cbn [SilhouetteProgram.happens]. unfold run_silhouette, do_silhouette.
  destruct (region_by_name region') as [ r' | ] eqn:Hn'; [ | auto ]. destruct (silhouette_metadata_by_name (rm_name r')) as [ md | ]; [ | auto ].
  unfold execute_command.
  destruct (String.eqb_spec command "save") as [ -> | ]; [ | destruct (String.eqb_spec command "distances") as [ -> | ];
    [ | destruct (String.eqb_spec command "kmedoids"); [ auto | destruct (String.eqb_spec command "show_distances"); auto ] ] ].
  - destruct (save_step raw w region' r' Hr Hi Hn') as (K1 & K2 & K3 & K4). split; [ exact K1 | ]. rewrite K2. split; [ | reflexivity ].
    destruct (String.string_dec region region') as [ <- | Hd ].
    + rewrite Hn in Hn'. injection Hn' as <-. intros [ H | H ]; [ destruct H; reflexivity | exact (proj2 (K4 H)) ].
    + intros _. apply K3; [ | exact P1 ]. intros Hf. apply Hd. exact (dataset_filename_inj _ _ _ _ Hn Hn' Hf).
  - unfold calculate_distance_matrix. destruct (load_saved (dw_data w) r'); [ | auto ]. destruct (fst (compute_distance_matrix _ _ _)) as [ M | ]; [ | auto ].
    cbn [fst dw_data dw_mats]. split; [ exact Hi | ]. split; [ reflexivity | ]. intros H. unfold save_mat.
    destruct (String.eqb_spec (distances_filename r) (distances_filename r')) as [ Hf | ]; [ | reflexivity ].
    apply (distances_filename_inj _ _ _ _ Hn Hn') in Hf. subst region'. destruct H. reflexivity.
Qed.

Lemma events_keep raw es : raw_dataset raw -> forall w, minv (dw_data w) raw -> minv (dw_data (after_events w es)) raw.
Proof.
  intros Hr. induction es as [ | e es IH ]; intros w Hi; [ exact Hi | ]. apply IH.
  destruct (event_step raw w e "nordeste_small_2015_2015_1spd" _ Hr Hi eq_refl) as [ K _ ]. exact K.
Qed.

(** the files of a region that is not scaled, after events *)
Section Region.
Context (raw : arr3 fnum) (region : string) (r : rmeta) (md : smeta) (d : arr3 fnum) (M : mat).
Context (Hr : raw_dataset raw) (Hn : region_by_name region = Ok r) (Hmd : silhouette_metadata_by_name (rm_name r) = Ok md).
Context (Hc : forall garbage fs, minv fs raw -> snd (m_create_instance garbage fs r) = Ok (MPlain d (Some r))).
Context (HM : matrix_of_region measure junk (TPlain d) = Ok M).

Lemma saves_now w : minv (dw_data w) raw -> dw_data (happens w (ERun region "save"%string)) (dataset_filename r) = Some (Npy d) /\
  snd (run w region "save"%string) = Ok Nothing.
Proof.
  intros Hi. cbn [SilhouetteProgram.happens]. unfold run_silhouette, do_silhouette. rewrite Hn, Hmd. unfold execute_command. cbn [String.eqb Ascii.eqb Bool.eqb].
  unfold save_sptr. specialize (Hc garbage _ Hi). destruct (m_create_instance garbage (dw_data w) r) as [ fs res ]. cbn [snd] in Hc. subst res.
  cbn [save fst snd dw_data bind]. split; [ apply put_same | reflexivity ].
Qed.
Lemma measures_now w : dw_data w (dataset_filename r) = Some (Npy d) ->
  run w region "distances"%string = (DWorld (dw_data w) (save_mat (dw_mats w) (distances_filename r) M), Ok Nothing).
Proof.
  intros Hf. unfold run_silhouette, do_silhouette. rewrite Hn, Hmd. unfold execute_command. cbn [String.eqb Ascii.eqb Bool.eqb].
  unfold calculate_distance_matrix, load_saved. rewrite Hf. cbn [erase]. unfold compute_distance_matrix, env_with. cbn [env_measure env_junk]. rewrite HM. reflexivity.
Qed.
Lemma not_saved w command : dw_data w (dataset_filename r) = None -> (command = "distances" \/ command = "kmedoids" \/ command = "show_distances")%string ->
  run w region command = (w, Raise IOError).
Proof.
  intros Hf Hcmd. unfold run_silhouette, do_silhouette. rewrite Hn, Hmd. unfold execute_command.
  destruct Hcmd as [ -> | [ -> | -> ] ]; cbn [String.eqb Ascii.eqb Bool.eqb];
    unfold calculate_distance_matrix, silhouette_analysis, show_saved_distances, load_saved; rewrite Hf; reflexivity.
Qed.

Definition files_are (w : dworld) (saved measured : bool) : Prop :=
  minv (dw_data w) raw /\ dw_data w (dataset_filename r) = (if saved then Some (Npy d) else None) /\
  dw_mats w (distances_filename r) = (if measured then Some M else None) /\ (measured = true -> saved = true).
Definition is_save (e : event) : bool := match e with ERun region' command => (region' =? region)%string && (command =? "save")%string | _ => false end.
Definition is_measure (e : event) : bool := match e with ERun region' command => (region' =? region)%string && (command =? "distances")%string | _ => false end.
Lemma is_save_iff e : is_save e = true <-> e = ERun region "save"%string.
Proof.
  destruct e; cbn; split; try discriminate.
  - rewrite Bool.andb_true_iff. intros [ A B ]. apply String.eqb_eq in A, B. congruence.
  - intros [= -> ->]. rewrite String.eqb_refl. reflexivity.
Qed.
Lemma is_measure_iff e : is_measure e = true <-> e = ERun region "distances"%string.
Proof.
  destruct e; cbn; split; try discriminate.
  - rewrite Bool.andb_true_iff. intros [ A B ]. apply String.eqb_eq in A, B. congruence.
  - intros [= -> ->]. rewrite String.eqb_refl. reflexivity.
Qed.
Lemma region_step w e s m : files_are w s m -> files_are (happens w e) (s || is_save e) (m || (s && is_measure e)).
Proof.
  intros (Hi & Hd & Hm & Hsm). destruct (event_step raw w e region r Hr Hi Hn) as (K1 & K2 & K3). unfold files_are. split; [ exact K1 | ].
  destruct (is_save e) eqn:S; [ apply is_save_iff in S; subst e | ].
  - cbn [is_measure]. rewrite String.eqb_refl. cbn [String.eqb Ascii.eqb Bool.eqb andb]. rewrite Bool.orb_true_r, Bool.andb_false_r, Bool.orb_false_r.
    split; [ exact (proj1 (saves_now w Hi)) | ]. split; [ rewrite K3 by discriminate; exact Hm | auto ].
  - rewrite Bool.orb_false_r. assert (Ns : e <> ERun region "save"%string) by (intros E; apply is_save_iff in E; congruence).
    split; [ rewrite K2 by auto; exact Hd | ].
    destruct (is_measure e) eqn:D; [ apply is_measure_iff in D; subst e | ].
    + cbn [SilhouetteProgram.happens]. destruct s; cbn [andb].
      * rewrite measures_now by exact Hd. cbn [fst dw_mats]. unfold save_mat. rewrite String.eqb_refl, Bool.orb_true_r. auto.
      * rewrite Bool.orb_false_r. rewrite not_saved by auto. auto.
    + rewrite Bool.andb_false_r, Bool.orb_false_r. split; [ | exact Hsm ]. rewrite K3; [ exact Hm | ]. intros E. apply is_measure_iff in E. congruence.
Qed.

(** saved and measured after the events *)
Fixpoint flags (s m : bool) (es : list event) : bool * bool :=
  match es with [] => (s, m) | e :: es => flags (s || is_save e) (m || (s && is_measure e)) es end.
Lemma region_after es : forall w s m, files_are w s m -> files_are (after_events w es) (fst (flags s m es)) (snd (flags s m es)).
Proof. induction es as [ | e es IH ]; intros w s m H; [ exact H | ]. cbn [flags]. apply IH. apply region_step. exact H. Qed.
Lemma flags_saved es : forall s m, fst (flags s m es) = (s || existsb is_save es)%bool.
Proof. induction es as [ | e es IH ]; intros s m; cbn [flags existsb]; [ symmetry; apply Bool.orb_false_r | ]. rewrite IH, Bool.orb_assoc. reflexivity. Qed.
Lemma flags_measured_saved es : forall m, snd (flags true m es) = (m || existsb is_measure es)%bool.
Proof. induction es as [ | e es IH ]; intros m; cbn [flags existsb orb andb]; [ symmetry; apply Bool.orb_false_r | ]. rewrite IH, Bool.orb_assoc. reflexivity. Qed.
Lemma flags_app es1 es2 : forall s m, flags s m (es1 ++ es2) = flags (fst (flags s m es1)) (snd (flags s m es1)) es2.
Proof. induction es1 as [ | e es1 IH ]; intros s m; cbn [app flags]; [ reflexivity | apply IH ]. Qed.
Lemma flags_mono es : forall s, snd (flags s true es) = true.
Proof. induction es as [ | e es IH ]; intros s; cbn [flags orb]; auto. Qed.
Lemma saves_iff es : saves region es <-> existsb is_save es = true.
Proof.
  rewrite existsb_exists. unfold saves. split; [ intros H; eexists; split; [ exact H | apply is_save_iff; reflexivity ] | ].
  intros (e & H & E). apply is_save_iff in E. subst e. exact H.
Qed.
Lemma saves_and_measures_iff es : saves_and_measures region es <-> snd (flags false false es) = true.
Proof.
  split.
  - intros (es1 & es2 & -> & H1 & H2). rewrite flags_app. apply saves_iff in H1. rewrite flags_saved, H1. cbn [orb]. rewrite flags_measured_saved.
    apply Bool.orb_true_iff. right. apply existsb_exists. eexists. split; [ exact H2 | apply is_measure_iff; reflexivity ].
  - assert (G : forall es es0, snd (flags (existsb is_save es0) (snd (flags false false es0)) es) = true ->
      snd (flags false false es0) = true \/ exists es1 es2, es = es1 ++ es2 /\ saves region (es0 ++ es1) /\ In (ERun region "distances"%string) es2).
    { clear es. induction es as [ | e es IH ]; intros es0 H; [ left; exact H | ].
      assert (F : flags false false (es0 ++ [e]) = (existsb is_save es0 || is_save e, snd (flags false false es0) || (existsb is_save es0 && is_measure e))%bool).
      { rewrite flags_app, flags_saved. reflexivity. }
      specialize (IH (es0 ++ [e])). rewrite F in IH. cbn [snd] in IH. rewrite existsb_app in IH. cbn [existsb] in IH. rewrite Bool.orb_false_r in IH.
      cbn [flags] in H. destruct (IH H) as [ E | (es1 & es2 & -> & S & D) ].
      - apply Bool.orb_true_iff in E. destruct E as [ E | E ]; [ left; exact E | ]. apply Bool.andb_true_iff in E. destruct E as [ E1 E2 ].
        right. exists [], (e :: es). split; [ reflexivity | ]. rewrite app_nil_r. split; [ apply saves_iff; exact E1 | ]. apply is_measure_iff in E2. left. exact E2.
      - right. exists (e :: es1), es2. split; [ reflexivity | ]. rewrite <- app_assoc in S. split; assumption. }
    intros H. destruct (G es [] H) as [ E | (es1 & es2 & -> & S & D) ]; [ discriminate | ]. exists es1, es2. auto.
Qed.
End Region.
End Step.
