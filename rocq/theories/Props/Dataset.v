(** Properties C67 and C81: the dataset, its cache files, and the regions created from it. *)
From Coq Require Import String ZifyBool ZifyNat.
From Verif Require Import Base.Py Base.PyFacts Base.Arr Base.ArrFacts Base.Str Base.StrFacts Base.Float Spec.Grid Spec.Rect Spec.Calendar Spec.Scaling
     Spec.Dataset Model.Region Model.Scaling Model.Series Model.Clustering Model.Dataset
     Proofs.RegionFacts Proofs.SubsetFacts Proofs.ScalingFacts Proofs.DatasetFacts.
Local Notation length := List.length.
Local Open Scope nat_scope.

(* ---------------------------------------------------------------- C67 *)
(** For a dataset, an interval of its years and 1 or 4 samples per day there is one array, made of the samples of those
    years, that every request returns: whatever requests, crashes, deletions and damage to cache files there were
    before, under whatever name the cache is kept, and whatever np.empty contained. *)
Theorem C67_any_history : forall raw a b spd, raw_dataset raw -> valid_years a b -> (spd = 1 \/ spd = 4)%Z ->
  exists d, interval_of raw a b spd d /\
    forall fs os garbage name, delivered fs raw -> Forall dallowed os ->
      snd (retrieve_dataset_interval garbage (fold_left dexec os fs) a b spd name) = Ok d.
Proof.
  intros raw a b spd Hr Hv Hs.
  set (fs0 := dfs_put (fun _ => None) RAW_DATASET (Some (Hdf5 raw))).
  destruct (computed_ok NaN fs0 raw a b spd Hv (put_same _ _ _) Hr Hs) as (d & _ & Q).
  exists d. split; auto. intros fs os g name Hd Ha.
  destruct (dinv_request (fold_left dexec os fs) raw g a b spd name Hr
              (dinv_history os fs raw Hr (dinv_delivered _ _ Hd) Ha) Hs) as (_ & R & _).
  destruct (R Hv) as (d' & E & Q'). rewrite E. f_equal. eapply interval_unique; eauto.
Qed.
Print Assumptions C67_any_history.

(** The array is determined by that description. *)
Theorem C67_interval_is_unique : forall raw a b spd d d', (spd = 1 \/ spd = 4)%Z ->
  interval_of raw a b spd d -> interval_of raw a b spd d' -> d = d'.
Proof. exact interval_unique. Qed.
Print Assumptions C67_interval_is_unique.

(** Other years are rejected, after any history, and nothing is written. *)
Theorem C67_years_rejected : forall raw a b spd, raw_dataset raw -> ~ valid_years a b -> (spd = 1 \/ spd = 4)%Z ->
  forall fs os garbage name, delivered fs raw -> Forall dallowed os ->
    let fs' := fold_left dexec os fs in
    retrieve_dataset_interval garbage fs' a b spd name = (fs', Raise ValueError).
Proof.
  intros raw a b spd Hr Hv Hs fs os g name Hd Ha fs'.
  apply (dinv_request fs' raw g a b spd name Hr (dinv_history os fs raw Hr (dinv_delivered _ _ Hd) Ha) Hs). exact Hv.
Qed.
Print Assumptions C67_years_rejected.

(** Any other number of samples per day is rejected, whatever the files are. *)
Theorem C67_samples_per_day_rejected : forall garbage fs a b spd name, spd <> 1%Z -> spd <> 4%Z ->
  retrieve_dataset_interval garbage fs a b spd name = (fs, Raise AssertionError).
Proof. exact retrieve_bad_spd. Qed.
Print Assumptions C67_samples_per_day_rejected.

(** A request that succeeded is answered from its file from then on: same data, no file written, and the raw dataset is
    not needed any more. *)
Theorem C67_answered_from_the_file : forall garbage fs a b spd name fs' d garbage' f,
  retrieve_dataset_interval garbage fs a b spd name = (fs', Ok d) ->
  let fs'' := dfs_put fs' RAW_DATASET f in
  retrieve_dataset_interval garbage' fs'' a b spd name = (fs'', Ok d).
Proof.
  intros g fs a b spd name fs' d g' f H fs''.
  assert (Hs : (spd = 1 \/ spd = 4)%Z).
  { destruct (Z.eq_dec spd 1); auto. destruct (Z.eq_dec spd 4); auto. rewrite retrieve_bad_spd in H by auto. discriminate. }
  rewrite retrieve_eq in * by auto.
  assert (L : try_load_dataset_interval fs' name a b spd = Some d).
  { unfold try_load_dataset_interval in *. destruct (fs (FORMAT_BY_YEAR name a b spd)) as [[r|e|]|] eqn:E.
    2:{ injection H as <- <-. rewrite E. reflexivity. }
    all: destruct (computed g fs a b spd) as [e|]; [|discriminate H]; injection H as <- <-; unfold save_dataset_interval;
      rewrite put_same; reflexivity. }
  unfold fs'', try_load_dataset_interval in *. rewrite put_other by apply format_not_raw.
  destruct (fs' (FORMAT_BY_YEAR name a b spd)) as [[r|e|]|]; try discriminate L. injection L as <-. reflexivity.
Qed.
Print Assumptions C67_answered_from_the_file.

(** Without the dataset and without a cache file that can be read, a request fails and writes nothing. *)
Theorem C67_missing_dataset : forall garbage fs a b spd name, (spd = 1 \/ spd = 4)%Z -> fs RAW_DATASET = None ->
  (forall d, fs (FORMAT_BY_YEAR name a b spd) <> Some (Npy d)) -> (1 <= a <= 9999)%Z -> (b <= 9998)%Z ->
  retrieve_dataset_interval garbage fs a b spd name = (fs, Raise ValueError).
Proof.
  intros g fs a b spd name Hs Hr Hn Ha Hb. rewrite retrieve_eq by auto. unfold try_load_dataset_interval.
  assert (E : computed g fs a b spd = Raise ValueError).
  { destruct (valid_years_dec a b) as [V|V]; [|apply computed_bad_years; auto]. pose proof V as (V1 & V2 & V3).
    unfold computed, read_hdf5_dataset_by_year, DATASET_YEAR_START, DATASET_YEAR_END, DATASET_SAMPLES_PER_DAY.
    replace ((b <? a) || (a <? 1979) || (2015 <? b))%Z%bool with false by lia.
    rewrite SeriesFacts.years_spec by lia. cbn [bind]. unfold read_hdf5_dataset. rewrite Hr. reflexivity. }
  rewrite E. destruct (fs (FORMAT_BY_YEAR name a b spd)) as [[r|e|]|]; auto. exfalso; eapply Hn; reflexivity.
Qed.
Print Assumptions C67_missing_dataset.

(** A request never touches a file other than its own cache file, and different requests have different files. *)
Theorem C67_only_its_own_file : forall garbage fs a b spd name q, q <> FORMAT_BY_YEAR name a b spd ->
  fst (retrieve_dataset_interval garbage fs a b spd name) q = fs q.
Proof.
  intros g fs a b spd name q Hq. unfold retrieve_dataset_interval.
  destruct (negb _); auto. destruct (try_load_dataset_interval fs name a b spd); auto.
  destruct (bind _ _) as [d|]; auto. cbn [fst]. unfold save_dataset_interval. apply put_other; auto.
Qed.
Print Assumptions C67_only_its_own_file.
Theorem C67_files_distinct : forall name a b spd name' a' b' spd',
  FORMAT_BY_YEAR name a b spd = FORMAT_BY_YEAR name' a' b' spd' -> name = name' /\ a = a' /\ b = b' /\ spd = spd'.
Proof. exact format_inj. Qed.
Print Assumptions C67_files_distinct.
Theorem C67_dataset_not_overwritten : forall garbage fs a b spd name,
  fst (retrieve_dataset_interval garbage fs a b spd name) RAW_DATASET = fs RAW_DATASET.
Proof. intros. apply C67_only_its_own_file. intros E. symmetry in E. revert E. apply format_not_raw. Qed.
Print Assumptions C67_dataset_not_overwritten.

(** a dataset that is the same value everywhere *)
Definition ex_flat (v : fnum) : arr3 fnum := full3 (4 * Z.to_nat (days_in_years 1979 37)) 3 2 v.
Lemma ex_flat_dataset v : raw_dataset (ex_flat v).
Proof. split; [apply wf3_full|reflexivity]. Qed.
Definition ex_dfs (v : fnum) : dfs := dfs_put (fun _ => None) RAW_DATASET (Some (Hdf5 (ex_flat v))).
Lemma ex_dfs_delivered v : delivered (ex_dfs v) (ex_flat v).
Proof.
  split; [apply put_same|]. intros name a b spd. unfold ex_dfs. rewrite put_other; auto. apply format_not_raw.
Qed.
Definition ex_dops : list dop :=
  [DRequest NaN 1980 1981 1 DATASET_NAME; DCrash NaN 1979 2015 4 DATASET_NAME; DDelete (FORMAT_BY_YEAR DATASET_NAME 1980 1981 1);
   DRequest NaN 1979 2015 4 DATASET_NAME; DDamage (FORMAT_BY_YEAR DATASET_NAME 1979 2015 4); DOther "raw/notes.txt" (Some Unreadable)].
Example C67_ex : raw_dataset (ex_flat (Fin 1)) /\ delivered (ex_dfs (Fin 1)) (ex_flat (Fin 1)) /\ valid_years 1979 2015 /\
  valid_years 1980 1981 /\ ~ valid_years 1980 2016 /\ Forall dallowed ex_dops.
Proof.
  split; [apply ex_flat_dataset|]. split; [apply ex_dfs_delivered|]. unfold valid_years. repeat (split; [lia|]).
  assert (N : forall name a b spd, "raw/notes.txt"%string <> FORMAT_BY_YEAR name a b spd).
  { intros name a b spd E.
    assert (F : forall s, (s ++ "spd.npy")%string <> "raw/notes.txt"%string).
    { intros s H. assert (L : slen (s ++ "spd.npy") = 13) by (rewrite H; reflexivity).
      rewrite slen_app in L. cbn in L. assert (Hs : slen s = 6) by lia. clear L.
      do 6 (destruct s as [|? s]; [discriminate Hs|]). destruct s; [|discriminate Hs]. cbn in H. discriminate H. }
    apply (F ("raw/" ++ name ++ "_" ++ str_int a ++ "_" ++ str_int b ++ "_" ++ str_int spd)%string).
    rewrite E. unfold FORMAT_BY_YEAR. rewrite !sapp_assoc. reflexivity. }
  unfold ex_dops. repeat apply Forall_cons; cbn [dallowed]; auto using format_not_raw.
  split; [discriminate|]. exact N.
Qed.

(** Refuted: that the data always belong to the present dataset.  The cache files do not know of the dataset they
    were computed from, so after the raw dataset is replaced the old data are returned. *)
Theorem C67_replaced_dataset_refuted : exists raw raw' fs fs' d,
  raw_dataset raw /\ raw_dataset raw' /\ delivered fs raw /\
  retrieve_dataset_interval NaN fs 1980 1980 4 DATASET_NAME = (fs', Ok d) /\
  let fs'' := dfs_put fs' RAW_DATASET (Some (Hdf5 raw')) in
  snd (retrieve_dataset_interval NaN fs'' 1980 1980 4 DATASET_NAME) = Ok d /\ ~ interval_of raw' 1980 1980 4 d.
Proof.
  pose (raw := ex_flat (Fin 0)). pose (raw' := ex_flat (Fin 1)).
  assert (V : valid_years 1980 1980) by (unfold valid_years; lia).
  assert (S4 : (4 = 1 \/ 4 = 4)%Z) by auto.
  destruct (C67_any_history raw 1980 1980 4 (ex_flat_dataset _) V S4) as (d & Q & R).
  specialize (R (ex_dfs (Fin 0)) [] NaN DATASET_NAME (ex_dfs_delivered _) (Forall_nil _)). cbn [fold_left] in R.
  destruct (retrieve_dataset_interval NaN (ex_dfs (Fin 0)) 1980 1980 4 DATASET_NAME) as [fs' r] eqn:E. cbn [snd] in R. subst r.
  exists raw, raw', (ex_dfs (Fin 0)), fs', d. split; [apply ex_flat_dataset|]. split; [apply ex_flat_dataset|].
  split; [apply ex_dfs_delivered|]. split; [exact E|]. split.
  { rewrite (C67_answered_from_the_file _ _ _ _ _ _ _ _ NaN (Some (Hdf5 raw')) E). reflexivity. }
  intros Q'. pose proof (interval_pos raw 1980 1980 4 d S4 V Q) as Hp. pose proof Q as (W & T & X & Y & P).
  assert (G : forall v, in_grid (a3x (ex_flat v)) (a3y (ex_flat v)) (0, 0)%Z) by (intros v; split; cbn; lia).
  destruct (P (0, 0)%Z (G _)) as (s & s' & E1 & E2 & F4 & _). destruct Q' as (_ & _ & _ & _ & P').
  destruct (P' (0, 0)%Z (G _)) as (t & t' & E3 & E4 & F4' & _). cbn [fst snd] in *.
  assert (t' = s') by congruence. subst t'. specialize (F4 eq_refl). specialize (F4' eq_refl).
  assert (H : forall v s, series3 (ex_flat v) 0 0 = Ok s -> forall w, In w s -> w = v).
  { intros v u Eu w Hw. assert (I : In w (a3d (ex_flat v))).
    { apply (series_in_data (ex_flat v) (0, 0)%Z u); auto. apply wf3_full. }
    unfold ex_flat, full3 in I. cbn [a3d] in I. apply repeat_spec in I. exact I. }
  destruct (series3_ok d 0 0 W) as (u & Eu & Lu & _); [rewrite X; cbn; lia|rewrite Y; cbn; lia|].
  assert (u = s') by congruence. subst u. destruct s' as [|v l]; [cbn in Lu; lia|].
  assert (v = Fin 0). { apply (H _ s E1). eapply in_firstn_skipn. rewrite <- F4. left; auto. }
  assert (v = Fin 1). { apply (H _ t E3). eapply in_firstn_skipn. rewrite <- F4'. left; auto. }
  congruence.
Qed.
Print Assumptions C67_replaced_dataset_refuted.

(* ---------------------------------------------------------------- C81 *)
Lemma dinv_of_dataset raw : dinv (dfs_put (fun _ => None) RAW_DATASET (Some (Hdf5 raw))) raw.
Proof.
  split; [apply put_same|]. intros name a b spd d _ E. rewrite put_other in E by apply format_not_raw. discriminate.
Qed.

(** A region created from metadata, after any history: its extent is that of the rectangle, and the series of each of
    its points is the series of the dataset of the years at the point with the offset of the rectangle. *)
Theorem C81_created_region : forall raw m d, raw_dataset raw -> (rm_spd m = 1 \/ rm_spd m = 4)%Z ->
  valid_years (rm_start m) (rm_end m) -> rect_in (rm_region m) (a3x raw) (a3y raw) -> rm_scaled m = false ->
  interval_of raw (rm_start m) (rm_end m) (rm_spd m) d ->
  exists c, wf3 c /\ a3t c = a3t d /\ Z.of_nat (a3x c) = (x2 (rm_region m) - x1 (rm_region m))%Z /\
    Z.of_nat (a3y c) = (y2 (rm_region m) - y1 (rm_region m))%Z /\
    (forall i j, in_grid (a3x c) (a3y c) (i, j) ->
      exists s, series3 d (x1 (rm_region m) + i) (y1 (rm_region m) + j) = Ok s /\ series_at (TPlain c) (i, j) = Ok s) /\
    forall fs os garbage, delivered fs raw -> Forall dallowed os ->
      snd (create_instance garbage (fold_left dexec os fs) m) = Ok (TPlain c).
Proof.
  intros raw m d Hr Hs Hv Hg Hc Q.
  destruct (create_plain NaN _ raw m d Hr (dinv_of_dataset raw) Hs Hv Hg Q) as (c & E & _ & W & T & X & Y & P).
  pose proof Q as (Wd & Td & Xd & Yd & _).
  exists c. repeat (split; [solve [auto]|]). split.
  - intros i j [Gi Gj]. cbn [fst snd] in *. destruct Hg as (G1 & G2 & G3 & G4).
    destruct (series3_ok d (x1 (rm_region m) + i) (y1 (rm_region m) + j) Wd) as (s & Es & _); try lia.
    exists s. split; auto. cbn [series_at fst snd]. rewrite P by lia. exact Es.
  - intros fs os g Hd Ha.
    destruct (create_plain g _ raw m d Hr (dinv_history os fs raw Hr (dinv_delivered _ _ Hd) Ha) Hs Hv Hg Q) as (c' & E' & F & _).
    rewrite F, Hc. congruence.
Qed.
Print Assumptions C81_created_region.

(** If the metadata asks for it, every series is that series scaled to [0, 1]. *)
Theorem C81_created_scaled : forall raw m d, raw_dataset raw -> no_inf (a3d raw) -> (rm_spd m = 1 \/ rm_spd m = 4)%Z ->
  valid_years (rm_start m) (rm_end m) -> rect_in (rm_region m) (a3x raw) (a3y raw) -> rm_scaled m = true ->
  interval_of raw (rm_start m) (rm_end m) (rm_spd m) d ->
  exists c mn mx, wf3 c /\ a3t c = a3t d /\ Z.of_nat (a3x c) = (x2 (rm_region m) - x1 (rm_region m))%Z /\
    Z.of_nat (a3y c) = (y2 (rm_region m) - y1 (rm_region m))%Z /\
    (forall i j, in_grid (a3x c) (a3y c) (i, j) ->
      exists s s', series3 d (x1 (rm_region m) + i) (y1 (rm_region m) + j) = Ok s /\
        series_at (TScaled (TPlain c) mn mx) (i, j) = Ok s' /\ scaled_series s s') /\
    forall fs os garbage, delivered fs raw -> Forall dallowed os ->
      snd (create_instance garbage (fold_left dexec os fs) m) = Ok (TScaled (TPlain c) mn mx).
Proof.
  intros raw m d Hr Hn Hs Hv Hg Hc Q.
  destruct (create_plain NaN _ raw m d Hr (dinv_of_dataset raw) Hs Hv Hg Q) as (c & E & _ & W & T & X & Y & P).
  pose proof Q as (Wd & Td & Xd & Yd & _). pose proof Hg as (G1 & G2 & G3 & G4).
  pose proof (interval_no_inf raw _ _ _ d (proj1 Hr) Hs Q Hn) as Nd.
  assert (Nc : no_inf (a3d c)).
  { intros v Hv'. destruct (data_in_series c v W Hv') as ([i j] & s & [Gi Gj] & Es & Iv). cbn [fst snd] in *.
    rewrite P in Es by lia. apply Nd.
    apply (series_in_data d (x1 (rm_region m) + i, y1 (rm_region m) + j)%Z s); cbn [fst snd]; auto. split; cbn [fst snd]; lia. }
  pose proof (interval_pos raw _ _ _ d Hs Hv Q) as Hp.
  destruct (scale_series_plain c W) as (c' & mn & mx & E' & W' & T' & X' & Y' & P'); auto; [lia|].
  exists c', mn, mx. split; auto. split; [congruence|]. split; [congruence|]. split; [congruence|]. split.
  - intros i j G. rewrite X', Y' in G. destruct (P' (i, j) G) as (s & s' & Es & Es' & Sc).
    exists s, s'. split; auto. destruct G as [Gi Gj]. cbn [fst snd series_at] in *. rewrite P in Es by lia. exact Es.
  - intros fs os g Hd Ha.
    destruct (create_plain g _ raw m d Hr (dinv_history os fs raw Hr (dinv_delivered _ _ Hd) Ha) Hs Hv Hg Q) as (c2 & E2 & F & _).
    rewrite F, Hc. assert (c2 = c) by congruence. subst c2. exact E'.
Qed.
Print Assumptions C81_created_scaled.

(** Other numbers of samples per day and other years are rejected. *)
Theorem C81_rejected : forall garbage fs m, rm_spd m <> 1%Z -> rm_spd m <> 4%Z ->
  create_instance garbage fs m = (fs, Raise AssertionError).
Proof.
  intros g fs m H1 H4. unfold create_instance. replace ((rm_spd m =? 1) || (rm_spd m =? 4))%Z%bool with false by lia. reflexivity.
Qed.
Print Assumptions C81_rejected.
Theorem C81_years_rejected : forall raw m, raw_dataset raw -> ~ valid_years (rm_start m) (rm_end m) -> (rm_spd m = 1 \/ rm_spd m = 4)%Z ->
  forall fs os garbage, delivered fs raw -> Forall dallowed os ->
    snd (create_instance garbage (fold_left dexec os fs) m) = Raise ValueError.
Proof.
  intros raw m Hr Hv Hs fs os g Hd Ha. rewrite create_instance_eq by auto.
  pose proof (C67_years_rejected raw _ _ _ Hr Hv Hs fs os g DATASET_NAME Hd Ha) as E. cbv zeta in E. rewrite E. reflexivity.
Qed.
Print Assumptions C81_years_rejected.

Definition ex_rm (sc : bool) : rmeta := RMeta "sp" (Rect 1 3 0 2) 1990 1991 1 sc "raw".
Example C81_ex : forall sc, raw_dataset (ex_flat (Fin 1)) /\ no_inf (a3d (ex_flat (Fin 1))) /\ rm_spd (ex_rm sc) = 1%Z /\
  valid_years (rm_start (ex_rm sc)) (rm_end (ex_rm sc)) /\
  rect_in (rm_region (ex_rm sc)) (a3x (ex_flat (Fin 1))) (a3y (ex_flat (Fin 1))) /\ rm_scaled (ex_rm sc) = sc /\
  exists d, interval_of (ex_flat (Fin 1)) (rm_start (ex_rm sc)) (rm_end (ex_rm sc)) (rm_spd (ex_rm sc)) d.
Proof.
  intros sc. assert (V : valid_years 1990 1991) by (unfold valid_years; lia).
  split; [apply ex_flat_dataset|]. split. { intros v Hv. unfold ex_flat, full3 in Hv. cbn [a3d] in Hv. apply repeat_spec in Hv. subst v. reflexivity. }
  split; [reflexivity|]. split; [exact V|]. split; [repeat split; cbn; lia|]. split; [reflexivity|].
  destruct (C67_any_history (ex_flat (Fin 1)) 1990 1991 1 (ex_flat_dataset _) V (or_introl eq_refl)) as (d & Q & _).
  exists d. exact Q.
Qed.

(** Refuted: that a created region always has the extent of its metadata.  A rectangle that leaves the dataset is cut
    off without an error, so the metadata and the region disagree about the extent. *)
Theorem C81_extent_refuted : exists raw m r, raw_dataset raw /\ valid_years (rm_start m) (rm_end m) /\ rm_spd m = 4%Z /\
  snd (create_instance NaN (ex_dfs (Fin 1)) m) = Ok r /\ delivered (ex_dfs (Fin 1)) raw /\
  Z.of_nat (t_x r) = 2%Z /\ (x2 (rm_region m) - x1 (rm_region m))%Z = 4%Z.
Proof.
  pose (m := RMeta "sp" (Rect 1 5 0 2) 1990 1991 4 false "raw").
  assert (V : valid_years 1990 1991) by (unfold valid_years; lia).
  destruct (C67_any_history (ex_flat (Fin 1)) 1990 1991 4 (ex_flat_dataset _) V (or_intror eq_refl)) as (d & Q & R).
  specialize (R (ex_dfs (Fin 1)) [] NaN DATASET_NAME (ex_dfs_delivered _) (Forall_nil _)). cbn [fold_left] in R.
  exists (ex_flat (Fin 1)), m, (TPlain (slice3 d None (Some (1, 5)%Z) (Some (0, 2)%Z))).
  split; [apply ex_flat_dataset|]. split; [exact V|]. split; [reflexivity|]. split.
  - rewrite create_instance_eq by (right; reflexivity). cbn [rm_start rm_end rm_spd rm_region rm_scaled m].
    rewrite R. reflexivity.
  - split; [apply ex_dfs_delivered|]. split; [|reflexivity]. destruct Q as (_ & _ & X & _).
    cbn [t_x t_data]. unfold slice3. cbn [a3x]. rewrite X. reflexivity.
Qed.
Print Assumptions C81_extent_refuted.
