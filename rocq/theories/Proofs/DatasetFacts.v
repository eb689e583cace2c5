(** Facts for Model/Dataset.v. *)
From Coq Require Import String ZifyBool ZifyNat.
From Verif Require Import Base.Py Base.PyFacts Base.Arr Base.ArrFacts Base.Str Base.StrFacts Base.Float Base.FloatFacts
     Spec.Grid Spec.Rect Spec.Calendar Spec.Dataset Model.Region Model.Scaling Model.Series Model.Clustering Model.Dataset
     Spec.Scaling Proofs.RegionFacts Proofs.SubsetFacts Proofs.ScalingFacts Proofs.SeriesFacts.
Local Notation length := List.length.
Local Open Scope nat_scope.

(* ---------- file names ---------- *)
Lemma format_cut name a b spd : FORMAT_BY_YEAR name a b spd =
  ((((("raw/" ++ name) ++ String "_" (str_int a)) ++ String "_" (str_int b)) ++ String "_" (str_int spd ++ "spd.npy")))%string.
Proof. unfold FORMAT_BY_YEAR. rewrite !sapp_assoc. reflexivity. Qed.

Lemma has_char_app c s t : has_char c (s ++ t)%string = has_char c s || has_char c t.
Proof. induction s as [|x s IH]; cbn; auto. rewrite IH. destruct (Ascii.eqb x c); auto. Qed.

Lemma format_inj name a b spd name' a' b' spd' :
  FORMAT_BY_YEAR name a b spd = FORMAT_BY_YEAR name' a' b' spd' -> name = name' /\ a = a' /\ b = b' /\ spd = spd'.
Proof.
  rewrite !format_cut. intros E.
  assert (N : forall n, has_char "_" (str_int n) = false).
  { intros n. apply str_int_no_char; [reflexivity|discriminate]. }
  assert (M : forall n, has_char "_" (str_int n ++ "spd.npy")%string = false).
  { intros n. rewrite has_char_app, N. reflexivity. }
  apply cut_last in E; auto. destruct E as [E E1]. apply sapp_inj_r in E1. apply str_int_inj in E1.
  apply cut_last in E; auto. destruct E as [E E2]. apply str_int_inj in E2.
  apply cut_last in E; auto. destruct E as [E E3]. apply str_int_inj in E3.
  apply sapp_inj_l in E. auto.
Qed.
Lemma format_not_raw name a b spd : FORMAT_BY_YEAR name a b spd <> RAW_DATASET.
Proof.
  unfold RAW_DATASET. intros E.
  assert (F : forall s, (s ++ "spd.npy")%string <> "raw/TEMPERATURE_1979-2015.hdf"%string).
  { intros s H. assert (L : slen (s ++ "spd.npy") = 29) by (rewrite H; reflexivity).
    rewrite slen_app in L. cbn in L.
    assert (Hs : slen s = 22) by lia. clear L.
    do 22 (destruct s as [|? s]; [discriminate Hs|]). destruct s; [|discriminate Hs]. cbn in H. discriminate H. }
  apply (F ("raw/" ++ name ++ "_" ++ str_int a ++ "_" ++ str_int b ++ "_" ++ str_int spd)%string).
  rewrite <- E. unfold FORMAT_BY_YEAR. rewrite !sapp_assoc. reflexivity.
Qed.

(* ---------- days ---------- *)
Lemma days_in_year_pos y : (0 < days_in_year y)%Z.
Proof. unfold days_in_year. destruct (leap y); lia. Qed.
Lemma days_in_years_nonneg a n : (0 <= days_in_years a n)%Z.
Proof. revert a. induction n as [|n IH]; intros a; cbn [days_in_years]; [lia|]. pose proof (days_in_year_pos a). specialize (IH (a + 1)%Z). lia. Qed.
Lemma days_in_years_app a n m : days_in_years a (n + m) = (days_in_years a n + days_in_years (a + Z.of_nat n) m)%Z.
Proof.
  revert a. induction n as [|n IH]; intros a; cbn [days_in_years Nat.add].
  - replace (a + Z.of_nat 0)%Z with a by lia. lia.
  - rewrite IH. replace (a + 1 + Z.of_nat n)%Z with (a + Z.of_nat (S n))%Z by lia. lia.
Qed.
Lemma days_within a b : valid_years a b ->
  (days_in_years 1979 (Z.to_nat (a - 1979)) + days_in_years a (Z.to_nat (b + 1 - a)) <= days_in_years 1979 37)%Z.
Proof.
  intros (H1 & H2 & H3).
  replace 37 with (Z.to_nat (a - 1979) + (Z.to_nat (b + 1 - a) + Z.to_nat (2015 - b))) by lia.
  rewrite (days_in_years_app 1979), (days_in_years_app (1979 + _)%Z).
  replace (1979 + Z.of_nat (Z.to_nat (a - 1979)))%Z with a by lia.
  pose proof (days_in_years_nonneg (a + Z.of_nat (Z.to_nat (b + 1 - a))) (Z.to_nat (2015 - b))). lia.
Qed.

(* ---------- what is computed ---------- *)
Definition computed garbage fs a b spd :=
  (d <- read_hdf5_dataset_by_year fs a b RAW_DATASET ;; if (spd =? 1)%Z then average_4spd_to_1spd garbage d else Ok d).

Lemma read_ok fs raw a b : valid_years a b -> fs RAW_DATASET = Some (Hdf5 raw) ->
  let before := Z.to_nat (days_in_years 1979 (Z.to_nat (a - 1979))) in
  let days := Z.to_nat (days_in_years a (Z.to_nat (b + 1 - a))) in
  raw_dataset raw ->
  exists d, read_hdf5_dataset_by_year fs a b RAW_DATASET = Ok d /\ wf3 d /\ a3t d = 4 * days /\ a3x d = a3x raw /\ a3y d = a3y raw /\
    forall pt s, in_grid (a3x raw) (a3y raw) pt -> series3 raw (fst pt) (snd pt) = Ok s ->
      series3 d (fst pt) (snd pt) = Ok (firstn (4 * days) (skipn (4 * before) s)).
Proof.
  intros Hv Hfs before days [Hw Ht]. pose proof (days_within a b Hv) as Hd. destruct Hv as (H1 & H2 & H3).
  unfold read_hdf5_dataset_by_year, DATASET_YEAR_START, DATASET_YEAR_END, DATASET_SAMPLES_PER_DAY.
  replace ((b <? a) || (a <? 1979) || (2015 <? b))%Z%bool with false by lia.
  rewrite years_spec by lia. cbn [bind]. unfold read_hdf5_dataset. rewrite Hfs.
  pose proof (days_in_years_nonneg 1979 (Z.to_nat (a - 1979))) as N1.
  pose proof (days_in_years_nonneg a (Z.to_nat (b + 1 - a))) as N2.
  pose proof (days_in_years_nonneg 1979 37) as N3.
  set (u := days_in_years 1979 (Z.to_nat (a - 1979))) in *. set (v := days_in_years a (Z.to_nat (b + 1 - a))) in *.
  set (w := days_in_years 1979 37) in *. clearbody u v w.
  eexists. split; [reflexivity|].
  assert (S : sok (a3t raw) (Some (u * 4, (u + v) * 4)%Z)) by (cbn [sok]; lia).
  destruct (slice3_spec raw (Some (u * 4, (u + v) * 4)%Z) None None Hw S I I) as (W & T & X & Y & P).
  cbn [srng fst snd] in *. split; auto. split; [rewrite T; lia|]. split; [lia|]. split; [lia|].
  intros [i j] s [Gi Gj] Es. cbn [fst snd] in *.
  rewrite slice3_series with (s := s); cbn [srng fst snd sok]; auto; try lia.
  f_equal. f_equal; [lia|]. f_equal. lia.
Qed.

Lemma computed_ok garbage fs raw a b spd : valid_years a b -> fs RAW_DATASET = Some (Hdf5 raw) -> raw_dataset raw ->
  (spd = 1 \/ spd = 4)%Z ->
  exists d, computed garbage fs a b spd = Ok d /\ interval_of raw a b spd d.
Proof.
  intros Hv Hfs Hr Hs. destruct (read_ok fs raw a b Hv Hfs Hr) as (d & E & W & T & X & Y & P).
  set (before := Z.to_nat (days_in_years 1979 (Z.to_nat (a - 1979)))) in *.
  set (days := Z.to_nat (days_in_years a (Z.to_nat (b + 1 - a)))) in *.
  unfold computed. rewrite E. cbn [bind].
  assert (Q : forall pt, in_grid (a3x raw) (a3y raw) pt -> exists s, series3 raw (fst pt) (snd pt) = Ok s).
  { intros [i j] [Gi Gj]. destruct (series3_ok raw i j) as (s & Es & _); cbn [fst snd] in *; auto; try apply Hr. exists s; auto. }
  destruct Hs as [-> | ->]; cbn [Z.eqb Pos.eqb].
  - destruct (average_spec garbage d days W T) as (m & Em & Wm & Tm & Xm & Ym & Pm).
    exists m. split; auto. unfold interval_of. fold before days.
    split; auto. split; [lia|]. split; [congruence|]. split; [congruence|].
    intros pt G. destruct (Q pt G) as [s Es]. specialize (P pt s G Es).
    destruct (Pm pt) as (s1 & s2 & E1 & E2 & L & K). { rewrite X, Y; auto. }
    exists s, s2. split; auto. split; auto. split; [lia|]. intros _. split; auto.
    intros k Hk. rewrite K by auto. assert (s1 = firstn (4 * days) (skipn (4 * before) s)) by congruence. subst s1.
    f_equal. f_equal. rewrite skipn_firstn_comm, firstn_firstn, skipn_skipn'. f_equal; [lia|]. f_equal. lia.
  - exists d. split; auto. unfold interval_of. fold before days. split; auto. split; [lia|]. split; auto. split; auto.
    intros pt G. destruct (Q pt G) as [s Es]. exists s, (firstn (4 * days) (skipn (4 * before) s)).
    split; auto. split; auto. split; auto. lia.
Qed.

Lemma interval_unique raw a b spd d d' : (spd = 1 \/ spd = 4)%Z ->
  interval_of raw a b spd d -> interval_of raw a b spd d' -> d = d'.
Proof.
  intros Hs (W & T & X & Y & P) (W' & T' & X' & Y' & P').
  apply series3_ext; auto; try congruence. intros i j Hi Hj.
  destruct (P (i, j)) as (s & s1 & E & E1 & F4 & F1). { rewrite <- X, <- Y. split; auto. }
  destruct (P' (i, j)) as (t & s2 & E' & E2 & F4' & F1'). { rewrite <- X, <- Y. split; auto. }
  cbn [fst snd] in *. assert (t = s) by congruence. subst t. rewrite E1, E2. f_equal.
  destruct Hs as [-> | ->].
  - destruct F1 as [L1 K1]; auto. destruct F1' as [L2 K2]; auto. apply list_ext_len; [congruence|].
    intros k Hk. rewrite K1, K2 by congruence. reflexivity.
  - rewrite F4, F4' by auto. reflexivity.
Qed.

(* ---------- requests ---------- *)
Lemma spd_ok spd : (spd = 1 \/ spd = 4)%Z <-> negb ((spd =? 1) || (spd =? 4))%Z%bool = false.
Proof. destruct (Z.eqb_spec spd 1), (Z.eqb_spec spd 4); cbn; split; intros; try lia; auto; discriminate. Qed.

Lemma retrieve_eq garbage fs a b spd name : (spd = 1 \/ spd = 4)%Z ->
  retrieve_dataset_interval garbage fs a b spd name =
  match try_load_dataset_interval fs name a b spd with
  | Some d => (fs, Ok d)
  | None => match computed garbage fs a b spd with
            | Raise e => (fs, Raise e)
            | Ok d => (save_dataset_interval fs d name a b spd, Ok d)
            end
  end.
Proof. intros H. apply spd_ok in H. unfold retrieve_dataset_interval. rewrite H. reflexivity. Qed.
Lemma retrieve_bad_spd garbage fs a b spd name : spd <> 1%Z -> spd <> 4%Z ->
  retrieve_dataset_interval garbage fs a b spd name = (fs, Raise AssertionError).
Proof.
  intros H1 H4. unfold retrieve_dataset_interval. replace ((spd =? 1) || (spd =? 4))%Z%bool with false by lia. reflexivity.
Qed.

Lemma put_same fs p f : dfs_put fs p f p = f.
Proof. unfold dfs_put. rewrite String.eqb_refl. reflexivity. Qed.
Lemma put_other fs p f q : q <> p -> dfs_put fs p f q = fs q.
Proof. intros H. unfold dfs_put. apply String.eqb_neq in H. rewrite H. reflexivity. Qed.

(** the dataset is in place, and every cache file that can be loaded holds its interval *)
Definition dinv (fs : dfs) (raw : arr3 fnum) : Prop :=
  fs RAW_DATASET = Some (Hdf5 raw) /\
  forall name a b spd d, (spd = 1 \/ spd = 4)%Z -> fs (FORMAT_BY_YEAR name a b spd) = Some (Npy d) ->
    valid_years a b /\ interval_of raw a b spd d.

Lemma dinv_put fs raw p f : dinv fs raw -> p <> RAW_DATASET ->
  (forall name a b spd d, p = FORMAT_BY_YEAR name a b spd -> (spd = 1 \/ spd = 4)%Z -> f = Some (Npy d) ->
     valid_years a b /\ interval_of raw a b spd d) -> dinv (dfs_put fs p f) raw.
Proof.
  intros [H1 H2] Hp Hf. split; [rewrite put_other; auto|].
  intros name a b spd d Hs. unfold dfs_put. destruct (String.eqb_spec (FORMAT_BY_YEAR name a b spd) p) as [E|E]; [|apply H2; auto].
  intros Hd. apply (Hf name a b spd d); auto.
Qed.

Lemma computed_bad_years garbage fs a b spd : ~ valid_years a b -> computed garbage fs a b spd = Raise ValueError.
Proof.
  intros H. unfold computed, read_hdf5_dataset_by_year, DATASET_YEAR_START, DATASET_YEAR_END.
  unfold valid_years in H. replace ((b <? a) || (a <? 1979) || (2015 <? b))%Z%bool with true by lia. reflexivity.
Qed.
Lemma valid_years_dec a b : valid_years a b \/ ~ valid_years a b.
Proof. unfold valid_years. lia. Qed.

Lemma dinv_request fs raw garbage a b spd name : raw_dataset raw -> dinv fs raw -> (spd = 1 \/ spd = 4)%Z ->
  dinv (fst (retrieve_dataset_interval garbage fs a b spd name)) raw /\
  (valid_years a b -> exists d, snd (retrieve_dataset_interval garbage fs a b spd name) = Ok d /\ interval_of raw a b spd d) /\
  (~ valid_years a b -> retrieve_dataset_interval garbage fs a b spd name = (fs, Raise ValueError)).
Proof.
  intros Hr Hi Hs. rewrite retrieve_eq by auto. unfold try_load_dataset_interval.
  destruct Hi as [Hi1 Hi2].
  assert (C : (exists d, fs (FORMAT_BY_YEAR name a b spd) = Some (Npy d)) \/
              match fs (FORMAT_BY_YEAR name a b spd) with Some (Npy d) => Some d | _ => None end = None).
  { destruct (fs (FORMAT_BY_YEAR name a b spd)) as [[r|d|]|]; eauto. }
  destruct C as [[d E]|E].
  - rewrite E. cbn [fst snd]. destruct (Hi2 _ _ _ _ _ Hs E) as [V Q].
    split; [split; auto|]. split; [eauto|]. tauto.
  - rewrite E. destruct (valid_years_dec a b) as [V|V].
    + destruct (computed_ok garbage fs raw a b spd V Hi1 Hr Hs) as (d & Ed & Q). rewrite Ed. cbn [fst snd].
      split; [|split; [eauto|tauto]]. unfold save_dataset_interval. apply dinv_put; [split; auto|apply format_not_raw|].
      intros name' a' b' spd' d' Hp Hs' Hd. apply format_inj in Hp. destruct Hp as (-> & -> & -> & ->).
      injection Hd as <-. auto.
    + rewrite computed_bad_years by auto. cbn [fst snd]. split; [split; auto|]. split; [tauto|auto].
Qed.

Lemma dinv_exec fs raw o : raw_dataset raw -> dinv fs raw -> dallowed o -> dinv (dexec fs o) raw.
Proof.
  intros Hr Hi Ha. destruct o as [g a b spd name|g a b spd name|p|p|p f]; cbn [dexec dallowed] in *.
  - destruct (Z.eq_dec spd 1) as [->|H1]; [apply dinv_request; auto|].
    destruct (Z.eq_dec spd 4) as [->|H4]; [apply dinv_request; auto|]. rewrite retrieve_bad_spd by auto. exact Hi.
  - destruct (try_load_dataset_interval fs name a b spd); [exact Hi|].
    destruct (snd (retrieve_dataset_interval g fs a b spd name)); [|exact Hi].
    apply dinv_put; auto using format_not_raw. intros; discriminate.
  - apply dinv_put; auto. intros; discriminate.
  - apply dinv_put; auto. intros; discriminate.
  - destruct Ha as [Ha1 Ha2]. apply dinv_put; auto. intros name a b spd d Hp. exfalso. eapply Ha2; eauto.
Qed.
Lemma dinv_history os fs raw : raw_dataset raw -> dinv fs raw -> Forall dallowed os -> dinv (fold_left dexec os fs) raw.
Proof.
  intros Hr. revert fs. induction os as [|o os IH]; intros fs Hi Ha; cbn [fold_left]; auto.
  inversion Ha; subst. apply IH; auto. apply dinv_exec; auto.
Qed.
Lemma dinv_delivered fs raw : delivered fs raw -> dinv fs raw.
Proof. intros [H1 H2]. split; auto. intros name a b spd d _ E. rewrite H2 in E. discriminate. Qed.

(* ---------- regions created from metadata ---------- *)
Lemma fmean_no_inf l : no_inf l -> is_inf (fmean l) = false.
Proof.
  intros H.
  assert (G : forall l acc, no_inf l -> is_inf acc = false -> is_inf (fold_left fadd l acc) = false).
  { clear. induction l as [|v l IH]; intros acc Hl Ha; cbn [fold_left]; auto. apply IH.
    - intros w Hw. apply Hl. right; auto.
    - pose proof (Hl v (or_introl eq_refl)) as Hv. destruct acc, v; cbn in *; auto; discriminate. }
  destruct l as [|x l]; [reflexivity|].
  specialize (G (x :: l) (Fin 0) H eq_refl). unfold fmean, fsum. destruct (fold_left fadd (x :: l) (Fin 0)); try discriminate G; auto.
Qed.

Lemma data_in_series {A} (d : arr3 A) v : wf3 d -> In v (a3d d) ->
  exists pt s, in_grid (a3x d) (a3y d) pt /\ series3 d (fst pt) (snd pt) = Ok s /\ In v s.
Proof.
  intros Hw Hv. apply In_nth_error in Hv. destruct Hv as [n Hn].
  assert (L : n < a3t d * a3x d * a3y d). { rewrite <- Hw. apply nth_error_Some. congruence. }
  assert (Hy : a3y d <> 0) by (intros E; rewrite E in L; lia).
  set (j := n mod a3y d). set (m := n / a3y d).
  assert (Em : n = m * a3y d + j) by (unfold m, j; rewrite Nat.mul_comm; apply Nat.div_mod; auto).
  assert (Hj : j < a3y d) by (apply Nat.mod_upper_bound; auto).
  assert (Hm : m < a3t d * a3x d) by (apply Nat.div_lt_upper_bound; auto; lia).
  assert (Hx : a3x d <> 0) by (intros E; rewrite E in Hm; lia).
  set (i := m mod a3x d). set (t := m / a3x d).
  assert (Et : m = t * a3x d + i) by (unfold t, i; rewrite Nat.mul_comm; apply Nat.div_mod; auto).
  assert (Hi : i < a3x d) by (apply Nat.mod_upper_bound; auto).
  assert (Ht : t < a3t d) by (apply Nat.div_lt_upper_bound; auto; lia).
  clearbody j m i t.
  destruct (series3_ok d (Z.of_nat i) (Z.of_nat j)) as (s & Es & Ls & Ps); auto; try lia.
  exists (Z.of_nat i, Z.of_nat j), s. split; [split; cbn [fst snd]; lia|]. split; auto.
  apply (nth_error_In _ t). rewrite Ps by auto. rewrite !Nat2Z.id. unfold at3. rewrite <- Et, <- Em. exact Hn.
Qed.

Lemma in_firstn_skipn {A} (v : A) n m s : In v (firstn n (skipn m s)) -> In v s.
Proof.
  intros H. rewrite <- (firstn_skipn m s). apply in_or_app. right.
  rewrite <- (firstn_skipn n (skipn m s)). apply in_or_app. left. exact H.
Qed.

Lemma interval_no_inf raw a b spd d : wf3 raw -> (spd = 1 \/ spd = 4)%Z -> interval_of raw a b spd d -> no_inf (a3d raw) -> no_inf (a3d d).
Proof.
  intros Hw Hs (W & T & X & Y & P) Hn v Hv. destruct (data_in_series d v W Hv) as (pt & s & G & Es & Iv).
  rewrite X, Y in G. destruct (P pt G) as (s0 & s' & E0 & E' & F4 & F1). assert (s' = s) by congruence. subst s'.
  assert (N : no_inf s0) by (intros w Hw'; apply Hn; eapply series_in_data; eauto).
  destruct Hs as [-> | ->].
  - destruct F1 as [L K]; auto. apply In_nth_error in Iv. destruct Iv as [k Hk].
    rewrite K in Hk. 2:{ rewrite <- L. apply nth_error_Some. congruence. }
    assert (E : forall u w : fnum, Some u = Some w -> w = u) by congruence. rewrite (E _ _ Hk). apply fmean_no_inf. intros w Iw. apply N. exact (in_firstn_skipn _ _ _ _ Iw).
  - rewrite F4 in Iv by auto. apply N. exact (in_firstn_skipn _ _ _ _ Iv).
Qed.

Lemma interval_pos raw a b spd d : (spd = 1 \/ spd = 4)%Z -> valid_years a b -> interval_of raw a b spd d -> 0 < a3t d.
Proof.
  intros Hs (H1 & H2 & H3) (W & T & _). rewrite T.
  replace (Z.to_nat (b + 1 - a)) with (S (Z.to_nat (b - a))) by lia. cbn [days_in_years].
  pose proof (days_in_year_pos a). pose proof (days_in_years_nonneg (a + 1) (Z.to_nat (b - a))).
  assert (0 < Z.to_nat (days_in_year a + days_in_years (a + 1) (Z.to_nat (b - a)))) by lia.
  apply Nat.mul_pos_pos; auto. lia.
Qed.

Lemma create_instance_eq garbage fs m : (rm_spd m = 1 \/ rm_spd m = 4)%Z ->
  snd (create_instance garbage fs m) =
  (d <- snd (retrieve_dataset_interval garbage fs (rm_start m) (rm_end m) (rm_spd m) DATASET_NAME) ;;
   r <- t_region_subset (TPlain d) (rm_region m) ;;
   if rm_scaled m then scale_apply_to (t_x r) (t_y r) r (t_len r) else Ok r).
Proof.
  intros H. apply spd_ok in H. unfold create_instance. rewrite H.
  destruct (retrieve_dataset_interval garbage fs (rm_start m) (rm_end m) (rm_spd m) DATASET_NAME). reflexivity.
Qed.

Lemma create_plain garbage fs raw m d : raw_dataset raw -> dinv fs raw -> (rm_spd m = 1 \/ rm_spd m = 4)%Z ->
  valid_years (rm_start m) (rm_end m) -> rect_in (rm_region m) (a3x raw) (a3y raw) ->
  interval_of raw (rm_start m) (rm_end m) (rm_spd m) d ->
  exists c, t_region_subset (TPlain d) (rm_region m) = Ok (TPlain c) /\
    snd (create_instance garbage fs m) = (if rm_scaled m then scale_apply_to (a3x c) (a3y c) (TPlain c) (a3t c) else Ok (TPlain c)) /\
    wf3 c /\ a3t c = a3t d /\ Z.of_nat (a3x c) = (x2 (rm_region m) - x1 (rm_region m))%Z /\
    Z.of_nat (a3y c) = (y2 (rm_region m) - y1 (rm_region m))%Z /\
    forall i j, (0 <= i < x2 (rm_region m) - x1 (rm_region m))%Z -> (0 <= j < y2 (rm_region m) - y1 (rm_region m))%Z ->
      series3 c i j = series3 d (x1 (rm_region m) + i) (y1 (rm_region m) + j).
Proof.
  intros Hr Hi Hs Hv Hg Hd. rewrite create_instance_eq by auto.
  destruct (dinv_request fs raw garbage (rm_start m) (rm_end m) (rm_spd m) DATASET_NAME Hr Hi Hs) as (_ & Q & _).
  destruct (Q Hv) as (d' & E & Hd'). assert (d' = d) by (eapply interval_unique; eauto). subst d'.
  rewrite E. cbn [bind]. pose proof Hd as (W & T & X & Y & _).
  destruct (region_subset_plain d (rm_region m) W) as (c & Ec & Wc & Tc & Xc & Yc & Pc).
  { rewrite X, Y. exact Hg. }
  exists c. rewrite Ec. cbn [bind t_x t_y t_len t_data]. repeat (split; [solve [auto]|]).
  intros i j Gi Gj. apply (Pc i j Gi Gj).
Qed.
