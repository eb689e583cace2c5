(** Properties C35-C40 and C69: clustering metadata, suites, elbows, silhouette analysis. *)
From Coq Require Import ZifyBool ZifyNat QArith Lqa Field Qfield.
From Verif Require Import Base.Py Base.PyFacts Base.Str Base.StrFacts Base.Dict Base.DictFacts Base.Float Base.FloatFacts
  Model.Region Model.Clustering Spec.Grid Spec.Clustering Proofs.RegionFacts Proofs.ClusteringFacts Proofs.ElbowFacts.
Local Close Scope Q_scope.
Local Open Scope nat_scope.
Local Notation length := List.length.

(* ---------------------------------------------------------------- C35 *)
(** Reading back the representation of k-medoids metadata recovers k, seed and mode for every k and seed (negative
    ones included) and every mode without '_'; everything else takes the constructor's default, so initial medoids
    are lost. *)
Theorem C35_kmedoids_round_trip : forall m, has_char "_" (km_mode m) = false ->
  exists m', factory_from_repr (c_repr (CKmedoids m)) = Ok (CKmedoids m') /\
    km_k m' = km_k m /\ km_seed m' = km_seed m /\ km_mode m' = km_mode m /\ km_init m' = None /\
    c_eqb (CKmedoids m) (CKmedoids m') = true /\ (km_init m = None -> c_repr (CKmedoids m') = c_repr (CKmedoids m)).
Proof.
  intros m H. exists (kmeta_default (km_k m) (km_seed m) (km_mode m)). cbn [km_k km_seed km_mode km_init kmeta_default].
  split; [|repeat split].
  - unfold factory_from_repr. cbn [c_repr]. rewrite kmeta_split by auto. rewrite kmeta_round_trip by auto. reflexivity.
  - unfold c_eqb. cbn. rewrite Z.eqb_refl. auto.
  - intros E. cbn. unfold kmeta_repr. rewrite E. reflexivity.
Qed.
Print Assumptions C35_kmedoids_round_trip.

Theorem C35_regular_round_trip : forall k, factory_from_repr (c_repr (CRegular k)) = Ok (CRegular k).
Proof.
  intros k. unfold factory_from_repr. rewrite regular_split. change 0%Z with (Z.of_nat 0). rewrite getitem_cons_nat. cbn [nth_error bind].
  rewrite String.eqb_refl. apply regular_round_trip.
Qed.
Print Assumptions C35_regular_round_trip.

(** The label k-seed-index of a medoid recovers the metadata with that k and seed. *)
Theorem C35_classifier_label_round_trip : forall k seed index md,
  (0 <= k)%Z -> (0 <= seed)%Z -> (0 <= index)%Z -> has_char "_" md = false ->
  exists m, kmeta_from_classifier_label (classifier_label k seed index) md = Ok m /\
    km_k m = k /\ km_seed m = seed /\ km_mode m = md /\ km_init m = None.
Proof.
  intros k seed ci md Hk Hs Hc Hm. exists (kmeta_default k seed md). rewrite label_round_trip by auto. repeat split.
Qed.
Print Assumptions C35_classifier_label_round_trip.

(** A representation of anything else is refused. *)
Theorem C35_other_representation_refused : forall s p rest,
  split "_" s = p :: rest -> p <> "regular"%string -> p <> "kmedoids"%string -> factory_from_repr s = Raise ValueError.
Proof.
  intros s p rest H H1 H2. unfold factory_from_repr. rewrite H. change 0%Z with (Z.of_nat 0). rewrite getitem_cons_nat. cbn [nth_error bind].
  apply String.eqb_neq in H1. apply String.eqb_neq in H2. rewrite H1, H2. reflexivity.
Qed.
Print Assumptions C35_other_representation_refused.

(** A label with a negative seed has four parts and is refused. *)
Theorem C35_negative_seed_label_refused : forall k seed index md,
  (0 <= k)%Z -> (seed < 0)%Z -> (0 <= index)%Z ->
  kmeta_from_classifier_label (classifier_label k seed index) md = Raise AssertionError.
Proof.
  intros k seed ci md Hk Hs Hc. unfold kmeta_from_classifier_label, classifier_label.
  destruct (str_int_cases seed) as [[? _]|[_ (s & Es & Hd & _)]]; [lia|].
  replace (split "-" (join "-" [str_int k; str_int seed; str_int ci])) with [str_int k; ""%string; s; str_int ci]; [reflexivity|].
  rewrite <- (split_join "-" [str_int k; ""%string; s; str_int ci]).
  - f_equal. cbn [join]. rewrite Es. reflexivity.
  - discriminate.
  - intros x [<-|[<-|[<-|[<-|[]]]]]; auto using str_int_no_dash. apply digits_no_char; auto.
Qed.
Print Assumptions C35_negative_seed_label_refused.

Example C35_example :
  c_repr (CKmedoids (kmeta_default 13 (-7) "lite")) = "kmedoids_k13_seed-7_lite"%string /\
  factory_from_repr "kmedoids_k13_seed-7_lite" = Ok (CKmedoids (kmeta_default 13 (-7) "lite")) /\
  c_repr (CKmedoids (KMeta 3 1 "lite" (Some [4; 0; 12]%Z) 10 (Fin 0) false)) = "kmedoids_k3_seed1_lite_im4-0-12"%string /\
  factory_from_repr "kmedoids_k3_seed1_lite_im4-0-12" = Ok (CKmedoids (kmeta_default 3 1 "lite")) /\
  kmeta_from_classifier_label "13-0-6" "lite" = Ok (kmeta_default 13 0 "lite") /\
  factory_from_repr "dbscan_k3" = Raise ValueError /\
  factory_from_repr "kmedoids_k3" = Raise IndexError.
Proof. vm_compute. repeat split. Qed.

(* ---------------------------------------------------------------- C36 *)
Lemma ends_slash_app a b : b <> ""%string -> ends_with_slash (a ++ b) = ends_with_slash b.
Proof.
  intros H. induction a as [|c a IH]; auto. cbn [String.append ends_with_slash]. destruct (a ++ b)%string eqn:E; [|auto].
  destruct a; [cbn in E; congruence|discriminate].
Qed.
Lemma no_slash_end s : has_char "/" s = false -> ends_with_slash s = false.
Proof.
  induction s as [|c s IH]; auto. cbn [has_char ends_with_slash]. intros H. apply orb_false_iff in H. destruct H as [H1 H2].
  destruct s; auto.
Qed.
Lemma path_join_plain a b : a <> ""%string -> ends_with_slash a = false -> b <> ""%string ->
  (forall s, b <> String "/" s) -> path_join a b = (a ++ "/" ++ b)%string.
Proof.
  intros Ha He Hb Hs. unfold path_join. destruct b as [|c b]; [congruence|].
  destruct (Ascii.eqb_spec c "/"); [subst; exfalso; eapply Hs; eauto|].
  apply String.eqb_neq in Ha. rewrite Ha, He. reflexivity.
Qed.
Lemma no_slash_start s : has_char "/" s = false -> forall r, s <> String "/" r.
Proof. intros H r ->. cbn in H. discriminate. Qed.
Lemma app_nonempty_l a b : a <> ""%string -> (a ++ b)%string <> ""%string.
Proof. destruct a; cbn; congruence. Qed.
Lemma app_nonempty_r a b : b <> ""%string -> (a ++ b)%string <> ""%string.
Proof. destruct a; cbn; congruence. Qed.

Definition mode_of (c : cmeta) : string := match c with CRegular _ => ""%string | CKmedoids m => km_mode m end.
Definition init_of (c : cmeta) : option (list Z) := match c with CRegular _ => None | CKmedoids m => km_init m end.

Lemma c_repr_no_slash c : has_char "/" (mode_of c) = false -> has_char "/" (c_repr c) = false.
Proof.
  destruct c as [k|m]; cbn [mode_of c_repr]; intros H.
  - rewrite !has_char_app. rewrite str_int_no_char by (auto; discriminate). auto.
  - rewrite kmeta_repr_join. apply join_no_char; auto. intros s Hs. unfold kmeta_parts in Hs. apply in_app_iff in Hs. destruct Hs as [Hs|Hs].
    + cbn [In] in Hs. destruct Hs as [<-|[<-|[<-|[<-|[]]]]]; auto; rewrite has_char_app, str_int_no_char by (auto; discriminate); auto.
    + destruct (km_init m); [|destruct Hs]. destruct Hs as [<-|[]]. rewrite has_char_app, join_no_char; auto.
      intros s Hs. apply in_map_iff in Hs. destruct Hs as (z & <- & _). apply str_int_no_char; auto; discriminate.
Qed.
Lemma c_repr_nonempty c : c_repr c <> ""%string.
Proof. destruct c; cbn; [discriminate|]. unfold kmeta_repr. destruct (km_init m); discriminate. Qed.
Lemma rmeta_repr_no_slash r : has_char "/" (rm_name r) = false -> has_char "/" (rmeta_repr r) = false.
Proof.
  intros H. unfold rmeta_repr. rewrite !has_char_app, H. rewrite !str_int_no_char by (auto; discriminate). destruct (rm_scaled r); auto.
Qed.
Lemma rmeta_repr_nonempty r : rmeta_repr r <> ""%string.
Proof. unfold rmeta_repr. apply app_nonempty_r. discriminate. Qed.

Lemma path_components c r d : has_char "/" (mode_of c) = false -> has_char "/" (rm_name r) = false -> has_char "/" d = false -> d <> ""%string ->
  split "/" (pickle_full_path c r d) = ["pickle"%string; rmeta_repr r; d; c_repr c; ("partition_" ++ c_repr c ++ ".pkl")%string].
Proof.
  intros Hc Hr Hd Hne. pose proof (c_repr_no_slash c Hc) as Cs. pose proof (rmeta_repr_no_slash r Hr) as Rs.
  pose proof (c_repr_nonempty c) as Cn. pose proof (rmeta_repr_nonempty r) as Rn.
  unfold pickle_full_path, clustering_pickle_dir, clustering_subdir, region_pickle_dir.
  rewrite (path_join_plain "pickle" (rmeta_repr r)) by (auto using no_slash_start; discriminate).
  rewrite (path_join_plain d (c_repr c)) by auto using no_slash_start, no_slash_end.
  rewrite (path_join_plain ("pickle" ++ "/" ++ rmeta_repr r) (d ++ "/" ++ c_repr c)).
  - rewrite path_join_plain.
    + rewrite !sapp_assoc.
      change ("pickle" ++ "/" ++ rmeta_repr r ++ "/" ++ d ++ "/" ++ c_repr c ++ "/" ++ "partition_" ++ c_repr c ++ ".pkl")%string
        with (join "/" ["pickle"; rmeta_repr r; d; c_repr c; "partition_" ++ c_repr c ++ ".pkl"])%string.
      apply split_join; [discriminate|]. intros s [<-|[<-|[<-|[<-|[<-|[]]]]]]; auto. rewrite !has_char_app, Cs. auto.
    + discriminate.
    + rewrite !ends_slash_app; auto using no_slash_end; try discriminate; auto using app_nonempty_l, app_nonempty_r.
      all: apply app_nonempty_r; apply app_nonempty_r; auto.
    + discriminate.
    + intros s E. discriminate.
  - discriminate.
  - rewrite !ends_slash_app; auto using no_slash_end; discriminate.
  - apply app_nonempty_l; auto.
  - intros s E. destruct d; [congruence|]. cbn in E. injection E as -> _. cbn in Hd. discriminate.
Qed.

Lemma rmeta_repr_inj r r' : rmeta_repr r = rmeta_repr r' ->
  rm_name r = rm_name r' /\ rm_start r = rm_start r' /\ rm_end r = rm_end r' /\ rm_spd r = rm_spd r' /\ rm_scaled r = rm_scaled r'.
Proof.
  unfold rmeta_repr.
  assert (N : forall n, has_char "_" (str_int n) = false) by (intros; apply str_int_no_char; auto; discriminate).
  assert (NS : forall n, has_char "_" (str_int n ++ "spd") = false) by (intros; rewrite has_char_app, N; auto).
  assert (B : forall a b, (rm_name a ++ "_" ++ str_int (rm_start a) ++ "_" ++ str_int (rm_end a) ++ "_" ++ str_int (rm_spd a) ++ "spd" ++ b)%string =
    ((((rm_name a ++ String "_" (str_int (rm_start a))) ++ String "_" (str_int (rm_end a))) ++ String "_" (str_int (rm_spd a) ++ "spd")) ++ b)%string).
  { intros a b. repeat (rewrite sapp_assoc; cbn [String.append]). reflexivity. }
  rewrite !B. intros E.
  assert (F : rm_scaled r = rm_scaled r' /\
     (((rm_name r ++ String "_" (str_int (rm_start r))) ++ String "_" (str_int (rm_end r))) ++ String "_" (str_int (rm_spd r) ++ "spd") =
      ((rm_name r' ++ String "_" (str_int (rm_start r'))) ++ String "_" (str_int (rm_end r'))) ++ String "_" (str_int (rm_spd r') ++ "spd"))%string).
  { assert (X : forall n, (str_int n ++ "spd")%string <> "scaled"%string).
    { intros n En. assert (Hc : has_char "c" (str_int n ++ "spd") = has_char "c" "scaled") by congruence.
      rewrite has_char_app, str_int_no_char in Hc by (auto; discriminate). discriminate. }
    destruct (rm_scaled r), (rm_scaled r'); rewrite ?sapp_nil_r in E.
    - split; auto. apply sapp_inj_r in E. auto.
    - exfalso. apply cut_last in E; auto. destruct E as [_ E]. symmetry in E. eapply X; eauto.
    - exfalso. apply cut_last in E; auto. destruct E as [_ E]. eapply X; eauto.
    - auto. }
  destruct F as [F1 F2]. apply cut_last in F2; auto. destruct F2 as [F2 F3]. apply sapp_inj_r in F3. apply str_int_inj in F3.
  apply cut_last in F2; auto. destruct F2 as [F2 F4]. apply str_int_inj in F4.
  apply cut_last in F2; auto. destruct F2 as [F2 F5]. apply str_int_inj in F5. auto.
Qed.

(** Two configurations with the same cache path agree in the region name, years, samples per day and scaling, the
    distance measure, the algorithm, k, seed, mode and initial medoids. *)
Theorem C36_key_identifies_partially : forall c r d c' r' d',
  has_char "/" (mode_of c) = false -> has_char "/" (mode_of c') = false ->
  has_char "_" (mode_of c) = false -> has_char "_" (mode_of c') = false ->
  (forall l i, init_of c = Some l \/ init_of c' = Some l -> In i l -> (0 <= i)%Z) ->
  has_char "/" (rm_name r) = false -> has_char "/" (rm_name r') = false ->
  has_char "/" d = false -> has_char "/" d' = false -> d <> ""%string -> d' <> ""%string ->
  pickle_full_path c r d = pickle_full_path c' r' d' ->
  (rm_name r = rm_name r' /\ rm_start r = rm_start r' /\ rm_end r = rm_end r' /\ rm_spd r = rm_spd r' /\ rm_scaled r = rm_scaled r') /\
  d = d' /\ c_name c = c_name c' /\ c_k c = c_k c' /\ c_seed c = c_seed c' /\ mode_of c = mode_of c' /\ init_of c = init_of c'.
Proof.
  intros c r d c' r' d' Hc Hc' Hu Hu' Hi Hr Hr' Hd Hd' Hn Hn' E.
  assert (S : split "/" (pickle_full_path c r d) = split "/" (pickle_full_path c' r' d')) by congruence.
  rewrite !path_components in S by auto. injection S as S1 S2 S3 _.
  split; [apply rmeta_repr_inj; auto|]. split; auto.
  destruct (c_repr_inj c c') as (E1 & E2 & E3 & E4); auto.
  - intros m [-> | ->]; cbn [mode_of init_of] in *; split; auto; intros; eapply Hi; eauto.
  - repeat split; auto.
    + destruct c, c'; cbn in *; auto; try discriminate. eapply E4; eauto.
    + destruct c, c'; cbn in *; auto; try discriminate. eapply E4; eauto.
Qed.
Print Assumptions C36_key_identifies_partially.

(** But the iteration bound, the tolerance and the coordinates of the region are not part of it: configurations
    that differ in all of them share one cache entry. *)
Theorem C36_keys_injective_refuted : exists m m' r r' d,
  km_max_iter m <> km_max_iter m' /\ km_tol m <> km_tol m' /\ rm_region r <> rm_region r' /\
  pickle_full_path (CKmedoids m) r d = pickle_full_path (CKmedoids m') r' d.
Proof.
  exists (KMeta 4 1 "lite" None 1000 (Fin (1 # 1000)) true), (KMeta 4 1 "lite" None 1 (Fin 5) true),
    (RMeta "nordeste" (Rect 40 50 80 90) 2015 2016 1 true "raw"), (RMeta "nordeste" (Rect 0 10 20 30) 2015 2016 1 true "raw"), "dtw"%string.
  repeat split; try discriminate.
Qed.
Print Assumptions C36_keys_injective_refuted.

(** and this for every configuration *)
Theorem C36_key_ignores_parameters : forall m max_iter tol verbose r region d,
  pickle_full_path (CKmedoids (KMeta (km_k m) (km_seed m) (km_mode m) (km_init m) max_iter tol verbose))
                   (RMeta (rm_name r) region (rm_start r) (rm_end r) (rm_spd r) (rm_scaled r) (rm_dataset_dir r)) d =
  pickle_full_path (CKmedoids m) r d.
Proof. reflexivity. Qed.
Print Assumptions C36_key_ignores_parameters.

Example C36_example :
  pickle_full_path (CKmedoids (kmeta_default 4 1 "lite")) (RMeta "nordeste_small" (Rect 40 50 80 90) 2015 2016 1 true "raw") "dtw" =
  "pickle/nordeste_small_2015_2016_1spd_scaled/dtw/kmedoids_k4_seed1_lite/partition_kmedoids_k4_seed1_lite.pkl"%string.
Proof. reflexivity. Qed.

(* ---------------------------------------------------------------- C37 *)
(** the k-medoids metadata with given k, seed and further parameters *)
Definition kmedoids_of (ps : kparams) (ksd : Z * Z) : cmeta :=
  CKmedoids (KMeta (fst ksd) (snd ksd) (kp_mode ps) (kp_init ps) (kp_max_iter ps) (kp_tol ps) (kp_verbose ps)).

Lemma pairs_kmk ps ks seeds : map (kmedoids_of ps) (pairs ks seeds) = flat_map (fun k => map (kmk ps k) seeds) ks.
Proof.
  unfold pairs. induction ks as [|k l IH]; auto. cbn [flat_map]. rewrite map_app, IH, map_map. reflexivity.
Qed.

Theorem C37_suite_is_cartesian_product : forall ks seeds ps,
  suite_metadatas "kmedoids" ks (ManySeeds seeds) ps = Ok (map (kmedoids_of ps) (pairs ks seeds)) /\
  suite_metadatas "kmedoids" ks NoSeeds ps = Ok (map (kmedoids_of ps) (pairs ks [1%Z])) /\
  (forall s, suite_metadatas "kmedoids" ks (OneSeed s) ps = Ok (map (kmedoids_of ps) (pairs ks [s]))) /\
  suite_metadatas "regular" ks NoSeeds ps = Ok (map CRegular ks) /\
  length (pairs ks seeds) = length ks * length seeds /\
  (forall k s, In (k, s) (pairs ks seeds) <-> In k ks /\ In s seeds).
Proof.
  intros ks seeds ps. rewrite !pairs_kmk.
  assert (H : forall k s, factory_instance "kmedoids" k s ps = Ok (kmk ps k s)) by reflexivity.
  repeat split; try (intros; rewrite ?pairs_kmk; rewrite (suite_spec (kmk ps)) by auto; reflexivity).
  - rewrite (suite_spec (fun k _ => CRegular k)) by reflexivity. reflexivity.
  - unfold pairs. apply flat_map_const_length. intros; apply map_length.
  - unfold pairs in H0. apply in_flat_map in H0. destruct H0 as (k0 & Hk & H0). apply in_map_iff in H0. destruct H0 as (s0 & E & _).
    injection E as -> ->. auto.
  - unfold pairs in H0. apply in_flat_map in H0. destruct H0 as (k0 & Hk & H0). apply in_map_iff in H0. destruct H0 as (s0 & E & Hs).
    injection E as -> ->. auto.
  - intros [Hk Hs]. unfold pairs. apply in_flat_map. exists k. split; auto. apply in_map. auto.
Qed.
Print Assumptions C37_suite_is_cartesian_product.

Theorem C37_unknown_algorithm_refused : forall name k ks s seeds ps, name <> "regular"%string -> name <> "kmedoids"%string ->
  suite_metadatas name (k :: ks) (ManySeeds (s :: seeds)) ps = Raise ValueError.
Proof.
  intros name k ks s seeds ps H1 H2. apply String.eqb_neq in H1. apply String.eqb_neq in H2.
  eapply suite_bad_name; eauto; [left; auto|discriminate].
Qed.
Print Assumptions C37_unknown_algorithm_refused.

(** Organising a suite of k-medoids metadata: one entry per distinct seed, in order of first occurrence; its value
    holds exactly the metadata of that seed, ordered by k, ties in their original order. *)
Theorem C37_organised_by_seed : forall suite, (forall c, In c suite -> exists m, c = CKmedoids m) ->
  exists d, organize_kmedoids_suite suite = Ok d /\
    map fst d = distinct (map (fun c => match c with CKmedoids m => km_seed m | _ => 0%Z end) suite) /\
    forall seed l, In (seed, l) d ->
      Permutation l (filter (fun c => match c with CKmedoids m => (km_seed m =? seed)%Z | _ => false end) suite) /\
      nondecreasing (map c_k l) /\
      forall k, filter (fun c => (c_k c =? k)%Z) l =
                filter (fun c => (c_k c =? k)%Z) (filter (fun c => match c with CKmedoids m => (km_seed m =? seed)%Z | _ => false end) suite).
Proof.
  intros suite H. assert (HF : forallb is_km suite = true).
  { apply forallb_forall. intros c Hc. destruct (H c Hc) as (m & ->). auto. }
  eexists. split; [apply organize_spec; auto|]. split.
  - rewrite map_map. cbn. rewrite map_id. reflexivity.
  - intros seed l Hin. apply in_map_iff in Hin. destruct Hin as (s & E & _). injection E as -> <-.
    split; [apply sorted_by_k_perm|]. split; [apply sorted_by_k_sorted|]. intros k. apply sorted_by_k_stable.
Qed.
Print Assumptions C37_organised_by_seed.

Example C37_example :
  let ps := KParams "lite" None 1000 (Fin (1 # 1000)) true in
  let c k s := kmedoids_of ps (k, s) in
  suite_metadatas "kmedoids" [8; 2; 5]%Z (ManySeeds [1; 0]%Z) ps = Ok [c 8 1; c 8 0; c 2 1; c 2 0; c 5 1; c 5 0]%Z /\
  organize_kmedoids_suite [c 8 1; c 8 0; c 2 1; c 2 0; c 5 1; c 5 0]%Z = Ok [(1, [c 2 1; c 5 1; c 8 1]); (0, [c 2 0; c 5 0; c 8 0])]%Z.
Proof. vm_compute. split; reflexivity. Qed.

(* ---------------------------------------------------------------- C38 *)
(** The string of absolute medoids, as written for a clustering result, is read back as those points in order. *)
Theorem C38_medoid_string_round_trip : forall g indices,
  (y1 g < y2 g)%Z -> (forall i, In i indices -> (0 <= i)%Z) ->
  exists s, medoids_to_absolute_coordinates (Some g) indices = Ok s /\   parse_medoids s = Ok (map (fun i => (x1 g + i / (y2 g - y1 g), y1 g + i mod (y2 g - y1 g))%Z) indices).
Proof.
  intros g indices Hg Hi.
  set (pts := map _ indices). exists (medoids_string pts). split; [|apply parse_medoids_string].
  apply medoids_abs_string. unfold pts. apply mapM_ok. intros i Hin. unfold index_to_absolute_point.
  replace (y2 g - y1 g =? 0)%Z with false by lia. specialize (Hi i Hin). rewrite Z.quot_div_nonneg by lia.
  unfold absolute_position_of_point. cbn [fst snd]. do 2 f_equal; lia.
Qed.
Print Assumptions C38_medoid_string_round_trip.

(** The suite CSV: whatever the costs, the entry read for a representation is the medoid list of its last row. *)
Theorem C38_suite_csv_round_trip : forall rows,
  exists d, retrieve_suite_result (Some (suite_csv rows)) = Ok d /\
    (forall r, dict_get String.eqb r d =
       match find (fun row => (fst (fst row) =? r)%string) (rev rows) with Some row => Ok (snd row) | None => Raise KeyError end) /\
    (NoDup (map (fun row => fst (fst row)) rows) -> d = map (fun row => (fst (fst row), snd row)) rows).
Proof.
  intros rows. eexists. split; [apply retrieve_spec|]. split.
  - intros r. rewrite retrieve_lookup.
    replace (find (fun '(r', _, _) => (r' =? r)%string) (rev rows)) with (find (fun row : string * string * list point => (fst (fst row) =? r)%string) (rev rows)).
    + destruct (find _ _) as [[[? ?] ?]|]; auto.
    + induction (rev rows) as [|[[? ?] ?] l IH]; cbn; auto. destruct (_ =? _)%string; auto.
  - intros H. rewrite retrieve_distinct.
    + apply map_ext. intros [[? ?] ?]. auto.
    + erewrite map_ext; [exact H|]. intros [[? ?] ?]. auto.
Qed.
Print Assumptions C38_suite_csv_round_trip.

Theorem C38_missing_file : retrieve_suite_result None = Raise ValueError.
Proof. reflexivity. Qed.

Example C38_example :
  medoids_to_absolute_coordinates (Some (Rect 40 50 80 90)) [56; 7]%Z = Ok "(45,86) (40,87) "%string /\
  parse_medoids "(45,86) (40,87) " = Ok [(45, 86); (40, 87)]%Z /\
  retrieve_suite_result (Some (suite_csv [("kmedoids_k2_seed0_lite", "12.500", [(45, 86); (47, 91)]%Z); ("regular_k1", "3.000", [(-1, 0)%Z])]%string)) =
  Ok [("kmedoids_k2_seed0_lite"%string, [(45, 86); (47, 91)]%Z); ("regular_k1"%string, [(-1, 0)%Z])].
Proof. vm_compute. repeat split. Qed.

(* ---------------------------------------------------------------- C39 *)
(** [costs] gives metadata m the cost y *)
Definition cost_is (costs : list (cmeta * fnum)) (m : cmeta) (y : Q) : Prop := dict_get c_eqb m costs = Ok (Fin y).

Theorem C39_elbow_is_largest_curvature : forall costs ordered ys,
  length costs = length ordered -> 3 <= length ordered -> increasing (map c_k ordered) ->
  Forall2 (cost_is costs) ordered ys ->
  exists i m, find_cost_elbow_given_order costs ordered = Ok m /\ nth_error ordered i = Some m /\
              elbow_index (map c_k ordered) ys i.
Proof.
  intros costs ordered ys Hl H3 Hinc HC.
  destruct (elbow_find costs ordered ys Hl H3) as (i & m & E1 & E2 & E3).
  - unfold key_costs. clear - HC. induction HC; cbn; constructor; auto.
  - intros a b Hab. apply nodup_nth_neq; [apply increasing_nodup; auto|]. rewrite map_length. auto.
  - eauto.
Qed.
Print Assumptions C39_elbow_is_largest_curvature.

(** On costs that are a quadratic function of k, the formula is exact: every second derivative is 2a, and the
    first interior metadata is returned. *)
Theorem C39_exact_on_quadratics : forall costs ordered a b c m,
  length costs = length ordered -> 3 <= length ordered -> increasing (map c_k ordered) ->
  (forall x, In x ordered -> cost_is costs x (let k := inject_Z (c_k x) in a * k * k + b * k + c)%Q) ->
  nth_error ordered 1 = Some m ->
  find_cost_elbow_given_order costs ordered = Ok m /\
  (forall x1 x2 x3, x1 <> x2 -> x2 <> x3 -> x1 <> x3 -> exists d,
     second_derivative x1 x2 x3 (Fin (let k := inject_Z x1 in a * k * k + b * k + c))%Q (Fin (let k := inject_Z x2 in a * k * k + b * k + c))%Q
       (Fin (let k := inject_Z x3 in a * k * k + b * k + c))%Q = Ok (Fin d) /\ (d == 2 * a)%Q).
Proof.
  intros costs ordered a b c m Hl H3 Hinc HC Hm.
  set (f := fun k : Z => (a * inject_Z k * inject_Z k + b * inject_Z k + c)%Q).
  assert (CV : forall x1 x2 x3, x1 <> x2 -> x2 <> x3 -> x1 <> x3 ->
    (curvature (inject_Z x1) (inject_Z x2) (inject_Z x3) (f x1) (f x2) (f x3) == 2 * a)%Q).
  { intros x1 x2 x3 H12 H23 H13. unfold curvature, f. field. repeat split; apply inject_neq; auto. }
  split.
  - destruct (C39_elbow_is_largest_curvature costs ordered (map (fun x => f (c_k x)) ordered) Hl H3 Hinc) as (i & m' & E1 & E2 & E3).
    { clear - HC. induction ordered as [|x l IH]; cbn [map]; constructor; [apply HC; left; auto|]. apply IH. intros; apply HC. right; auto. }
    set (ks := map c_k ordered) in *.
    assert (Hk : length ks = length ordered) by apply map_length.
    assert (AT : forall j, 1 <= j -> j + 1 < length ks -> (curvature_at ks (map (fun x => f (c_k x)) ordered) j == 2 * a)%Q).
    { intros j H1 H2. unfold curvature_at.
      assert (NY : forall t, t < length ordered -> nth t (map (fun x => f (c_k x)) ordered) 0%Q = f (nth t ks 0%Z)).
      { intros t Ht. rewrite (nth_indep _ 0%Q (f 0%Z)) by (rewrite map_length; auto). unfold ks. rewrite <- (map_map c_k f). apply map_nth. }
      rewrite !NY by lia. apply CV; apply nodup_nth_neq; try (apply increasing_nodup; auto); lia. }
    assert (i = 1).
    { apply (elbow_index_unique _ _ _ _ E3). split; [lia|]. split; [lia|]. split.
      - intros j Hj1 Hj2. rewrite (AT j), (AT 1) by lia. apply Qle_refl.
      - intros j ? ?. lia. }
    subst i. rewrite E1. congruence.
  - intros x1 x2 x3 H12 H23 H13. destruct (second_derivative_fin x1 x2 x3 (f x1) (f x2) (f x3) H12 H23 H13) as (d & E & Ed).
    exists d. split; [exact E|]. rewrite Ed. apply CV; auto.
Qed.
Print Assumptions C39_exact_on_quadratics.

(** Errors: a cost table of another size, fewer than three metadata, a repeated k. *)
Theorem C39_size_mismatch : forall costs ordered, length costs <> length ordered \/ length costs < 3 ->
  find_cost_elbow_given_order costs ordered = Raise AssertionError.
Proof.
  intros costs ordered H. unfold find_cost_elbow_given_order. destruct (Nat.eqb_spec (length costs) (length ordered)); auto. cbn [py_assert bind].
  replace (3 <=? length costs) with false by lia. auto.
Qed.
Print Assumptions C39_size_mismatch.

Theorem C39_repeated_k : forall costs ordered ys i, length costs = length ordered -> 3 <= length ordered ->
  nondecreasing (map c_k ordered) -> Forall2 (fun m y => dict_get c_eqb m costs = Ok y) ordered ys ->
  i + 1 < length ordered -> nth i (map c_k ordered) 0%Z = nth (i + 1) (map c_k ordered) 0%Z ->
  find_cost_elbow_given_order costs ordered = Raise ZeroDivisionError.
Proof. intros costs ordered ys i Hl H3 Hn HC Hi He. eapply elbow_repeated; eauto. Qed.
Print Assumptions C39_repeated_k.

(** If every three consecutive costs include a NaN, no second derivative beats minus infinity and the last
    metadata, an end point, is returned. *)
Theorem C39_nan_costs_return_last : forall costs ordered ys m, length costs = length ordered -> 3 <= length ordered ->
  increasing (map c_k ordered) -> Forall2 (fun m y => dict_get c_eqb m costs = Ok y) ordered ys ->
  (forall i, 1 <= i -> i + 1 < length ordered -> exists j, i - 1 <= j <= i + 1 /\ nth_error ys j = Some NaN) ->
  nth_error ordered (length ordered - 1) = Some m ->
  find_cost_elbow_given_order costs ordered = Ok m.
Proof.
  intros costs ordered ys m Hl H3 Hinc HC HN Hm. eapply elbow_nan; eauto.
  - intros a b Hab. apply nodup_nth_neq; [apply increasing_nodup; auto|]. rewrite map_length. auto.
  - intros i H1 H2. destruct (HN i H1 H2) as (j & Hj & E). apply nth_error_nth with (d := NaN) in E.
    assert (C : j = i - 1 \/ j = i \/ j = i + 1) by lia. destruct C as [C|[C|C]]; subst j; rewrite E; cbn; rewrite ?orb_true_r; auto.
Qed.
Print Assumptions C39_nan_costs_return_last.

Example C39_example :
  let c k := CKmedoids (kmeta_default k 1 "lite") in
  let costs := [(c 2, Fin 40); (c 4, Fin 12); (c 5, Fin 9); (c 10, Fin 5)]%Z in
  find_cost_elbow_given_order costs [c 2; c 4; c 5; c 10]%Z = Ok (c 4%Z) /\
  (curvature_at [2; 4; 5; 10]%Z [40; 12; 9; 5]%Q 1 == 22 # 3)%Q /\ (curvature_at [2; 4; 5; 10]%Z [40; 12; 9; 5]%Q 2 == 11 # 15)%Q.
Proof. vm_compute. repeat split. Qed.

(* ---------------------------------------------------------------- C40 *)
(** Whatever the seeds, all of them get the k at the elbow of the costs of the LAST seed. *)
Theorem C40_elbows_use_last_seed : forall ps ks seeds last_seed cost (y : Z -> Q),
  increasing ks -> 3 <= length ks -> NoDup (seeds ++ [last_seed]) ->
  (forall k, In k ks -> cost (kmedoids_of ps (k, last_seed)) = Ok (Fin (y k))) ->
  exists i k, elbow_index ks (map y ks) i /\ nth_error ks i = Some k /\
    calculate_elbows cost (map (kmedoids_of ps) (pairs ks (seeds ++ [last_seed]))) =
    Ok (map (fun s => (s, kmedoids_of ps (k, s))) (seeds ++ [last_seed])).
Proof.
  intros ps ks seeds s cost y Hinc H3 Hs Hc.
  destruct (calculate_elbows_spec ps ks (seeds ++ [s]) cost y) as (i & k & E1 & E2 & E3); auto.
  - destruct seeds; discriminate.
  - intros k Hk. rewrite last_last. apply Hc; auto.
  - exists i, k. split; auto. split; auto. rewrite pairs_kmk. rewrite E3. reflexivity.
Qed.
Print Assumptions C40_elbows_use_last_seed.

(** With one seed this is the elbow of its own costs. *)
Theorem C40_single_seed_is_its_own_elbow : forall ps ks seed cost (y : Z -> Q),
  increasing ks -> 3 <= length ks ->
  (forall k, In k ks -> cost (kmedoids_of ps (k, seed)) = Ok (Fin (y k))) ->
  exists i k, elbow_index ks (map y ks) i /\ nth_error ks i = Some k /\
    calculate_elbows cost (map (kmedoids_of ps) (pairs ks [seed])) = Ok [(seed, kmedoids_of ps (k, seed))].
Proof.
  intros ps ks seed cost y Hinc H3 Hc. apply (C40_elbows_use_last_seed ps ks [] seed cost y Hinc H3); auto. constructor; auto. constructor.
Qed.
Print Assumptions C40_single_seed_is_its_own_elbow.

(** With two seeds it need not be: seed 0's own costs have their elbow at k = 3, but k = 4 is reported. *)
Theorem C40_own_seed_elbow_refuted : exists ps ks seeds (y : Z -> Z -> Q) d s m i,
  increasing ks /\ 3 <= length ks /\ NoDup seeds /\ In s seeds /\
  calculate_elbows (fun c => match c with CKmedoids m => Ok (Fin (y (km_k m) (km_seed m))) | CRegular _ => Raise ValueError end)
    (map (kmedoids_of ps) (pairs ks seeds)) = Ok d /\
  dict_get Z.eqb s d = Ok m /\ elbow_index ks (map (fun k => y k s) ks) i /\ nth_error ks i <> Some (c_k m).
Proof.
  exists (KParams "lite" None 1000 (Fin (1 # 1000)) true), [2; 3; 4; 5]%Z, [0; 1]%Z,
    (fun k s => if (s =? 0)%Z then nth (Z.to_nat k) [0; 0; 10; 4; 3; 5 # 2] 0 else nth (Z.to_nat k) [0; 0; 10; 9; 3; 29 # 10] 0)%Q.
  eexists. exists 0%Z. eexists. exists 1.
  split; [cbn; repeat split; intros; intuition lia|]. split; [cbn; lia|].
  split; [repeat constructor; cbn; intuition discriminate|]. split; [cbn; auto|].
  split; [vm_compute; reflexivity|]. split; [reflexivity|]. split.
  - split; [lia|]. split; [cbn; lia|]. split.
    + intros j H1 H2. cbn in H2. destruct j as [|[|[|j]]]; try lia; vm_compute; discriminate.
    + intros j H1 H2. lia.
  - cbn. discriminate.
Qed.
Print Assumptions C40_own_seed_elbow_refuted.
Example C40_ex :
  calculate_elbows (fun c => match c with CKmedoids m => Ok (Fin (nth (Z.to_nat (km_k m)) [0; 0; 10; 4; 3; 5 # 2] 0)%Q) | CRegular _ => Raise ValueError end)
    (map (kmedoids_of (KParams "lite" None 1000 (Fin (1 # 1000)) true)) (pairs [2; 3; 4; 5] [7; 0])%Z) =
  Ok (map (fun s => (s, kmedoids_of (KParams "lite" None 1000 (Fin (1 # 1000)) true) (3, s)))%Z [7; 0]%Z).
Proof. vm_compute. reflexivity. Qed.


(* ---------------------------------------------------------------- C69 *)
(** The clustering returned is the first of those with the largest average, if one exceeds -1 (NaN averages are
    passed over); the average returned is its own.  If none exceeds -1 there is no best clustering. *)
Theorem C69_silhouette_best : forall suite score v,
  (forall c, In c suite -> score c = Ok (v c)) ->
  exists b o, perform_analysis score suite = Ok (b, o) /\
    match o with
    | Some c => exists l1 l2, suite = l1 ++ c :: l2 /\ b = v c /\ flt (Fin (-1)) b = true /\
        (forall c', In c' suite -> flt b (v c') = false) /\
        (forall c', In c' l1 -> flt (v c') b = true \/ v c' = NaN)
    | None => b = Fin (-1) /\ (forall c, In c suite -> flt (Fin (-1)) (v c) = false)
    end.
Proof.
  intros suite score v H. destruct (perform_analysis_spec suite score v H) as (b & o & E & G). exists b, o. split; auto.
  destruct o; auto. destruct G as (l1 & l2 & G1 & G2 & G3 & G4 & G5). exists l1, l2. repeat split; auto.
  intros c' Hc'. destruct (G5 c' Hc') as [?|N]; auto. right. destruct (v c'); auto; discriminate.
Qed.
Print Assumptions C69_silhouette_best.

Example C69_example :
  let c k := CKmedoids (kmeta_default k 1 "lite") in
  let score x := Ok (match c_k x with 2%Z => Fin (1 # 4) | 3%Z => Fin (1 # 2) | 4%Z => NaN | _ => Fin (2 # 4) end) in
  perform_analysis score [c 2; c 4; c 3; c 5]%Z = Ok (Fin (1 # 2), Some (c 3%Z)) /\
  perform_analysis (fun _ => Ok NaN) [c 2; c 3]%Z = Ok (Fin (-1), None).
Proof. vm_compute. split; reflexivity. Qed.
