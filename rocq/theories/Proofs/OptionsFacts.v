(** Facts about the options of the analysis of a clustering suite. *)
From Coq Require Import String Lia Permutation.
From Verif Require Import Base.Py Base.PyFacts Base.Str Base.StrFacts Base.Arr Base.ArrFacts Base.Float Base.FloatFacts Model.Region Model.Arrays Model.Distance
  Model.KMedoids Model.Clustering Model.Variance Model.Plots Model.SolverFiles Model.Algorithms Model.Programs Model.Dnn Model.PartitionAnalysis Model.AnalysisOptions
  Spec.Grid Spec.Partition Spec.Distance Spec.Solver Spec.SolverFiles Spec.TrainInput Spec.Variance Spec.Plots Spec.Algorithms Spec.PartitionAnalysis Spec.AnalysisOptions
  Proofs.RegionFacts Proofs.PartitionFacts Proofs.ProperFacts Proofs.SolverFacts Proofs.DistanceFacts Proofs.DistanceObjFacts Proofs.VarianceFacts
  Proofs.ReportFacts Proofs.ClusteringFacts Proofs.NameFacts Proofs.ProgramFacts Proofs.FilesFacts Proofs.AnalysisFacts Props.Clustering Props.SolverFiles Props.Variance Props.Plots.
From Coq Require Import ZifyBool ZifyNat.
Local Notation length := List.length.
Local Open Scope nat_scope.

(* ---------- paths ---------- *)
Lemma output_dir_names c r : has_char "/" (rm_name r) = false -> has_char "/" (mode_of c) = false ->
  clustering_output_dir c r "dtw" "outputs" = join "/" ["outputs"; rmeta_repr r; "dtw"; c_repr c]%string.
Proof.
  intros Hr Hc. pose proof (c_repr_no_slash c Hc) as Cs. pose proof (rmeta_repr_no_slash r Hr) as Rs.
  pose proof (c_repr_nonempty c) as Cn. pose proof (rmeta_repr_nonempty r) as Rn.
  unfold clustering_output_dir, region_output_dir, clustering_subdir.
  change (path_join "outputs" (rmeta_repr r)) with (path_join ("" ++ join "/" ["outputs"%string]) (rmeta_repr r)).
  rewrite path_join_names; auto; try discriminate. 2:{ intros s [ <- | [] ]. split; [ reflexivity | discriminate ]. }
  rewrite path_join_names2; auto; try discriminate. cbn [app]. intros s [ <- | [ <- | [] ] ]; split; auto; try reflexivity; discriminate.
Qed.
Lemma silhouette_at_path c r : has_char "/" (rm_name r) = false -> has_char "/" (mode_of c) = false ->
  silhouette_filepath c r = silhouette_at (rmeta_repr r) c.
Proof.
  intros Hr Hc. pose proof (c_repr_no_slash c Hc) as Cs. pose proof (rmeta_repr_no_slash r Hr) as Rs.
  pose proof (c_repr_nonempty c) as Cn. pose proof (rmeta_repr_nonempty r) as Rn.
  unfold silhouette_filepath. rewrite output_dir_names by assumption.
  change (join "/" ["outputs"; rmeta_repr r; "dtw"; c_repr c]%string) with ("" ++ join "/" ["outputs"; rmeta_repr r; "dtw"; c_repr c])%string.
  rewrite path_join_names; auto; try discriminate.
  - intros s [ <- | [ <- | [ <- | [ <- | [] ] ] ] ]; split; auto; try reflexivity; discriminate.
  - rewrite !has_char_app, Cs. reflexivity.
Qed.
Lemma histograms_at_path c r rnd : has_char "/" (rm_name r) = false -> has_char "/" (mode_of c) = false ->
  figure_name (Some (clustering_output_dir c r "dtw" "outputs")) (c_repr c) rnd = Some (histograms_at (rmeta_repr r) c rnd).
Proof.
  intros Hr Hc. unfold figure_name. rewrite output_dir_names by assumption. unfold histograms_at. cbn [join]. f_equal. destruct rnd; rewrite ?sapp_assoc; reflexivity.
Qed.

(* ---------- lists of labels ---------- *)
Lemma in_order_labels p x y : valid_partition p x y -> labels_in_order p x y (a2d (labels p)).
Proof.
  intros V. rewrite (labels_grid p x y V). unfold labels_in_order.
  assert (H : forall pts, (forall pt, In pt pts -> in_grid x y pt) -> Forall2 (label_at p) pts (map (label_of p) pts)).
  { induction pts as [ | pt pts IH ]; intros Hin; [ constructor | ]. cbn [map]. constructor; [ | apply IH; intros q Hq; apply Hin; right; exact Hq ].
    apply (label_of_spec p x y pt V). apply Hin. left. reflexivity. }
  apply H. intros pt. apply in_grid_iff.
Qed.
Lemma in_order_unique p x y l l' : labels_in_order p x y l -> labels_in_order p x y l' -> l = l'.
Proof.
  unfold labels_in_order. intros H. revert l'. induction H as [ | pt v pts l E _ IH ]; intros l' H'; inversion H'; subst; [ reflexivity | ].
  f_equal; [ unfold label_at in *; congruence | auto ].
Qed.

Lemma z_max_spec : forall l a, (forall v, In v (a :: l) -> (v <= fold_left Z.max l a)%Z) /\ In (fold_left Z.max l a) (a :: l).
Proof.
  induction l as [ | b l IH ]; intros a; cbn [fold_left].
  - split; [ intros v [ <- | [] ]; lia | left; reflexivity ].
  - destruct (IH (Z.max a b)) as [ A B ]. split.
    + intros v [ <- | [ <- | Hv ] ].
      * specialize (A (Z.max a b) (or_introl eq_refl)). lia.
      * specialize (A (Z.max a b) (or_introl eq_refl)). lia.
      * apply A. right. exact Hv.
    + destruct B as [ B | B ]; [ | right; right; exact B ]. rewrite <- B. destruct (Z.max_spec a b) as [ [ _ -> ] | [ _ -> ] ]; [ right; left; reflexivity | left; reflexivity ].
Qed.

Lemma bands_are {color} (bars : list (@sil_call color)) : sil_bands bars = map (fun b => snd (fst b)) (bands bars).
Proof.
  unfold sil_bands, bands. induction bars as [ | c bars IH ]; [ reflexivity | ]. cbn [flat_map]. rewrite map_app, <- IH. destruct c; reflexivity.
Qed.

(* ---------- one clustering ---------- *)
Section One.
Context {M color : Type} (cmap : fnum -> color) (is_black : color -> bool).
Context (choice : Z -> nat -> Z -> res (list Z)) (env : denv) (create_instance : rmeta -> res (stregion fnum))
        (format_coverage : Q -> string) (format_float : nat -> fnum -> string).
Context (score : mat -> list Z -> res fnum) (samples : mat -> list Z -> res (list fnum))
        (set_order : list Z -> list Z) (draw : cmeta -> nat -> list Z -> Z -> res (list Z)) (sqrt : fnum -> fnum).
Context (r : rmeta) (d : arr3 fnum) (sc : option (arr2 fnum * arr2 fnum)) (D : mat) (dist : point -> point -> fnum).
Local Notation x := (a3x d).
Local Notation y := (a3y d).
Local Notation spt := (qregion d sc).
Context (Hname : has_char "/" (rm_name r) = false) (Hinst : create_instance r = Ok spt) (Hq : qwf d sc) (Hspan : spans (rm_region r) x y)
        (Hload : np_load env (distances_filename r) = Ok D) (HD : square (x * y) D)
        (Hdist : forall q pt, in_grid x y q -> in_grid x y pt -> entry D (index_of y q) (index_of y pt) = Some (dist q pt)).
Local Notation loaded := (DObj PlainDTW (Some D) false).
Local Notation Used fs := (used choice env fs r (dmeta_of r) spt loaded).
Local Notation world := (world M).

Lemma partition_step (w : world) c p ms : has_char "/" (mode_of c) = false -> w_distance w = loaded -> Used (w_pickles w) c p ms ->
  with_medoids x y (c_k c) p ms ->
  exists w', partition_and_report choice env format_coverage w c r spt = (w', Ok (p, Some ms)) /\ w_distance w' = loaded /\
    (forall q, w_texts w' q = if (q =? report_path c r "dtw" "outputs")%string then Some (report format_coverage c p) else w_texts w q) /\
    (forall q, w_pickles w' q = if (q =? pickle_full_path c r "dtw")%string then Some (FPartition (p, Some ms)) else w_pickles w q).
Proof.
  intros Hmode Ew HU (V & K & L & G). unfold used in HU. rewrite <- (saved_at_path c r Hname Hmode) in HU.
  destruct (C80_report_reads_back format_coverage (c_k c) p x y V ltac:(lia)) as (lines & rows & Er & _).
  assert (Erep : report format_coverage c p = lines) by (unfold report; rewrite Er; reflexivity). rewrite Erep.
  unfold partition_and_report, save_to_csv, try_load_previous_partition, load_previous_partition, load_file.
  destruct (w_pickles w (pickle_full_path c r "dtw")) as [ [ q | ms0 | e0 | ] | ] eqn:Ef; cbn [as_partition].
  { subst q. cbn [fst]. rewrite Er. eexists. split; [ reflexivity | ]. split; [ exact Ew | ]. split; [ reflexivity | ]. intros q. cbn [write_text w_pickles].
    destruct (String.eqb_spec q (pickle_full_path c r "dtw")) as [ -> | ]; [ exact Ef | reflexivity ]. }
  all: rewrite (load_again choice env r d sc D Hspan Hload HD w Ew), HU; cbn [fst]; rewrite Er; eexists; split; [ reflexivity | ]; split; [ reflexivity | ]; split; reflexivity.
Qed.

Lemma partition_step_fails (w : world) c e : has_char "/" (mode_of c) = false -> w_distance w = loaded ->
  (forall q, w_pickles w (saved_at (rmeta_repr r) c) <> Some (FPartition q)) ->
  algorithm_partition_impl choice env c (Some (dmeta_of r)) spt true loaded = Raise e ->
  exists w', partition_and_report choice env format_coverage w c r spt = (w', Raise e) /\
    w_distance w' = loaded /\ w_texts w' = w_texts w /\ w_pickles w' = w_pickles w.
Proof.
  intros Hmode Ew Hn Ea. rewrite <- (saved_at_path c r Hname Hmode) in Hn.
  unfold partition_and_report, try_load_previous_partition, load_previous_partition, load_file.
  destruct (w_pickles w (pickle_full_path c r "dtw")) as [ [ q | ms0 | e0 | ] | ] eqn:Ef; cbn [as_partition]; [ exfalso; apply (Hn q); reflexivity | | | | ].
  all: rewrite (load_again choice env r d sc D Hspan Hload HD w Ew), Ea; eexists; repeat split; reflexivity.
Qed.

(* ---------- the silhouette picture ---------- *)
Local Notation suite_silhouette := (suite_silhouette cmap is_black score samples).
Lemma silhouette_ok c p av : has_char "/" (mode_of c) = false -> valid_partition p x y -> silhouette_of score samples D x y p av ->
  exists what, suite_silhouette loaded c r spt p = Ok (fst av, (silhouette_at (rmeta_repr r) c, what)) /\ silhouette_picture cmap p x y (fst av) (snd av) what.
Proof.
  intros Hmode V (l & Hl & Es & Ev & Lv). assert (l = a2d (labels p)) as -> by (eapply in_order_unique; [ exact Hl | apply in_order_labels, V ]).
  pose proof V as (X & Y & W & Rng & _). assert (Ll : length (a2d (labels p)) = x * y) by (rewrite W, X, Y; reflexivity).
  unfold AnalysisOptions.suite_silhouette. cbn [d_matrix bind]. rewrite q_x, q_y, Ll, Nat.eqb_refl. cbn [bind]. unfold plot_2d_clusters, create_from_1d, reshape2. rewrite Ll, Nat.eqb_refl.
  cbn [bind s_data]. unfold plot_labels, label_colors. cbn [a2d].
  assert (Hne : a2d (labels p) <> []).
  { intros E. rewrite E in Ll. destruct V as (_ & _ & _ & _ & pt & [ A B ] & _). cbn in Ll. destruct x, y; cbn in Ll; lia. }
  destruct (a2d (labels p)) as [ | a0 l0 ] eqn:Ed; [ congruence | ]. cbn [z_max bind].
  destruct HD as (_ & Rows & _).
  destruct (C100_bands color cmap (score D) (samples D) (x * y) (a0 :: l0) (fst av) (snd av) Es Ev ltac:(lia) Ll) as (calls & Ec & _ & Hline & Hlen & Hb).
  rewrite Rows, Ec. cbn [bind]. rewrite (silhouette_at_path c r Hname Hmode). eexists. split; [ reflexivity | ].
  set (top := fold_left Z.max l0 a0). eexists _, calls, (a0 :: l0). split; [ reflexivity | ]. split; [ exact Hl | ]. split; [ | split; [ exact Hline | split ] ].
  - exists top. destruct (z_max_spec l0 a0) as [ A B ]. split; [ exact A | ]. split; [ exact B | ]. intros pt v Hg Hv.
    unfold label_at, get2 in Hv. unfold get2. cbn [a2x a2y a2d]. rewrite X, Y in Hv.
    destruct (norm_index x (fst pt)) as [ i | ], (norm_index y (snd pt)) as [ j | ]; try discriminate. rewrite Ed in Hv. rewrite nth_error_map.
    destruct (nth_error (a0 :: l0) (i * y + j)); [ | discriminate ]. injection Hv as ->. reflexivity.
  - rewrite bands_are, map_length. exact Hlen.
  - intros i vs Hi. rewrite bands_are, nth_error_map in Hi. destruct (nth_error (bands calls) i) as [ b | ] eqn:Eb; [ | discriminate ]. injection Hi as <-.
    assert (Li : i < length (bands calls)) by (apply nth_error_Some; congruence). rewrite Hlen in Li. destruct (Hb i Li) as (y0 & vs & E & P & _).
    rewrite E in Eb. injection Eb as <-. exact P.
Qed.
Lemma silhouette_fails c p l e : valid_partition p x y -> labels_in_order p x y l -> score D l = Raise e ->
  suite_silhouette loaded c r spt p = Raise e.
Proof.
  intros V Hl Es. assert (l = a2d (labels p)) as -> by (eapply in_order_unique; [ exact Hl | apply in_order_labels, V ]).
  pose proof V as (X & Y & W & Rng & _). assert (Ll : length (a2d (labels p)) = x * y) by (rewrite W, X, Y; reflexivity).
  unfold AnalysisOptions.suite_silhouette. cbn [d_matrix bind]. rewrite q_x, q_y, Ll, Nat.eqb_refl. cbn [bind]. unfold plot_2d_clusters, create_from_1d, reshape2. rewrite Ll, Nat.eqb_refl.
  cbn [bind s_data]. unfold plot_labels, label_colors. cbn [a2d].
  assert (Hne : a2d (labels p) <> []).
  { intros E. rewrite E in Ll. destruct V as (_ & _ & _ & _ & pt & [ A B ] & _). cbn in Ll. destruct x, y; cbn in Ll; lia. }
  destruct (a2d (labels p)) as [ | a0 l0 ] eqn:Ed; [ congruence | ]. cbn [z_max bind]. unfold plot_clustering_silhouette. rewrite Es. reflexivity.
Qed.

(* ---------- the histograms ---------- *)
Definition cluster_list (p : crisp) (ms : list point) : list hregion :=
  map (fun i => HRegion ("cluster" ++ str_int (Z.of_nat i))%string (TCluster spt p (Z.of_nat i)) (nth_error ms i) None) (seq 0 (length ms)).
Lemma grid_of_q : grid_of spt x y.
Proof. destruct Hq as [ W _ ]. destruct sc as [ [ mn mx ] | ]; cbn; repeat split; auto. Qed.
Lemma inside_iff p i pt : valid_partition p x y -> in_grid x y pt -> inside (TCluster spt p i) pt = true <-> label_at p pt i.
Proof.
  intros V Hg. destruct (label_of_spec p x y pt V Hg) as [ A _ ]. cbn [inside]. unfold label_at in *. rewrite A, Z.eqb_eq. split; intros E; congruence.
Qed.
Lemma inside_points p i : valid_partition p x y -> cluster_points p x y i (Variance.members (TCluster spt p i) x y).
Proof. intros V. exists (inside (TCluster spt p i)). split; [ reflexivity | ]. intros pt Hg. apply inside_iff; assumption. Qed.
Lemma distances_are m pts ds : in_grid x y m -> (forall q, In q pts -> in_grid x y q) -> distances_of D y m pts ds -> ds = map (dist m) pts.
Proof.
  intros Gm Hin H. unfold distances_of in H. eapply row_at_unique; [ exact H | ]. clear H. unfold row_at. induction pts as [ | q pts IH ]; [ constructor | ].
  cbn [map]. constructor; [ apply Hdist; [ exact Gm | apply Hin; left; reflexivity ] | apply IH; intros q' H; apply Hin; right; exact H ].
Qed.
Lemma filter_split {A} (f : A -> bool) l : length (filter f l) + length (filter (fun a => negb (f a)) l) = length l.
Proof. induction l as [ | a l IH ]; [ reflexivity | ]. cbn [filter]. destruct (f a); cbn [negb length]; lia. Qed.
Lemma two_members p i : valid_partition p x y -> no_small_cluster x y p -> (0 <= i < pk p)%Z -> 2 <= length (Variance.members (TCluster spt p i) x y).
Proof.
  intros V Hs Hi. destruct (Hs i Hi) as (q & q' & Hne & G & G' & L & L').
  assert (In q (Variance.members (TCluster spt p i) x y)) by (apply filter_In; split; [ apply in_grid_iff; exact G | apply inside_iff; assumption ]).
  assert (In q' (Variance.members (TCluster spt p i) x y)) by (apply filter_In; split; [ apply in_grid_iff; exact G' | apply inside_iff; assumption ]).
  destruct (Variance.members (TCluster spt p i) x y) as [ | a [ | b l ] ]; [ contradiction | | cbn; lia ].
  cbn [In] in *. exfalso. apply Hne. intuition congruence.
Qed.
Lemma some_outsider p i : valid_partition p x y -> no_small_cluster x y p -> (0 <= i < pk p)%Z -> (2 <= pk p)%Z -> outsiders (TCluster spt p i) x y <> [].
Proof.
  intros V Hs Hi Hk. set (j := if (i =? 0)%Z then 1%Z else 0%Z). assert (Hj : (0 <= j < pk p)%Z /\ j <> i) by (unfold j; destruct (Z.eqb_spec i 0); lia).
  destruct Hj as [ Hj Hne ]. destruct (Hs j Hj) as (q & _ & _ & G & _ & L & _). intros E.
  assert (Hin : In q (outsiders (TCluster spt p i) x y)).
  { apply filter_In. split; [ apply in_grid_iff; exact G | ]. apply Bool.negb_true_iff. apply Bool.not_true_iff_false. rewrite (inside_iff p i q V G). unfold label_at in *. intros F. congruence. }
  rewrite E in Hin. destruct Hin.
Qed.
Lemma can_draw_values calls : (forall vs, In vs (shown_values calls) -> forallb is_finite vs = true) -> can_draw calls = true.
Proof.
  unfold can_draw, shown_values. induction calls as [ | c calls IH ]; intros H; [ reflexivity | ]. cbn [forallb flat_map] in *. rewrite IH.
  - destruct c; auto. rewrite H; [ reflexivity | ]. left. reflexivity.
  - intros vs Hv. apply H. apply in_or_app. right. exact Hv.
Qed.

Local Notation variance_analysis := (@variance_analysis color env set_order draw sqrt).
Lemma histograms_ok opts c p ms rnd : has_char "/" (mode_of c) = false -> with_medoids x y (c_k c) p ms -> (2 <= c_k c)%Z -> no_small_cluster x y p ->
  any_order set_order -> (forall i, draws (draw c i)) -> asks_random opts rnd -> In (o_bins opts) bin_names ->
  (forall q q', in_grid x y q -> in_grid x y q' -> is_finite (dist q q') = true) ->
  exists what, variance_analysis opts loaded c r (cluster_list p ms) = Ok [(histograms_at (rmeta_repr r) c rnd, what)] /\ histograms_picture dist x y p ms rnd what.
Proof.
  intros Hmode (V & K & L & G) Hk Hsm Ho Hd Ha Hbins Hfin. unfold AnalysisOptions.variance_analysis.
  assert (Er : random_points_of opts = Ok rnd).
  { unfold random_points_of. destruct rnd as [ n | ]; cbn [asks_random] in Ha.
    - destruct Ha as [ _ -> ]. pose proof (py_int_str n) as E. destruct (str_int n) eqn:Es; [ discriminate | ]. rewrite E. reflexivity.
    - destruct Ha as [ -> | -> ]; reflexivity. }
  rewrite Er. cbn [bind].
  assert (Lc : length (cluster_list p ms) = length ms) by (unfold cluster_list; rewrite map_length, seq_length; reflexivity).
  assert (Hcl : forall i h, nth_error (cluster_list p ms) i = Some h -> exists m, nth_error ms i = Some m /\ in_grid x y m /\ (0 <= Z.of_nat i < pk p)%Z /\
              h = HRegion ("cluster" ++ str_int (Z.of_nat i))%string (TCluster spt p (Z.of_nat i)) (Some m) None).
  { intros i h Hi. assert (Li : i < length ms) by (rewrite <- Lc; apply nth_error_Some; congruence).
    unfold cluster_list in Hi. rewrite nth_error_map, (nth_error_nth' _ 0) in Hi by (rewrite seq_length; exact Li). rewrite seq_nth in Hi by exact Li. cbn [option_map Nat.add] in Hi.
    destruct (nth_error ms i) as [ m | ] eqn:Em; [ | apply nth_error_None in Em; lia ]. exists m. split; [ reflexivity | ]. split; [ | split; [ lia | congruence ] ].
    rewrite Forall_forall in G. apply G. eapply nth_error_In. exact Em. }
  assert (Hsh : Forall (showable x y rnd true) (cluster_list p ms)).
  { apply Forall_forall. intros h Hin. apply In_nth_error in Hin. destruct Hin as [ i Hi ]. destruct (Hcl i h Hi) as (m & _ & Gm & Ri & ->). unfold showable. cbn [h_region h_own].
    split; [ split; [ apply grid_of_q | exact V ] | ]. split; [ eauto | ]. split; [ apply two_members; assumption | ].
    destruct rnd as [ n | ]; [ | exact I ]. destruct Ha as [ Hn _ ]. split; [ exact Hn | ]. apply some_outsider; auto. lia. }
  destruct (C96_panels env loaded set_order (draw c) sqrt D x y (cluster_list p ms) (c_repr c) rnd true (Some (clustering_output_dir c r "dtw" "outputs"))
              eq_refl HD Ho Hd ltac:(lia) Hsh) as (panels & limit & dx & dy & E & Lp & Nd & _ & _ & _ & _ & Hp & _).
  rewrite E. cbn [bind].
  assert (Hpan : forall i m, nth_error ms i = Some m -> exists place calls pts,
      nth_error panels i = Some (place, calls) /\ cluster_points p x y (Z.of_nat i) pts /\
      match rnd with
      | None => shown_values calls = [map (dist m) pts]
      | Some n => exists others, shown_values calls = [map (dist m) pts; map (dist m) others] /\ NoDup others /\
          (forall q, In q others -> in_grid x y q /\ ~ In q pts) /\
          length others = Nat.min (if (n =? 0)%Z then length pts else Z.to_nat n) (x * y - length pts)
      end).
  { intros i m Hm. assert (Li : i < length (cluster_list p ms)) by (rewrite Lc; apply nth_error_Some; congruence).
    destruct (nth_error (cluster_list p ms) i) as [ h | ] eqn:Eh; [ | apply nth_error_None in Eh; lia ].
    destruct (Hp i h Eh) as (c0 & ds & calls & Ep & Eo & Dd & _ & Hv). destruct (Hcl i h Eh) as (m' & Em' & Gm & Ri & ->). assert (m' = m) by congruence. subst m'.
    cbn [h_own h_region] in *. injection Eo as <-. set (pts := Variance.members (TCluster spt p (Z.of_nat i)) x y) in *.
    assert (Hpts : forall q, In q pts -> in_grid x y q) by (intros q Hin; apply filter_In in Hin; apply in_grid_iff, Hin).
    rewrite (distances_are m pts ds Gm Hpts Dd) in Hv. eexists _, calls, pts. split; [ exact Ep | ]. split; [ apply inside_points, V | ].
    destruct rnd as [ n | ]; [ | exact Hv ]. destruct Hv as (rs & Hv & others & Nd' & Lo & Ho' & Do).
    rewrite (distances_are m others rs Gm (fun q Hin => proj1 (Ho' q Hin)) Do) in Hv. exists others. split; [ exact Hv | ]. split; [ exact Nd' | ]. split.
    - intros q Hin. destruct (Ho' q Hin) as [ Gq Iq ]. split; [ exact Gq | ]. unfold pts. intros Hc. apply filter_In in Hc. destruct Hc as [ _ Hc ]. congruence.
    - rewrite Lo. unfold random_count, outsiders. fold pts. f_equal. pose proof (filter_split (inside (TCluster spt p (Z.of_nat i))) (grid x y)) as F.
      rewrite grid_length in F. fold (Variance.members (TCluster spt p (Z.of_nat i)) x y) in F. fold pts in F. lia. }
  assert (Hb : is_bin_name (o_bins opts) = true) by (unfold is_bin_name; apply existsb_exists; exists (o_bins opts); split; [ exact Hbins | apply String.eqb_refl ]).
  assert (Hdraw : forallb (fun panel => can_draw (snd panel)) panels = true).
  { apply forallb_forall. intros [ place calls ] Hin. apply In_nth_error in Hin. destruct Hin as [ i Hi ]. cbn [snd].
    assert (Li : i < length ms) by (rewrite <- Lc, <- Lp; apply nth_error_Some; congruence). destruct (nth_error ms i) as [ m | ] eqn:Em; [ | apply nth_error_None in Em; lia ].
    destruct (Hpan i m Em) as (place' & calls' & pts & Ep & (keep & Epts & _) & Hv). assert (calls' = calls) by congruence. subst calls'.
    assert (Gm : in_grid x y m) by (rewrite Forall_forall in G; apply G; eapply nth_error_In; exact Em).
    assert (Fin1 : forall l, (forall q, In q l -> in_grid x y q) -> forallb is_finite (map (dist m) l) = true).
    { intros l Hl. apply forallb_forall. intros v Hv0. apply in_map_iff in Hv0. destruct Hv0 as (q & <- & Hq0). apply Hfin; auto. }
    assert (Hpts : forall q, In q pts -> in_grid x y q) by (intros q Hq0; rewrite Epts in Hq0; apply filter_In in Hq0; apply in_grid_iff, Hq0).
    apply can_draw_values. destruct rnd as [ n | ].
    - destruct Hv as (others & Hv & _ & Ho' & _). rewrite Hv. intros vs [ <- | [ <- | [] ] ]; apply Fin1; [ exact Hpts | intros q Hq0; apply (Ho' q Hq0) ].
    - rewrite Hv. intros vs [ <- | [] ]. apply Fin1, Hpts. }
  rewrite Hb, Hdraw. cbn [andb]. rewrite (histograms_at_path c r rnd Hname Hmode). eexists. split; [ reflexivity | ].
  exists panels. split; [ reflexivity | ]. split; [ lia | ]. split; [ exact Nd | exact Hpan ].
Qed.

(* ---------- the loops ---------- *)
Definition add_drawings {A B C} (ds : list A) (t : B * list A * C) : B * list A * C := let '(w, ds', a) := t in (w, (ds ++ ds')%list, a).
Lemma add_nil {A B C} (t : B * list A * C) : add_drawings [] t = t.
Proof. destruct t as [ [ w ds ] a ]. reflexivity. Qed.
Lemma add_add {A B C} (ds ds' : list A) (t : B * list A * C) : add_drawings ds (add_drawings ds' t) = add_drawings (ds ++ ds') t.
Proof. destruct t as [ [ w l ] a ]. cbn. rewrite app_assoc. reflexivity. Qed.

Local Notation partition_with := (@analyze_partition_with M color choice env create_instance format_coverage format_float set_order draw sqrt).
Local Notation clusterings_with := (@analyze_clusterings_with M color choice env create_instance format_coverage format_float set_order draw sqrt).
Local Notation silhouettes := (suite_silhouettes cmap is_black choice env format_coverage score samples).

(** one clustering: the same files and row as without options, unless its histograms fail *)
Lemma step_with opts (w : world) c p ms : has_char "/" (mode_of c) = false -> w_distance w = loaded -> Used (w_pickles w) c p ms ->
  with_medoids x y (c_k c) p ms ->
  exists w' cells, analyze_partition choice env create_instance format_coverage format_float w c r = (w', Ok cells) /\
    partition_with opts w c r =
      if o_variance opts
      then match variance_analysis opts loaded c r (cluster_list p ms) with Ok ds => (w', ds, Ok cells) | Raise e => (w', [], Raise e) end
      else (w', [], Ok cells).
Proof.
  intros Hmode Ew HU HW. destruct (partition_step w c p ms Hmode Ew HU HW) as (w1 & E1 & D1 & _ & _). pose proof HW as (V & K & L & G).
  assert (Hne : ms <> []). { intros ->. pose proof (valid_k_pos p x y V). cbn in L. lia. }
  unfold analyze_partition, analyze_partition_with. rewrite Hinst, E1. rewrite (clusters_ok choice format_float r d sc D dist Hname Hdist p ms); [ | rewrite L; exact HW | exact Hne ]. rewrite D1, <- L.
  rewrite (clusters_loop choice env format_float r d sc D dist Hname HD Hdist p ms); [ | rewrite L; exact HW | apply le_n | reflexivity ]. cbn [bind]. eexists _, _. split; [ reflexivity | ].
  destruct (o_variance opts); [ | reflexivity ]. unfold cluster_list. destruct (AnalysisOptions.variance_analysis _ _ _ _ _ _ _ _ _); reflexivity.
Qed.
Lemma used_after (w w1 : world) it it' : has_char "/" (mode_of (it_c it)) = false -> has_char "/" (mode_of (it_c it')) = false -> c_repr (it_c it') <> c_repr (it_c it) ->
  (forall q, w_pickles w1 q = if (q =? pickle_full_path (it_c it) r "dtw")%string then Some (FPartition (it_p it, Some (it_ms it))) else w_pickles w q) ->
  Used (w_pickles w) (it_c it') (it_p it') (it_ms it') -> Used (w_pickles w1) (it_c it') (it_p it') (it_ms it').
Proof.
  intros Hc Hc' Hne P HU. unfold used in *. rewrite <- (saved_at_path (it_c it') r Hname Hc') in *. rewrite P.
  destruct (String.eqb_spec (pickle_full_path (it_c it') r "dtw") (pickle_full_path (it_c it) r "dtw")) as [ E | ]; [ | exact HU ].
  exfalso. apply Hne. apply (pickle_path_inj _ _ r); assumption.
Qed.

Lemma loop_with opts path : forall items (w w' : world) pics rest, w_distance w = loaded -> NoDup (map (fun it => c_repr (it_c it)) items) ->
  (forall it, In it items -> has_char "/" (mode_of (it_c it)) = false /\ Used (w_pickles w) (it_c it) (it_p it) (it_ms it) /\ with_medoids x y (c_k (it_c it)) (it_p it) (it_ms it)) ->
  Forall2 (fun it ds => if o_variance opts then variance_analysis opts loaded (it_c it) r (cluster_list (it_p it) (it_ms it)) = Ok ds else ds = []) items pics ->
  analyze_clusterings choice env create_instance format_coverage format_float w path r (map it_c items) = (w', Ok tt) ->
  clusterings_with opts w path r (map it_c items ++ rest) = add_drawings (List.concat pics) (clusterings_with opts w' path r rest).
Proof.
  induction items as [ | it items IH ]; intros w w' pics rest Ew Hnd H HP E.
  - inversion HP; subst. cbn in E. injection E as <-. cbn [map app List.concat]. rewrite add_nil. reflexivity.
  - inversion HP as [ | ? ds ? pics' Hds HP' ]; subst. destruct (H it (or_introl eq_refl)) as (Hc & HU & HW).
    destruct (step choice env create_instance format_coverage format_float r d sc D dist Hname Hinst Hspan Hload HD Hdist w it Hc Ew HU HW) as (w1 & cells & E1 & _ & D1 & _ & P1).
    destruct (step_with opts w (it_c it) (it_p it) (it_ms it) Hc Ew HU HW) as (w1' & cells' & E1' & Ew1).
    rewrite E1 in E1'. injection E1' as <- <-. cbn [map app analyze_clusterings] in E. rewrite E1 in E. cbn [map] in Hnd. inversion_clear Hnd as [ | ? ? Hni Hnd' ].
    assert (Ep : partition_with opts w (it_c it) r = (w1, ds, Ok cells)).
    { rewrite Ew1. destruct (o_variance opts); [ rewrite Hds | rewrite Hds ]; reflexivity. }
    cbn [map app analyze_clusterings_with List.concat]. rewrite Ep.
    rewrite (IH (append_text w1 path (csv_line cells)) w' pics' rest); auto.
    + unfold add_drawings. destruct (clusterings_with opts w' path r rest) as [ [ a b ] c ]. rewrite app_assoc. reflexivity.
    + intros it' Hin. destruct (H it' (or_intror Hin)) as (Hc' & HU' & HW'). split; [ exact Hc' | ]. split; [ | exact HW' ].
      apply (used_after w _ it it'); auto. intros Ee. apply Hni. rewrite <- Ee. apply (in_map (fun it => c_repr (it_c it))), Hin.
Qed.

(** the texts after the reports of [items] *)
Definition reports_after (w : world) (items : list item) (q : string) : option (list string) :=
  match find (fun it => (q =? report_path (it_c it) r "dtw" "outputs")%string) items with
  | Some it => Some (report format_coverage (it_c it) (it_p it))
  | None => w_texts w q
  end.
Definition better (av : cmeta -> fnum * list fnum) (best : fnum * option cmeta) (c : cmeta) : fnum * option cmeta :=
  if flt (fst best) (fst (av c)) then (fst (av c), Some c) else best.

Lemma silhouettes_loop av : forall items (w : world) best rest, w_distance w = loaded -> NoDup (map (fun it => c_repr (it_c it)) items) ->
  (forall it, In it items -> has_char "/" (mode_of (it_c it)) = false /\ Used (w_pickles w) (it_c it) (it_p it) (it_ms it) /\
     with_medoids x y (c_k (it_c it)) (it_p it) (it_ms it) /\ silhouette_of score samples D x y (it_p it) (av (it_c it))) ->
  exists w' ds, silhouettes w r spt best (map it_c items ++ rest) = add_drawings ds (silhouettes w' r spt (fold_left (better av) (map it_c items) best) rest) /\
    w_distance w' = loaded /\ (forall q, w_texts w' q = reports_after w items q) /\ (forall q, w_pickles w' q = pickles_after r w items q) /\
    Forall2 (fun it dr => exists what, dr = (silhouette_at (rmeta_repr r) (it_c it), what) /\
                          silhouette_picture cmap (it_p it) x y (fst (av (it_c it))) (snd (av (it_c it))) what) items ds.
Proof.
  induction items as [ | it items IH ]; intros w best rest Ew Hnd H.
  - exists w, []. cbn [map app fold_left]. rewrite add_nil. repeat split; auto.
  - destruct (H it (or_introl eq_refl)) as (Hc & HU & HW & HS). destruct (partition_step w (it_c it) (it_p it) (it_ms it) Hc Ew HU HW) as (w1 & E1 & D1 & T1 & P1).
    cbn [map] in Hnd. inversion_clear Hnd as [ | ? ? Hni Hnd' ].
    assert (Same : forall it', In it' items -> c_repr (it_c it') <> c_repr (it_c it)).
    { intros it' Hin E. apply Hni. rewrite <- E. apply (in_map (fun it => c_repr (it_c it))), Hin. }
    destruct (silhouette_ok (it_c it) (it_p it) (av (it_c it)) Hc (proj1 HW) HS) as (what & Es & Hpic).
    destruct (IH w1 (better av best (it_c it)) rest) as (w' & ds & E' & D' & T' & P' & F'); auto.
    { intros it' Hin. destruct (H it' (or_intror Hin)) as (Hc' & HU' & HW' & HS'). split; [ exact Hc' | ]. split; [ | split; assumption ].
      apply (used_after w w1 it it'); auto. }
    exists w', ((silhouette_at (rmeta_repr r) (it_c it), what) :: ds). split; [ | split; [ exact D' | split; [ | split ] ] ].
    + cbn [map app suite_silhouettes]. rewrite E1. cbn [fst]. rewrite D1, Es. unfold better in E' at 1. rewrite E'. cbn [fold_left].
      unfold add_drawings. destruct (silhouettes w' r spt _ rest) as [ [ a b ] c0 ]. reflexivity.
    + intros q. rewrite T'. unfold reports_after. cbn [find]. rewrite T1. destruct (find _ items) as [ it' | ] eqn:Ef.
      * apply find_some in Ef. destruct Ef as [ Hin Eq ]. apply String.eqb_eq in Eq. subst q.
        destruct (String.eqb_spec (report_path (it_c it') r "dtw" "outputs") (report_path (it_c it) r "dtw" "outputs")) as [ E | ]; [ | reflexivity ].
        exfalso. apply (Same it' Hin). destruct (H it' (or_intror Hin)) as (Hc' & _). apply (report_path_inj _ _ r); assumption.
      * destruct (_ =? _)%string; reflexivity.
    + intros q. rewrite P'. unfold pickles_after. cbn [find]. rewrite P1. destruct (find _ items) as [ it' | ] eqn:Ef.
      * apply find_some in Ef. destruct Ef as [ Hin Eq ]. apply String.eqb_eq in Eq. subst q.
        destruct (String.eqb_spec (pickle_full_path (it_c it') r "dtw") (pickle_full_path (it_c it) r "dtw")) as [ E | ]; [ | reflexivity ].
        exfalso. apply (Same it' Hin). destruct (H it' (or_intror Hin)) as (Hc' & _). apply (pickle_path_inj _ _ r); assumption.
      * destruct (_ =? _)%string; reflexivity.
    + constructor; [ eauto | exact F' ].
Qed.

End One.
