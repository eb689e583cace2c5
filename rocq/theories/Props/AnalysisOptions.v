(** C137: the options of the program that analyses every clustering of a suite. *)
From Coq Require Import String Lia Permutation.
From Verif Require Import Base.Py Base.PyFacts Base.Str Base.StrFacts Base.Arr Base.ArrFacts Base.Float Base.FloatFacts Model.Region Model.Arrays Model.Distance
  Model.Maths Model.KMedoids Model.Clustering Model.Variance Model.Plots Model.SolverFiles Model.Algorithms Model.Programs Model.Dnn Model.PartitionAnalysis Model.AnalysisOptions
  Spec.Grid Spec.Partition Spec.Distance Spec.Solver Spec.SolverFiles Spec.TrainInput Spec.Variance Spec.Plots Spec.Algorithms Spec.PartitionAnalysis Spec.AnalysisOptions
  Proofs.RegionFacts Proofs.PartitionFacts Proofs.ProperFacts Proofs.SolverFacts Proofs.DistanceFacts Proofs.DistanceObjFacts Proofs.VarianceFacts
  Proofs.ReportFacts Proofs.ClusteringFacts Proofs.NameFacts Proofs.ProgramFacts Proofs.FilesFacts Proofs.AnalysisFacts Proofs.OptionsFacts
  Props.Clustering Props.SolverFiles Props.Programs Props.Algorithms Props.Variance Props.Plots Props.PartitionAnalysis.
From Coq Require Import ZifyBool ZifyNat.
Local Notation length := List.length.
Local Open Scope nat_scope.

Lemma foldM_each {A S} (f : S -> A -> res S) : forall l s s', foldM f l s = Ok s' -> forall a, In a l -> exists s1 s2, f s1 a = Ok s2.
Proof.
  induction l as [ | b l IH ]; intros s s' E a Hin; [ destruct Hin | ]. cbn [foldM] in E. destruct (f s b) as [ s1 | ] eqn:Eb; [ | discriminate ]. cbn [bind] in E.
  destruct Hin as [ <- | Hin ]; [ eauto | apply (IH s1 s' E a Hin) ].
Qed.
Lemma mapM_fst {A B} (f : A -> res (A * B)) : (forall a b, f a = Ok b -> fst b = a) -> forall l l', mapM f l = Ok l' -> map fst l' = l.
Proof.
  intros Hf. induction l as [ | a l IH ]; intros l' E; cbn [mapM] in E; [ injection E as <-; reflexivity | ].
  destruct (f a) as [ b | ] eqn:Eb; [ | discriminate ]. cbn [bind] in E. destruct (mapM f l) as [ bs | ]; [ | discriminate ]. injection E as <-.
  cbn [map]. f_equal; [ apply Hf, Eb | apply IH; reflexivity ].
Qed.
Lemma forall2_impl_in {A B} (R R' : A -> B -> Prop) l l' : (forall a b, In (a, b) (combine l l') -> R a b -> R' a b) -> Forall2 R l l' -> Forall2 R' l l'.
Proof. intros H F. induction F as [ | a b l l' Hab F IH ]; constructor; [ apply H; [ left; reflexivity | exact Hab ] | apply IH; intros a' b' Hin; apply H; right; exact Hin ]. Qed.

(** the histograms of a clustering with a small cluster cannot be made *)
Lemma small_cluster_fails env o set_order choice sqrt M x y clusters repr random_points dir h c :
  d_matrix o = Some M -> square (x * y) M -> In h clusters -> grid_of (h_region h) x y -> h_own h = Some c -> in_grid x y c ->
  length (Variance.members (h_region h) x y) < 2 ->
  exists e, cluster_histograms env o set_order choice sqrt clusters repr random_points true dir = Raise e.
Proof.
  intros HM Hs Hin Hg Hc Gc Hlen. destruct (cluster_histograms _ _ _ _ _ _ _ _ _ _) as [ v | e ] eqn:E; [ exfalso | eauto ].
  unfold cluster_histograms in E. destruct (make_histograms o clusters random_points) as [ hs | ] eqn:Eh; [ | discriminate ]. cbn [bind] in E.
  assert (Hfst : map fst hs = clusters).
  { unfold make_histograms in Eh. destruct (mapM _ clusters); [ | discriminate ]. cbn [bind] in Eh. revert Eh. apply mapM_fst. intros a0 b Eb.
    destruct (py_assert _); [ | discriminate ]. cbn [bind] in Eb. injection Eb as <-. reflexivity. }
  destruct (plot_clusters _ _ _ _ _ _ _ _) as [ panels | ] eqn:Ep; [ | discriminate ]. clear E. unfold plot_clusters in Ep.
  destruct (getitem hs 0); [ | discriminate ]. cbn [bind] in Ep. destruct (two_balanced_divisors_order_x_y _ _ _) as [ [ dx dy ] | ]; [ | discriminate ]. cbn [bind] in Ep.
  destruct (overall_max _ _ _ _ _ _) as [ [ [ m hs' ] n' ] | ] eqn:Em; [ | discriminate ]. cbn [bind] in Ep.
  assert (Hfst' : map fst hs' = clusters).
  { rewrite <- Hfst. unfold overall_max in Em. clear - Em. change (map fst hs) with (map fst (@nil (hregion * histogram)) ++ map fst hs)%list.
    assert (G : forall hs done m0 n0, foldM (fun '(m, done, n) '(h, g) =>
           c <- own_centroid h ;; '(d, g', n') <- hist_distances env o set_order choice h g n c ;; m' <- hist_max d (Some m) ;; Ok (m', (done ++ [(h, g')])%list, n'))
         hs (m0, done, n0) = Ok (m, hs', n') -> map fst hs' = (map fst done ++ map fst hs)%list).
    { clear. induction hs as [ | [ h g ] hs IH ]; intros done m0 n0 Em; cbn [foldM] in Em.
      - injection Em as <- <- <-. cbn [map]. rewrite app_nil_r. reflexivity.
      - destruct (own_centroid h); [ | discriminate ]. cbn [bind] in Em. destruct (hist_distances _ _ _ _ _ _ _ _) as [ [ [ dd g' ] n1 ] | ]; [ | discriminate ]. cbn [bind] in Em.
        destruct (hist_max dd (Some m0)); [ | discriminate ]. cbn [bind] in Em. apply IH in Em. rewrite Em, map_app, <- app_assoc. reflexivity. }
    exact (G hs [] NInf 0 Em). }
  destruct (foldM _ (enumerate hs') _) as [ st | ] eqn:Ef; [ | discriminate ]. clear Ep.
  rewrite <- Hfst' in Hin. apply in_map_iff in Hin. destruct Hin as ([ h' g ] & Eh' & Hin). cbn [fst] in Eh'. subst h'. apply In_nth_error in Hin. destruct Hin as [ i Hi ].
  assert (Hen : In (i, (h, g)) (enumerate hs')).
  { unfold enumerate. assert (Li : i < length hs') by (apply nth_error_Some; congruence). apply (nth_error_In _ i). apply combine_nth_error; [ | exact Hi ].
    rewrite (nth_error_nth' _ 0) by (rewrite seq_length; exact Li). rewrite seq_nth by exact Li. reflexivity. }
  destruct (foldM_each _ _ _ _ Ef _ Hen) as ([ ps n1 ] & s2 & E2). cbn beta iota in E2. destruct (panel_of dx dy i); [ | discriminate ]. cbn [bind] in E2.
  unfold own_centroid in E2. rewrite Hc in E2. cbn [bind] in E2. destruct (plain_ok env o M x y HM Hs h c Hg Gc) as (ds & Ed & _ & Dl).
  destruct (hist_distances _ _ _ _ _ _ _ _) as [ [ [ dd g' ] n2 ] | ] eqn:Ehd; [ | discriminate ]. cbn [bind] in E2.
  assert (Hdd : fst dd = ds).
  { unfold hist_distances in Ehd. rewrite Ed in Ehd. destruct g as [ | num ]; cbn [bind] in Ehd; [ injection Ehd as <- _ _; reflexivity | ].
    destruct (random_indices _ _ _ _ _) as [ [ ii nn ] | ]; [ | discriminate ]. cbn [bind] in Ehd.
    destruct (fst (distances_to_point _ _ _ _ _ _ _ _)); [ | discriminate ]. cbn [bind] in Ehd. injection Ehd as <- _ _. reflexivity. }
  destruct dd as [ ds0 rs ]. cbn [fst] in Hdd. subst ds0.
  assert (Hshort : statistics sqrt h ds = Raise ValueError) by (apply statistics_short; lia).
  destruct rs as [ rs | ]; cbn [hist_plot] in E2; unfold plot in E2; cbn [hist_statistics bind] in E2; rewrite Hshort in E2; discriminate.
Qed.

Section Run.
Context {M color : Type} (cmap : fnum -> color) (is_black : color -> bool).
Context (choice : Z -> nat -> Z -> res (list Z)) (env : denv) (create_instance : rmeta -> res (stregion fnum))
        (format_coverage : Q -> string) (format_float : nat -> fnum -> string).
Context (score : mat -> list Z -> res fnum) (samples : mat -> list Z -> res (list fnum))
        (set_order : list Z -> list Z) (draw : cmeta -> nat -> list Z -> Z -> res (list Z)) (sqrt : fnum -> fnum).
Local Notation suite_with := (@analyze_suite_with M color cmap is_black choice env create_instance format_coverage format_float score samples set_order draw sqrt).
Local Notation clusterings_with := (@analyze_clusterings_with M color choice env create_instance format_coverage format_float set_order draw sqrt).
Local Notation silhouettes := (suite_silhouettes cmap is_black choice env format_coverage score samples).
Local Notation variance := (@variance_analysis color env set_order draw sqrt).
Local Notation header := [csv_line ["clustering"; "total_cost"; "medoids"]%string].
Local Notation loaded D := (DObj PlainDTW (Some D) false).

Lemma run_start opts (w : world M) region r d sc D dist ty sid suite :
  ready env create_instance region r d sc D dist -> get_suite ty sid = Ok suite ->
  suite_with opts w region ty sid =
  match (if o_silhouette opts then silhouettes (World (w_pickles w) (w_texts w) (loaded D)) r (qregion d sc) (Fin (-1), None) suite
         else (World (w_pickles w) (w_texts w) (loaded D), [], Ok (Fin (-1), None))) with
  | (w', ds, Raise e) => (w', ds, Raise e)
  | (w', ds, Ok _) => add_drawings ds (clusterings_with opts (write_text w' (table_at region ty sid) header) (table_at region ty sid) r suite)
  end.
Proof.
  intros (Hr & Hi & Hq & Hsp & Hl & HD & Hent) Hs. destruct (predefined_facts _ _ Hr) as (En & Hn & _).
  unfold AnalysisOptions.analyze_suite_with. rewrite Hr, Hs. cbn [bind]. unfold load_distance_matrix_2d. cbn [d_kind].
  rewrite (base_load_ok env _ _ (a3x d) (a3y d) _ D Hsp Hl HD). rewrite (table_at_path ty sid r Hn), En. cbn [d_weighted].
  destruct (o_silhouette opts); [ | reflexivity ]. unfold silhouette_analysis. rewrite Hi. cbn [w_distance d_matrix w_pickles w_texts].
  destruct (silhouettes _ _ _ _ _) as [ [ w' ds ] [ v | e ] ]; reflexivity.
Qed.

(** the clusterings of [items] *)
Lemma items_facts region r d sc D dist ty sid suite before results rest (w : world M) :
  ready env create_instance region r d sc D dist -> get_suite ty sid = Ok suite -> suite = (before ++ rest)%list ->
  outcomes choice env (w_pickles w) r d sc D before results ->
  let items := map itemize (combine before results) in
  map it_c items = before /\ NoDup (map (fun it => c_repr (it_c it)) items) /\
  forall it, In it items -> has_char "/" (mode_of (it_c it)) = false /\ report_path (it_c it) r "dtw" "outputs" <> table_at region ty sid /\
    used choice env (w_pickles w) r (dmeta_of r) (qregion d sc) (loaded D) (it_c it) (it_p it) (it_ms it) /\
    with_medoids (a3x d) (a3y d) (c_k (it_c it)) (it_p it) (it_ms it) /\ (2 <= c_k (it_c it))%Z.
Proof.
  intros (Hr & _) Hs Es Ho items. destruct (predefined_facts _ _ Hr) as (En & Hn & _).
  destruct (suite_clean _ _ _ Hs) as (Cs & Nd & Cm). pose proof (forall2_length _ _ _ Ho) as Hlen.
  assert (Ei : map it_c items = before). { unfold items. rewrite map_map. cbn. apply combine_fst, Hlen. }
  split; [ exact Ei | ]. split.
  { rewrite <- (map_map it_c c_repr), Ei. rewrite Es, map_app in Nd. apply nodup_app_l in Nd. exact Nd. }
  intros it Hit. assert (Hin : In (it_c it) suite). { rewrite Es. apply in_or_app. left. rewrite <- Ei. apply in_map, Hit. }
  destruct (Cm _ Hin) as [ Hm Hk ]. split; [ exact Hm | ]. split.
  { rewrite <- En, <- (table_at_path ty sid r Hn). apply report_not_analysis; auto. }
  unfold items in Hit. apply in_map_iff in Hit. destruct Hit as (cr & <- & Hcr). apply (Forall2_in _ _ _ Ho) in Hcr. destruct Hcr as [ A B ]. split; [ exact A | split; [ exact B | exact Hk ] ].
Qed.

(** the loop over the clusterings whose histograms are made *)
Lemma rows_loop opts (w1 : world M) region r d sc D dist ty sid suite before results rest pics :
  ready env create_instance region r d sc D dist -> get_suite ty sid = Ok suite -> suite = (before ++ rest)%list -> w_distance w1 = loaded D ->
  outcomes choice env (w_pickles w1) r d sc D before results ->
  let items := map itemize (combine before results) in
  Forall2 (fun it ds => if o_variance opts then variance opts (loaded D) (it_c it) r (cluster_list d sc (it_p it) (it_ms it)) = Ok ds else ds = []) items pics ->
  exists w', clusterings_with opts (write_text w1 (table_at region ty sid) header) (table_at region ty sid) r suite =
      add_drawings (List.concat pics) (clusterings_with opts w' (table_at region ty sid) r rest) /\
    w_distance w' = loaded D /\
    (forall q, w_texts w' q = texts_after format_coverage format_float r d dist w1 (table_at region ty sid) header items q) /\
    (forall q, w_pickles w' q = pickles_after r w1 items q).
Proof.
  intros Hready Hs Es Dw Ho items HP. destruct (items_facts region r d sc D dist ty sid suite before results rest w1 Hready Hs Es Ho) as (Ei & Nd & Hit). fold items in Ei, Nd, Hit.
  pose proof Hready as (Hr & Hi & Hq & Hsp & Hl & HD & Hent). destruct (predefined_facts _ _ Hr) as (En & Hn & _).
  set (w0 := write_text w1 (table_at region ty sid) header).
  destruct (loop choice env create_instance format_coverage format_float r d sc D dist Hn Hi Hsp Hl HD Hent (table_at region ty sid) items w0 header []) as (w' & E & Dw' & T & P).
  - exact Dw.
  - unfold w0, write_text. cbn [w_texts]. rewrite String.eqb_refl. reflexivity.
  - exact Nd.
  - intros it Hin. destruct (Hit it Hin) as (A & B & C & F & _). auto.
  - rewrite app_nil_r in E. exists w'. split; [ | split; [ exact Dw' | split ] ].
    + rewrite Es, <- Ei. apply (loop_with choice env create_instance format_coverage format_float score samples set_order draw sqrt r d sc D dist Hn Hi Hsp Hl HD Hent opts (table_at region ty sid) items w0 w' pics rest); auto.
      intros it Hin. destruct (Hit it Hin) as (A & B & C & F & _). auto.
    + intros q. rewrite T. unfold texts_after. destruct (String.eqb_spec q (table_at region ty sid)) as [ | Hq0 ]; [ reflexivity | ].
      unfold w0, write_text. cbn [w_texts]. rewrite (proj2 (String.eqb_neq q _) Hq0). reflexivity.
    + exact P.
Qed.

(** the pictures of the silhouettes *)
Definition sils_of (region : string) (d : arr3 fnum) (av : cmeta -> fnum * list fnum) (suite : list cmeta) (results : list (crisp * list point)) (sils : list (@drawing color)) : Prop :=
  Forall2 (fun cr dr => exists what, dr = (silhouette_at region (fst cr), what) /\
             silhouette_picture cmap (fst (snd cr)) (a3x d) (a3y d) (fst (av (fst cr))) (snd (av (fst cr))) what) (combine suite results) sils.
(** the pictures of the histograms *)
Definition hists_of (region : string) (d : arr3 fnum) (dist : point -> point -> fnum) (rnd : option Z) (suite : list cmeta) (results : list (crisp * list point)) (hists : list (@drawing color)) : Prop :=
  Forall2 (fun cr dr => exists what, dr = (histograms_at region (fst cr) rnd, what) /\
             histograms_picture dist (a3x d) (a3y d) (fst (snd cr)) (snd (snd cr)) rnd what) (combine suite results) hists.

Lemma forall2_itemize {B} (R : item -> B -> Prop) l l' : Forall2 R (map itemize l) l' -> Forall2 (fun cr b => R (itemize cr) b) l l'.
Proof. revert l'. induction l as [ | a l IH ]; intros l' H; inversion H; subst; constructor; auto. Qed.
Lemma forall2_itemize' {B} (R : item -> B -> Prop) l l' : Forall2 (fun cr b => R (itemize cr) b) l l' -> Forall2 R (map itemize l) l'.
Proof. induction 1; cbn [map]; constructor; auto. Qed.

Lemma silhouettes_prefix av (w : world M) best region r d sc D dist ty sid suite before results rest :
  ready env create_instance region r d sc D dist -> get_suite ty sid = Ok suite -> suite = (before ++ rest)%list -> w_distance w = loaded D ->
  outcomes choice env (w_pickles w) r d sc D before results ->
  Forall2 (fun c pm => silhouette_of score samples D (a3x d) (a3y d) (fst pm) (av c)) before results ->
  let items := map itemize (combine before results) in
  exists w1 sils, silhouettes w r (qregion d sc) best suite = add_drawings sils (silhouettes w1 r (qregion d sc) (fold_left (better av) before best) rest) /\
    w_distance w1 = loaded D /\ (forall q, w_texts w1 q = reports_after format_coverage r w items q) /\ (forall q, w_pickles w1 q = pickles_after r w items q) /\
    sils_of region d av before results sils.
Proof.
  intros Hready Hs Es Dw Ho Hsil items. destruct (items_facts region r d sc D dist ty sid suite before results rest w Hready Hs Es Ho) as (Ei & Nd & Hit). fold items in Ei, Nd, Hit.
  pose proof Hready as (Hr & Hi & Hq & Hsp & Hl & HD & Hent). destruct (predefined_facts _ _ Hr) as (En & Hn & _).
  destruct (silhouettes_loop cmap is_black choice env format_coverage format_float score samples set_order draw r d sc D dist Hn Hsp Hl HD Hent av items w best rest) as (w1 & sils & E & D1 & T1 & P1 & F1).
  - exact Dw.
  - exact Nd.
  - intros it Hin. destruct (Hit it Hin) as (A & B & C & F & _). split; [ exact A | ]. split; [ exact C | ]. split; [ exact F | ].
    unfold items in Hin. apply in_map_iff in Hin. destruct Hin as (cr & <- & Hcr). apply (Forall2_in _ _ _ Hsil) in Hcr. exact Hcr.
  - rewrite Ei in E. rewrite <- Es in E. exists w1, sils. split; [ exact E | ]. split; [ exact D1 | ]. split; [ exact T1 | ]. split; [ exact P1 | ].
    unfold sils_of. rewrite <- En. apply forall2_itemize in F1. exact F1.
Qed.

(** the partitions that are used afterwards are the same *)
Lemma outcomes_after (w w1 : world M) region r d sc D dist ty sid suite results :
  ready env create_instance region r d sc D dist -> get_suite ty sid = Ok suite ->
  outcomes choice env (w_pickles w) r d sc D suite results ->
  (forall q, w_pickles w1 q = pickles_after r w (map itemize (combine suite results)) q) ->
  outcomes choice env (w_pickles w1) r d sc D suite results.
Proof.
  intros Hready Hs Ho P. destruct (items_facts region r d sc D dist ty sid suite suite results [] w Hready Hs (eq_sym (app_nil_r _)) Ho) as (Ei & Nd & Hit).
  set (items := map itemize (combine suite results)) in *. pose proof Hready as (Hr & _). destruct (predefined_facts _ _ Hr) as (En & Hn & _).
  assert (Npic : NoDup (map (fun it => pickle_full_path (it_c it) r "dtw") items)).
  { assert (Hmode : forall it, In it items -> has_char "/" (mode_of (it_c it)) = false) by (intros it H; apply (Hit it H)).
    clear - Nd Hmode Hn. induction items as [ | it items IH ]; cbn [map] in *; [ constructor | ]. inversion_clear Nd as [ | ? ? Hni Hnd ].
    constructor; [ | apply IH; auto; intros; apply Hmode; right; auto ]. intros Hin. apply Hni. apply in_map_iff in Hin. destruct Hin as (it' & E & Hin).
    apply pickle_path_inj in E; auto; [ | apply Hmode; right; exact Hin | apply Hmode; left; reflexivity ].
    rewrite <- E. apply (in_map (fun it => c_repr (it_c it))), Hin. }
  unfold outcomes in *. revert Ho. apply forall2_impl_in. intros c [ p ms ] Hin [ _ HW ]. split; [ | exact HW ]. cbn [fst snd].
  assert (Hi' : In (c, p, ms) items) by (unfold items; apply in_map_iff; exists (c, (p, ms)); split; [ reflexivity | exact Hin ]).
  destruct (Hit _ Hi') as (Hm & _). cbn in Hm. unfold used. rewrite <- (saved_at_path c r Hn Hm), P. unfold pickles_after.
  pose proof (find_item (fun it => pickle_full_path (it_c it) r "dtw") items (c, p, ms) Npic Hi') as F.
  change (find (fun it0 : item => (pickle_full_path c r "dtw" =? pickle_full_path (it_c it0) r "dtw")%string) items = Some (c, p, ms)) in F. rewrite F. reflexivity.
Qed.
Lemma nth_items (before : list cmeta) (results : list (crisp * list point)) it : In it (map itemize (combine before results)) ->
  exists i pm, nth_error before i = Some (it_c it) /\ nth_error results i = Some pm.
Proof.
  intros Hit. apply in_map_iff in Hit. destruct Hit as ([ c pm ] & <- & Hin). apply In_nth_error in Hin. destruct Hin as [ i Ec ]. exists i, pm. cbn.
  revert results i Ec. induction before as [ | b l IH ]; intros [ | b' l' ] [ | i ] Ec; cbn in *; try discriminate; [ injection Ec as -> ->; auto | apply IH, Ec ].
Qed.

(** the first phase: the silhouettes, if they are asked for *)
Lemma first_phase opts av (w : world M) region r d sc D dist ty sid suite results :
  ready env create_instance region r d sc D dist -> get_suite ty sid = Ok suite -> outcomes choice env (w_pickles w) r d sc D suite results ->
  (o_silhouette opts = true -> Forall2 (fun c pm => silhouette_of score samples D (a3x d) (a3y d) (fst pm) (av c)) suite results) ->
  exists w1 sils, suite_with opts w region ty sid =
      add_drawings sils (clusterings_with opts (write_text w1 (table_at region ty sid) header) (table_at region ty sid) r suite) /\
    w_distance w1 = loaded D /\ outcomes choice env (w_pickles w1) r d sc D suite results /\
    (forall q, (forall i c pm, nth_error suite i = Some c -> nth_error results i = Some pm -> q <> report_at region c) -> w_texts w1 q = w_texts w q) /\
    (forall q, (forall i c pm, nth_error suite i = Some c -> nth_error results i = Some pm -> q <> saved_at region c) -> w_pickles w1 q = w_pickles w q) /\
    (if o_silhouette opts then sils_of region d av suite results sils else sils = []).
Proof.
  intros Hready Hs Ho Hsil. rewrite (run_start opts w region r d sc D dist ty sid suite Hready Hs). set (w0 := World (w_pickles w) (w_texts w) (loaded D)).
  destruct (o_silhouette opts).
  - destruct (silhouettes_prefix av w0 (Fin (-1), None) region r d sc D dist ty sid suite suite results [] Hready Hs (eq_sym (app_nil_r _)) eq_refl Ho (Hsil eq_refl)) as (w1 & sils & E & D1 & T1 & P1 & F1).
    destruct (items_facts region r d sc D dist ty sid suite suite results [] w Hready Hs (eq_sym (app_nil_r _)) Ho) as (Ei & Nd & Hit).
    pose proof Hready as (Hr & _). destruct (predefined_facts _ _ Hr) as (En & Hn & _).
    exists w1, sils. rewrite E. cbn [suite_silhouettes add_drawings]. rewrite app_nil_r. split; [ reflexivity | ]. split; [ exact D1 | ].
    split; [ exact (outcomes_after w w1 region r d sc D dist ty sid suite results Hready Hs Ho P1) | ]. split; [ | split; [ | exact F1 ] ].
    + intros q Hother. rewrite T1. unfold reports_after. destruct (find _ _) as [ it | ] eqn:Ef; [ | reflexivity ]. apply find_some in Ef. destruct Ef as [ Hin Eq ].
      apply String.eqb_eq in Eq. exfalso. destruct (nth_items _ _ _ Hin) as (i & pm & Hc & Hp). apply (Hother i _ pm Hc Hp). rewrite Eq, <- En. apply (report_at_path _ r Hn). apply (Hit _ Hin).
    + intros q Hother. rewrite P1. unfold pickles_after. destruct (find _ _) as [ it | ] eqn:Ef; [ | reflexivity ]. apply find_some in Ef. destruct Ef as [ Hin Eq ].
      apply String.eqb_eq in Eq. exfalso. destruct (nth_items _ _ _ Hin) as (i & pm & Hc & Hp). apply (Hother i _ pm Hc Hp). rewrite Eq, <- En. apply (saved_at_path _ r Hn). apply (Hit _ Hin).
  - exists w0, []. repeat split; auto.
Qed.

(** the histograms that can be made *)
Lemma histograms_made opts (w1 : world M) region r d sc D (dist : point -> point -> Q) ty sid suite before results rest rnd :
  ready env create_instance region r d sc D (fun q pt => Fin (dist q pt)) -> get_suite ty sid = Ok suite -> suite = (before ++ rest)%list ->
  outcomes choice env (w_pickles w1) r d sc D before results ->
  (o_variance opts = true -> asks_random opts rnd /\ In (o_bins opts) bin_names /\ any_order set_order /\ (forall c i, draws (draw c i)) /\
     Forall (fun pm => no_small_cluster (a3x d) (a3y d) (fst pm)) results) ->
  exists pics, Forall2 (fun it ds => if o_variance opts then variance opts (loaded D) (it_c it) r (cluster_list d sc (it_p it) (it_ms it)) = Ok ds else ds = [])
                 (map itemize (combine before results)) pics /\
    (if o_variance opts then hists_of region d (fun q pt => Fin (dist q pt)) rnd before results (List.concat pics) else List.concat pics = []).
Proof.
  intros Hready Hs Es Ho Hv. destruct (items_facts region r d sc D _ ty sid suite before results rest w1 Hready Hs Es Ho) as (Ei & Nd & Hit).
  pose proof Hready as (Hr & Hi & Hq & Hsp & Hl & HD & Hent). destruct (predefined_facts _ _ Hr) as (En & Hn & _).
  destruct (o_variance opts).
  - destruct (Hv eq_refl) as (Ha & Hb & Hord & Hd & Hsm).
    assert (Hone : forall it, In it (map itemize (combine before results)) -> exists what,
              variance opts (loaded D) (it_c it) r (cluster_list d sc (it_p it) (it_ms it)) = Ok [(histograms_at (rmeta_repr r) (it_c it) rnd, what)] /\
              histograms_picture (fun q pt => Fin (dist q pt)) (a3x d) (a3y d) (it_p it) (it_ms it) rnd what).
    { intros it Hin. destruct (Hit it Hin) as (A & _ & C & F & Hk).
      apply (histograms_ok cmap is_black choice env create_instance format_float score samples set_order draw sqrt r d sc D (fun q pt => Fin (dist q pt)) Hn Hi Hq HD Hent opts (it_c it) (it_p it) (it_ms it) rnd); auto.
      apply in_map_iff in Hin. destruct Hin as ([ c pm ] & <- & Hin). apply in_combine_r in Hin. rewrite Forall_forall in Hsm. apply (Hsm pm Hin). }
    clear - Hone En. unfold hists_of. rewrite <- En. revert Hone. generalize (combine before results) as l. induction l as [ | cr l IH ]; intros Hone.
    + exists []. split; constructor.
    + destruct IH as (pics & F & H); [ intros it Hin; apply Hone; right; exact Hin | ]. destruct (Hone (itemize cr) (or_introl eq_refl)) as (what & E & Hp).
      eexists (_ :: pics). split; [ constructor; [ exact E | exact F ] | ]. cbn [List.concat app]. constructor; [ | exact H ]. exists what. split; [ reflexivity | exact Hp ].
  - clear. generalize (combine before results) as l. intros l. exists (map (fun _ => []) l). split.
    + induction l as [ | a l IH ]; cbn [map]; constructor; auto.
    + induction l as [ | a l IH ]; cbn [map List.concat app]; auto.
Qed.
End Run.

(** C137: with its options the program writes the same files as without, and saves one silhouette picture and one picture of
    histograms per clustering, in the order of the suite, all the silhouettes first. *)
Theorem C137_written : forall M color (cmap : fnum -> color) is_black choice env create_instance format_coverage format_float score samples set_order draw sqrt
    opts (w : world M) region r d sc D (dist : point -> point -> Q) ty sid suite results av rnd,
  ready env create_instance region r d sc D (fun q pt => Fin (dist q pt)) -> get_suite ty sid = Ok suite -> outcomes choice env (w_pickles w) r d sc D suite results ->
  (o_silhouette opts = true -> Forall2 (fun c pm => silhouette_of score samples D (a3x d) (a3y d) (fst pm) (av c)) suite results) ->
  (o_variance opts = true -> asks_random opts rnd /\ In (o_bins opts) bin_names /\ any_order set_order /\ (forall c i, draws (draw c i)) /\
     Forall (fun pm => no_small_cluster (a3x d) (a3y d) (fst pm)) results) ->
  exists w' sils hists rows,
    analyze_suite_with cmap is_black choice env create_instance format_coverage format_float score samples set_order draw sqrt opts w region ty sid = (w', (sils ++ hists)%list, Ok tt) /\
    left_behind format_coverage format_float w w' region r d (fun q pt => Fin (dist q pt)) ty sid suite results rows /\
    (if o_silhouette opts then sils_of cmap region d av suite results sils else sils = []) /\
    (if o_variance opts then hists_of region d (fun q pt => Fin (dist q pt)) rnd suite results hists else hists = []).
Proof.
  intros M color cmap ib choice env create fc ff score samples so draw sqrt opts w region r d sc D dist ty sid suite results av rnd Hready Hs Ho Hsil Hvar.
  destruct (first_phase cmap ib choice env create fc ff score samples so draw sqrt opts av w region r d sc D _ ty sid suite results Hready Hs Ho Hsil) as (w1 & sils & E & D1 & Ho1 & T1 & P1 & HS).
  destruct (histograms_made cmap ib choice env create ff score samples so draw sqrt opts w1 region r d sc D dist ty sid suite suite results [] rnd Hready Hs (eq_sym (app_nil_r _)) Ho1 Hvar) as (pics & F & HH).
  destruct (rows_loop choice env create fc ff score samples so draw sqrt opts w1 region r d sc D _ ty sid suite suite results [] pics Hready Hs (eq_sym (app_nil_r _)) D1 Ho1 F) as (w' & E' & _ & T & P).
  pose proof (prefix_left_behind choice env create fc ff w1 region r d sc D _ ty sid suite suite results [] w' Hready Hs (eq_sym (app_nil_r _)) Ho1 T P) as (L1 & L2 & L3 & L4 & L5).
  exists w', sils, (List.concat pics). eexists. rewrite E, E'. cbn [analyze_clusterings_with add_drawings]. rewrite app_nil_r. split; [ reflexivity | ].
  split; [ | split; assumption ]. split; [ exact L1 | ]. split; [ exact L2 | ]. split; [ exact L3 | ]. split.
  - intros q Hq Hother. rewrite (L4 q Hq Hother). apply T1, Hother.
  - intros q Hother. rewrite (L5 q Hother). apply P1, Hother.
Qed.
Print Assumptions C137_written.

(** C137: without --silhouette and --variance the program does what C117 says, whatever the other options are. *)
Theorem C137_without_options : forall M color (cmap : fnum -> color) is_black choice env create_instance format_coverage format_float score samples set_order draw sqrt
    opts (w : world M) region ty sid, o_silhouette opts = false -> o_variance opts = false ->
  analyze_suite_with cmap is_black choice env create_instance format_coverage format_float score samples set_order draw sqrt opts w region ty sid =
  let '(w', result) := analyze_suite choice env create_instance format_coverage format_float w region ty sid in (w', [], result).
Proof.
  intros M color cmap ib choice env create fc ff score samples so draw sqrt opts w region ty sid Hs Hv.
  assert (Hp : forall (w : world M) c r, analyze_partition_with (color := color) choice env create fc ff so draw sqrt opts w c r =
             let '(w', result) := analyze_partition choice env create fc ff w c r in (w', [], result)).
  { intros w0 c r. unfold analyze_partition_with, analyze_partition. destruct (create r); [ | reflexivity ].
    destruct (partition_and_report _ _ _ _ _ _ _) as [ w' [ [ p [ ms | ] ] | e ] ]; try reflexivity.
    destruct (clusters_with_centroids _ _ _ _ _); [ | reflexivity ]. destruct (fold_left _ _ _) as [ [ [ s costs ] | e ] o ]; [ | reflexivity ]. rewrite Hv. reflexivity. }
  assert (Hc : forall path r suite (w : world M), analyze_clusterings_with (color := color) choice env create fc ff so draw sqrt opts w path r suite =
             let '(w', result) := analyze_clusterings choice env create fc ff w path r suite in (w', [], result)).
  { intros path r. induction suite as [ | c suite IH ]; intros w0; [ reflexivity | ]. cbn [analyze_clusterings_with analyze_clusterings]. rewrite Hp.
    destruct (analyze_partition _ _ _ _ _ _ _ _) as [ w1 [ row | e ] ]; [ | reflexivity ]. rewrite IH. destruct (analyze_clusterings _ _ _ _ _ _ _ _ _). reflexivity. }
  unfold analyze_suite_with, analyze_suite. destruct (region_by_name region) as [ r | ]; [ | reflexivity ]. cbn [bind]. destruct (get_suite ty sid) as [ suite | ]; [ | reflexivity ]. cbn [bind].
  destruct (load_distance_matrix_2d _ _ _ _) as [ [ m | e ] o ]; [ | reflexivity ]. rewrite Hs, Hc. destruct (analyze_clusterings _ _ _ _ _ _ _ _ _). reflexivity.
Qed.
Print Assumptions C137_without_options.

(** why the histograms of a partition cannot be made: numpy does not know the bins (a number, for example), the number of
    random points is not an integer, or a cluster has fewer than two points *)
Definition no_histograms (opts : options) (x y : nat) (p : crisp) : Prop :=
  ~ In (o_bins opts) bin_names \/
  (exists s, o_random opts = Some s /\ s <> ""%string /\ forall n, py_int s <> Ok n) \/
  (exists i, (0 <= i < pk p)%Z /\ forall q q', in_grid x y q -> in_grid x y q' -> label_at p q i -> label_at p q' i -> q = q').

Lemma no_histograms_fails {color} env set_order draw sqrt opts r d sc D c p ms k :
  qwf d sc -> square (a3x d * a3y d) D -> with_medoids (a3x d) (a3y d) k p ms -> no_histograms opts (a3x d) (a3y d) p ->
  exists e, @variance_analysis color env set_order draw sqrt opts (DObj PlainDTW (Some D) false) c r (cluster_list d sc p ms) = Raise e.
Proof.
  intros Hq HD (V & K & L & G) [ Hb | [ (s & Er & Hne & Hint) | (i & Hi & Hsmall) ] ]; unfold variance_analysis.
  - assert (Eb : is_bin_name (o_bins opts) = false).
    { apply Bool.not_true_iff_false. intros E. apply Hb. unfold is_bin_name in E. apply existsb_exists in E. destruct E as (s & Hin & E). apply String.eqb_eq in E. subst s. exact Hin. }
    destruct (random_points_of opts) as [ rnd | e ]; cbn [bind]; [ | eauto ]. destruct (cluster_histograms _ _ _ _ _ _ _ _ _ _) as [ [ panels name ] | e ]; cbn [bind]; [ | eauto ].
    rewrite Eb. cbn [andb]. eauto.
  - unfold random_points_of. rewrite Er. destruct s as [ | a s ]; [ congruence | ]. destruct (py_int (String a s)) as [ n | e ] eqn:E; [ exfalso; exact (Hint n eq_refl) | ]. cbn [bind]. eauto.
  - destruct (random_points_of opts) as [ rnd | e ]; cbn [bind]; [ | eauto ].
    destruct (nth_error ms (Z.to_nat i)) as [ m | ] eqn:Em; [ | apply nth_error_None in Em; lia ].
    assert (Gm : in_grid (a3x d) (a3y d) m) by (rewrite Forall_forall in G; apply G; eapply nth_error_In; exact Em).
    destruct (small_cluster_fails env (DObj PlainDTW (Some D) false) set_order (draw c) sqrt D (a3x d) (a3y d) (cluster_list d sc p ms) (c_repr c) rnd
                (Some (clustering_output_dir c r "dtw" "outputs")) (HRegion ("cluster" ++ str_int i)%string (TCluster (qregion d sc) p i) (Some m) None) m) as (e & E); auto.
    + unfold cluster_list. apply in_map_iff. exists (Z.to_nat i). rewrite Em. rewrite Z2Nat.id by lia. split; [ reflexivity | ]. apply in_seq. assert (Z.to_nat i < length ms) by (apply nth_error_Some; congruence). lia.
    + cbn [h_region]. split; [ exact (grid_of_q (fun _ => Ok (qregion d sc)) r d sc eq_refl Hq) | exact V ].
    + cbn [h_region]. destruct (Variance.members (TCluster (qregion d sc) p i) (a3x d) (a3y d)) as [ | q [ | q' l ] ] eqn:El; cbn [length]; [ lia | lia | exfalso ].
      assert (Hall : forall q0, In q0 (q :: q' :: l) -> in_grid (a3x d) (a3y d) q0 /\ label_at p q0 i).
      { intros q0 H0. rewrite <- El in H0. apply filter_In in H0. destruct H0 as [ H0 H1 ]. apply in_grid_iff in H0. split; [ exact H0 | ]. apply (inside_iff d sc p i q0 V H0). exact H1. }
      assert (Hnd : NoDup (q :: q' :: l)) by (rewrite <- El; apply NoDup_filter, grid_nodup). inversion_clear Hnd as [ | ? ? Hni _ ]. apply Hni. left. symmetry.
      destruct (Hall q (or_introl eq_refl)), (Hall q' (or_intror (or_introl eq_refl))). apply Hsmall; assumption.
    + rewrite E. cbn [bind]. eauto.
Qed.

(** C137: when the histograms of a clustering cannot be made the program stops: the table has the rows of the clusterings
    before it and not its own, its partition and its report are already written, and the earlier pictures stay. *)
Theorem C137_histograms_stop : forall M color (cmap : fnum -> color) is_black choice env create_instance format_coverage format_float score samples set_order draw sqrt
    opts (w : world M) region r d sc D (dist : point -> point -> Q) ty sid before c after results p ms results' av rnd,
  ready env create_instance region r d sc D (fun q pt => Fin (dist q pt)) -> get_suite ty sid = Ok (before ++ c :: after)%list -> length before = length results ->
  outcomes choice env (w_pickles w) r d sc D (before ++ c :: after) (results ++ (p, ms) :: results') ->
  (o_silhouette opts = true -> Forall2 (fun c pm => silhouette_of score samples D (a3x d) (a3y d) (fst pm) (av c)) (before ++ c :: after) (results ++ (p, ms) :: results')) ->
  o_variance opts = true ->
  (before = [] \/ (asks_random opts rnd /\ In (o_bins opts) bin_names /\ any_order set_order /\ (forall c i, draws (draw c i)) /\
     Forall (fun pm => no_small_cluster (a3x d) (a3y d) (fst pm)) results)) ->
  no_histograms opts (a3x d) (a3y d) p ->
  exists w' sils hists rows e,
    analyze_suite_with cmap is_black choice env create_instance format_coverage format_float score samples set_order draw sqrt opts w region ty sid = (w', (sils ++ hists)%list, Raise e) /\
    w_texts w' (table_at region ty sid) = Some (suite_csv rows) /\ length rows = length before /\
    (forall i c0 p0 ms0, nth_error before i = Some c0 -> nth_error results i = Some (p0, ms0) ->
       exists row, nth_error rows i = Some row /\ row_of format_float (fun q pt => Fin (dist q pt)) (a3x d) (a3y d) (rm_region r) c0 p0 ms0 row) /\
    w_pickles w' (saved_at region c) = Some (FPartition (p, Some ms)) /\
    (exists lines, clustering_report format_coverage (c_k c) p = Ok lines /\ w_texts w' (report_at region c) = Some lines) /\
    (if o_silhouette opts then sils_of cmap region d av (before ++ c :: after) (results ++ (p, ms) :: results') sils else sils = []) /\
    hists_of region d (fun q pt => Fin (dist q pt)) rnd before results hists.
Proof.
  intros M color cmap ib choice env create fc ff score samples so draw sqrt opts w region r d sc D dist ty sid before c after results p ms results' av rnd Hready Hs Hlen Ho Hsil Hv Hbefore Hno.
  destruct (first_phase cmap ib choice env create fc ff score samples so draw sqrt opts av w region r d sc D _ ty sid _ _ Hready Hs Ho Hsil) as (w1 & sils & E & D1 & Ho1 & _ & _ & HS).
  unfold outcomes in Ho1. apply Forall2_app_inv_l in Ho1. destruct Ho1 as (ra & rb & Ha & Hb & Er).
  assert (Hla : length ra = length results) by (rewrite <- (forall2_length _ _ _ Ha); exact Hlen).
  assert (ra = results /\ rb = (p, ms) :: results') as [ -> -> ].
  { clear - Er Hla. revert ra Er Hla. induction results as [ | a results IH ]; intros [ | b ra ] Er Hla; cbn in *; try discriminate; [ auto | ]. injection Er as -> Er.
    destruct (IH ra Er ltac:(lia)) as [ -> -> ]. auto. }
  inversion Hb as [ | ? ? ? ? [ HU HW ] Hrest ]; subst. cbn [fst snd] in HU, HW.
  pose proof Hready as (Hr & Hi & Hq & Hsp & Hl & HD & Hent). destruct (predefined_facts _ _ Hr) as (En & Hnm & _). destruct (suite_clean _ _ _ Hs) as (Cs & Nd & Cm).
  assert (Hin : In c (before ++ c :: after)) by (apply in_or_app; right; left; reflexivity). destruct (Cm _ Hin) as [ Hm _ ].
  assert (Hpics : exists pics, Forall2 (fun it ds => if o_variance opts then @variance_analysis color env so draw sqrt opts (DObj PlainDTW (Some D) false) (it_c it) r (cluster_list d sc (it_p it) (it_ms it)) = Ok ds else ds = [])
                 (map itemize (combine before results)) pics /\ hists_of region d (fun q pt => Fin (dist q pt)) rnd before results (List.concat pics)).
  { destruct Hbefore as [ -> | Hok ]; [ exists []; split; constructor | ].
    destruct (histograms_made cmap ib choice env create ff score samples so draw sqrt opts w1 region r d sc D dist ty sid _ before results (c :: after) rnd Hready Hs eq_refl Ha (fun _ => Hok)) as (pics & F & HH).
    exists pics. split; [ exact F | ]. rewrite Hv in HH. exact HH. }
  destruct Hpics as (pics & F & HH).
  destruct (rows_loop choice env create fc ff score samples so draw sqrt opts w1 region r d sc D _ ty sid _ before results (c :: after) pics Hready Hs eq_refl D1 Ha F) as (w2 & E' & D2 & T & P).
  pose proof (prefix_left_behind choice env create fc ff w1 region r d sc D _ ty sid _ before results (c :: after) w2 Hready Hs eq_refl Ha T P) as (L1 & L2 & L3 & _ & L5).
  assert (HU2 : used choice env (w_pickles w2) r (dmeta_of r) (qregion d sc) (DObj PlainDTW (Some D) false) c p ms).
  { unfold used in *. rewrite En in *. rewrite L5; [ exact HU | ]. intros i c' pm Hc' _ Eq. apply nth_error_In in Hc'.
    assert (Hin' : In c' (before ++ c :: after)) by (apply in_or_app; left; exact Hc'). destruct (Cm _ Hin') as [ Hm' _ ].
    rewrite <- En, <- !(saved_at_path _ r Hnm) in Eq by assumption. apply pickle_path_inj in Eq; auto.
    rewrite map_app in Nd. cbn [map] in Nd. apply NoDup_remove_2 in Nd. apply Nd, in_or_app. left. rewrite Eq. apply in_map, Hc'. }
  destruct (step choice env create fc ff r d sc D _ Hnm Hi Hsp Hl HD Hent w2 (c, p, ms) Hm D2 HU2 HW) as (w3 & cells & E3 & _ & _ & T3 & P3). cbn [it_c it_p it_ms fst snd] in *.
  destruct (step_with (color := color) choice env create fc ff score samples so draw sqrt r d sc D _ Hnm Hi Hsp Hl HD Hent opts w2 c p ms Hm D2 HU2 HW) as (w3' & cells' & E3' & E4).
  rewrite E3 in E3'. injection E3' as <- <-. destruct (no_histograms_fails (color := color) env so draw sqrt opts r d sc D c p ms (c_k c) Hq HD HW Hno) as (e & Ee).
  exists w3, sils, (List.concat pics). eexists _, e. split; [ | split; [ | split; [ | split; [ | split; [ | split; [ | split; [ exact HS | exact HH ] ] ] ] ] ] ].
  - rewrite E, E'. cbn [analyze_clusterings_with]. rewrite E4, Hv, Ee. cbn [add_drawings]. rewrite app_nil_r. reflexivity.
  - rewrite T3. destruct (String.eqb_spec (table_at region ty sid) (report_path c r "dtw" "outputs")) as [ Eq | _ ]; [ | exact L1 ].
    exfalso. assert (Hpath : report_path c r "dtw" "outputs" <> table_at region ty sid) by (rewrite <- En, <- (table_at_path ty sid r Hnm); apply report_not_analysis; auto). congruence.
  - rewrite L2. symmetry. exact Hlen.
  - intros i c0 p0 ms0 Hc Hp. apply (L3 i c0 p0 ms0 Hc Hp).
  - rewrite P3. rewrite <- En, <- (saved_at_path c r Hnm Hm), String.eqb_refl. reflexivity.
  - destruct HW as (V & K & _). destruct (C80_report_reads_back fc (c_k c) p _ _ V ltac:(lia)) as (lines & rows & Ec & _). exists lines. split; [ exact Ec | ].
    rewrite T3, <- En, <- (report_at_path c r Hnm Hm), String.eqb_refl. unfold report. rewrite Ec. reflexivity.
Qed.
Print Assumptions C137_histograms_stop.

(** C137: when the silhouette of a clustering cannot be computed, or its partition, the program stops with that exception; the
    pictures of the clusterings before it stay, and the table is as it was before the run. *)
Theorem C137_silhouette_stops : forall M color (cmap : fnum -> color) is_black choice env create_instance format_coverage format_float score samples set_order draw sqrt
    opts (w : world M) region r d sc D dist ty sid before c after results av e,
  ready env create_instance region r d sc D dist -> get_suite ty sid = Ok (before ++ c :: after)%list -> o_silhouette opts = true ->
  outcomes choice env (w_pickles w) r d sc D before results ->
  Forall2 (fun c pm => silhouette_of score samples D (a3x d) (a3y d) (fst pm) (av c)) before results ->
  ((exists p ms l, used choice env (w_pickles w) r (dmeta_of r) (qregion d sc) (DObj PlainDTW (Some D) false) c p ms /\ with_medoids (a3x d) (a3y d) (c_k c) p ms /\
      labels_in_order p (a3x d) (a3y d) l /\ score D l = Raise e) \/
   ((forall q, w_pickles w (saved_at region c) <> Some (FPartition q)) /\
    algorithm_partition_impl choice env c (Some (dmeta_of r)) (qregion d sc) true (DObj PlainDTW (Some D) false) = Raise e)) ->
  exists w' sils,
    analyze_suite_with cmap is_black choice env create_instance format_coverage format_float score samples set_order draw sqrt opts w region ty sid = (w', sils, Raise e) /\
    sils_of cmap region d av before results sils /\ w_texts w' (table_at region ty sid) = w_texts w (table_at region ty sid).
Proof.
  intros M color cmap ib choice env create fc ff score samples so draw sqrt opts w region r d sc D dist ty sid before c after results av e Hready Hs Hopt Ho Hsil Hfail.
  rewrite (run_start cmap ib choice env create fc ff score samples so draw sqrt opts w region r d sc D dist ty sid _ Hready Hs), Hopt.
  destruct (silhouettes_prefix cmap ib choice env create fc ff score samples so draw av (World (w_pickles w) (w_texts w) (DObj PlainDTW (Some D) false)) (Fin (-1), None) region r d sc D dist ty sid _ before results (c :: after)
     Hready Hs eq_refl eq_refl Ho Hsil) as (w1 & sils & E & D1 & T1 & P1 & F1). rewrite E.
  pose proof Hready as (Hr & Hi & Hq & Hsp & Hl & HD & Hent). destruct (predefined_facts _ _ Hr) as (En & Hnm & _). destruct (suite_clean _ _ _ Hs) as (Cs & Nd & Cm).
  assert (Hin : In c (before ++ c :: after)) by (apply in_or_app; right; left; reflexivity). destruct (Cm _ Hin) as [ Hm _ ].
  destruct (items_facts choice env create region r d sc D dist ty sid _ before results (c :: after) w Hready Hs eq_refl Ho) as (Ei & Ndi & Hit).
  assert (Etab : w_texts w1 (table_at region ty sid) = w_texts w (table_at region ty sid)).
  { rewrite T1. unfold reports_after. destruct (find _ _) as [ it | ] eqn:Ef; [ | reflexivity ]. apply find_some in Ef. destruct Ef as [ Hf Eq ]. apply String.eqb_eq in Eq.
    destruct (Hit it Hf) as (_ & Hne & _). congruence. }
  assert (Epic : w_pickles w1 (saved_at region c) = w_pickles w (saved_at region c)).
  { rewrite P1. unfold pickles_after. destruct (find _ _) as [ it | ] eqn:Ef; [ | reflexivity ]. apply find_some in Ef. destruct Ef as [ Hf Eq ]. apply String.eqb_eq in Eq. exfalso.
    destruct (Hit it Hf) as (Hm' & _). rewrite <- En, <- (saved_at_path c r Hnm Hm) in Eq. apply pickle_path_inj in Eq; auto.
    rewrite map_app in Nd. cbn [map] in Nd. apply NoDup_remove_2 in Nd. apply Nd, in_or_app. left. rewrite Eq. apply in_map. rewrite <- Ei. apply in_map, Hf. }
  cbn [suite_silhouettes]. destruct Hfail as [ (p & ms & l & HU & HW & Hlab & Hsc) | [ Hn Ea ] ].
  - destruct (partition_step choice env fc score samples draw r d sc D Hnm Hsp Hl HD w1 c p ms Hm D1) as (w2 & E2 & D2 & T2 & P2); [ | exact HW | ].
    { unfold used in *. rewrite En in *. rewrite Epic. exact HU. }
    rewrite E2. cbn [fst]. rewrite D2, (silhouette_fails cmap ib choice ff score samples draw r d sc D dist Hnm Hsp HD Hent c p l e (proj1 HW) Hlab Hsc).
    cbn [add_drawings]. exists w2, sils. rewrite app_nil_r. split; [ reflexivity | ]. split; [ exact F1 | ]. rewrite T2.
    destruct (String.eqb_spec (table_at region ty sid) (report_path c r "dtw" "outputs")) as [ Eq | _ ]; [ | exact Etab ].
    exfalso. assert (Hpath : report_path c r "dtw" "outputs" <> table_at region ty sid) by (rewrite <- En, <- (table_at_path ty sid r Hnm); apply report_not_analysis; auto). congruence.
  - destruct (partition_step_fails choice env fc r d sc D Hnm Hsp Hl HD w1 c e Hm D1) as (w2 & E2 & _ & T2 & _); [ rewrite En, Epic; exact Hn | exact Ea | ].
    rewrite E2. cbn [add_drawings]. exists w2, sils. rewrite app_nil_r. split; [ reflexivity | ]. split; [ exact F1 | ]. rewrite T2. exact Etab.
Qed.
Print Assumptions C137_silhouette_stops.

(** C137: without the distances file --silhouette fails before anything is drawn, and the table is as it was before the run
    (without --silhouette it is overwritten, C117_missing_distances). *)
Theorem C137_missing_distances : forall M color (cmap : fnum -> color) is_black choice env create_instance format_coverage format_float score samples set_order draw sqrt
    opts (w : world M) region r ty sid suite,
  region_by_name region = Ok r -> get_suite ty sid = Ok suite -> np_load env (distances_filename r) = Raise IOError -> o_silhouette opts = true ->
  exists w' e,
    analyze_suite_with cmap is_black choice env create_instance format_coverage format_float score samples set_order draw sqrt opts w region ty sid = (w', [], Raise e) /\
    w_texts w' (table_at region ty sid) = w_texts w (table_at region ty sid).
Proof.
  intros M color cmap ib choice env create fc ff score samples so draw sqrt opts w region r ty sid suite Hr Hs Hl Hopt. destruct (predefined_facts _ _ Hr) as (En & Hn & _).
  destruct (suite_clean _ _ _ Hs) as (Cs & Nd & Cm). unfold analyze_suite_with. rewrite Hr, Hs. cbn [bind]. unfold load_distance_matrix_2d, base_load. cbn [d_kind]. rewrite Hl, Hopt.
  unfold silhouette_analysis. cbn [w_distance d_matrix w_pickles w_texts]. destruct (create r) as [ spt | e ]; [ | eexists _, e; split; reflexivity ].
  unfold load_distance_matrix_2d, base_load. cbn [d_kind]. rewrite Hl. cbn [bind]. set (w0 := World _ _ _).
  destruct suite as [ | c rest ].
  { exfalso. destruct (proj2 (proj1 (C112_which_suites ty sid)) (ex_intro _ _ Hs)) as [ c Hc ]. apply (proj1 (C112_suites _ _ _ Hs)) in Hc. destruct Hc. }
  destruct (Cm c (or_introl eq_refl)) as [ Hm Hk ].
  assert (Hpath : report_path c r "dtw" "outputs" <> table_at region ty sid) by (rewrite <- En, <- (table_at_path ty sid r Hn); apply report_not_analysis; auto).
  assert (Hsave : forall w1 p, w_distance w1 = DObj PlainDTW None false -> w_texts w1 (table_at region ty sid) = w_texts w (table_at region ty sid) ->
     let w2 := fst (save_to_csv fc w1 c r p "outputs") in w_distance w2 = DObj PlainDTW None false /\ w_texts (M := M) w2 (table_at region ty sid) = w_texts w (table_at region ty sid)).
  { intros w1 p A B. unfold save_to_csv. destruct (clustering_report fc (c_k c) p); cbn [fst write_text w_distance w_texts]; rewrite (proj2 (String.eqb_neq _ _) (not_eq_sym Hpath)); auto. }
  assert (Hpart : let '(w2, _) := partition_and_report choice env fc w0 c r spt in w_distance w2 = DObj PlainDTW None false /\ w_texts w2 (table_at region ty sid) = w_texts w (table_at region ty sid)).
  { unfold partition_and_report. destruct (try_load_previous_partition _ _ _ _ _) as [ p | ].
    - pose proof (Hsave w0 (fst p) eq_refl eq_refl) as HS. cbn zeta in HS. destruct (save_to_csv fc w0 c r (fst p) "outputs") as [ w2 [ ? | ? ] ]; exact HS.
    - unfold clustering_impl. cbn [try_load_distance_matrix load_distance_matrix_md dmeta_of md_filename md_region]. unfold load_distance_matrix_2d, base_load. unfold w0. cbn [d_kind w_distance]. rewrite Hl.
      destruct (algorithm_partition_impl _ _ _ _ _ _ _) as [ p | e ]; [ | split; reflexivity ].
      match goal with |- context [ save_to_csv fc ?w1 c r (fst p) "outputs" ] => pose proof (Hsave w1 (fst p) eq_refl eq_refl) as HS; cbn zeta in HS; destruct (save_to_csv fc w1 c r (fst p) "outputs") as [ w2 [ ? | ? ] ]; exact HS end. }
  cbn [suite_silhouettes]. destruct (partition_and_report choice env fc w0 c r spt) as [ w2 [ p | e ] ]; destruct Hpart as [ D2 T2 ]; [ | eexists _, e; split; [ reflexivity | exact T2 ] ].
  unfold suite_silhouette. rewrite D2. cbn [d_matrix bind]. eexists _, _. split; [ reflexivity | exact T2 ].
Qed.
Print Assumptions C137_missing_distances.

(** C137: the silhouette analysis reports the first clustering with the greatest average, if one exceeds -1. *)
Theorem C137_best : forall M color (cmap : fnum -> color) is_black choice env create_instance format_coverage score samples
    (w : world M) region r d sc D dist ty sid suite results av,
  ready env create_instance region r d sc D dist -> get_suite ty sid = Ok suite -> w_distance w = DObj PlainDTW (Some D) false -> outcomes choice env (w_pickles w) r d sc D suite results ->
  Forall2 (fun c pm => silhouette_of score samples D (a3x d) (a3y d) (fst pm) (av c)) suite results ->
  exists w' sils b o, silhouette_analysis cmap is_black choice env create_instance format_coverage score samples w r suite = (w', sils, Ok (b, o)) /\
    sils_of cmap region d av suite results sils /\
    match o with
    | Some c => exists l1 l2, suite = (l1 ++ c :: l2)%list /\ b = fst (av c) /\ flt (Fin (-1)) b = true /\
        (forall c', In c' suite -> flt b (fst (av c')) = false) /\ (forall c', In c' l1 -> flt (fst (av c')) b = true \/ fst (av c') = NaN)
    | None => b = Fin (-1) /\ (forall c, In c suite -> flt (Fin (-1)) (fst (av c)) = false)
    end.
Proof.
  intros M color cmap ib choice env create fc score samples w region r d sc D dist ty sid suite results av Hready Hs Dw Ho Hsil.
  destruct (silhouettes_prefix cmap ib choice env create fc (fun _ _ => ""%string) score samples (fun l => l) (fun _ _ _ _ => Ok []) av w (Fin (-1), None) region r d sc D dist ty sid suite suite results []
     Hready Hs (eq_sym (app_nil_r _)) Dw Ho Hsil) as (w1 & sils & E & D1 & T1 & P1 & F1). pose proof Hready as (_ & Hi & _).
  destruct (C69_silhouette_best suite (fun c => Ok (fst (av c))) (fun c => fst (av c)) (fun c _ => eq_refl)) as (b & o & Eb & Hb).
  assert (Ef : fold_left (better av) suite (Fin (-1), None) = (b, o)).
  { unfold perform_analysis in Eb. revert Eb. generalize (Fin (-1), @None cmeta) as best. induction suite as [ | c suite' IH ] in |- *; intros best Eb; cbn [foldM fold_left bind] in *; [ congruence | ].
    apply IH. exact Eb. }
  exists w1, sils, b, o. split; [ | split; [ exact F1 | exact Hb ] ].
  unfold silhouette_analysis. rewrite Hi, Dw. cbn [d_matrix]. replace (World (w_pickles w) (w_texts w) (DObj PlainDTW (Some D) false)) with w by (destruct w; cbn in *; subst; reflexivity).
  rewrite E, Ef. cbn [suite_silhouettes add_drawings]. rewrite app_nil_r. reflexivity.
Qed.
Print Assumptions C137_best.

(** --bins is passed on as text ("bins argument for plt.hist()", which takes a number of bins): with a number, --variance always
    stops the program at the first clustering, whatever the partitions are, and leaves the table without rows. *)
Theorem C137_number_of_bins_refuted : forall M color (cmap : fnum -> color) is_black choice env create_instance format_coverage format_float score samples set_order draw sqrt
    opts (w : world M) region r d sc D (dist : point -> point -> Q) ty sid suite results n,
  ready env create_instance region r d sc D (fun q pt => Fin (dist q pt)) -> get_suite ty sid = Ok suite -> outcomes choice env (w_pickles w) r d sc D suite results ->
  o_silhouette opts = false -> o_variance opts = true -> o_bins opts = str_int n ->
  exists w' e,
    analyze_suite_with cmap is_black choice env create_instance format_coverage format_float score samples set_order draw sqrt opts w region ty sid = (w', [], Raise e) /\
    w_texts w' (table_at region ty sid) = Some (suite_csv []).
Proof.
  intros M color cmap ib choice env create fc ff score samples so draw sqrt opts w region r d sc D dist ty sid suite results n Hready Hs Ho Hsil Hv Hb.
  destruct suite as [ | c rest ].
  { exfalso. destruct (proj2 (proj1 (C112_which_suites ty sid)) (ex_intro _ _ Hs)) as [ c Hc ]. apply (proj1 (C112_suites _ _ _ Hs)) in Hc. destruct Hc. }
  pose proof Ho as Ho'. inversion Ho' as [ | ? [ p ms ] ? results' _ _ ]; subst results.
  destruct (C137_histograms_stop M color cmap ib choice env create fc ff score samples so draw sqrt opts w region r d sc D dist ty sid [] c rest [] p ms results'
     (fun _ => (NaN, [])) None Hready Hs eq_refl Ho) as (w' & sils & hists & rows & e & E & T & L & _ & _ & _ & HS & HH).
  - rewrite Hsil. discriminate.
  - exact Hv.
  - left. reflexivity.
  - left. rewrite Hb. pose proof (py_int_str n) as Hi. intros Hin. cbn [bin_names In] in Hin.
    repeat match type of Hin with _ \/ _ => destruct Hin as [ Hin | Hin ] end; try contradiction; rewrite <- Hin in Hi; vm_compute in Hi; discriminate.
  - rewrite Hsil in HS. subst sils. exists w', e. unfold hists_of in HH. cbn [combine] in HH. inversion HH; subst. destruct rows; [ | discriminate ]. split; [ exact E | exact T ].
Qed.
Print Assumptions C137_number_of_bins_refuted.

(* ---------- an example: the regular partitions of the region of 7 by 10 points ---------- *)
Definition ex137_score (_ : mat) (_ : list Z) : res fnum := Ok (Fin (1 # 2)).
Definition ex137_samples (_ : mat) (l : list Z) : res (list fnum) := Ok (repeat (Fin (1 # 2)) (length l)).
Definition ex137_w : world unit := World (fun _ => None) (fun _ => None) (fresh PlainDTW).
Lemma ex137_regular : get_suite "regular" "quick" = Ok [CRegular 2; CRegular 3] /\ exists r p2 m2 p3 m3,
  ready ex7_env (fun _ => Ok (qregion ex7_d None)) "nordeste_small_2015_2015_1spd" r ex7_d None ex7_matrix (fun q pt => Fin (ex7_dist q pt)) /\
  outcomes ex7_choice ex7_env (w_pickles ex137_w) r ex7_d None ex7_matrix [CRegular 2; CRegular 3] [(p2, m2); (p3, m3)] /\
  no_small_cluster 7 10 p2 /\ no_small_cluster 7 10 p3.
Proof.
  split; [ reflexivity | ]. destruct ex7_ready as [ r Hready ].
  destruct (C117_regular_suite unit ex7_choice ex7_env (fun _ => Ok (qregion ex7_d None)) (fun _ => None) _ r ex7_d None ex7_matrix _ "quick" [CRegular 2; CRegular 3] Hready eq_refl) as (results & Ho & Hp).
  - intros c _ q. discriminate.
  - intros c [ <- | [ <- | [] ] ]; eexists; vm_compute; reflexivity.
  - inversion Hp as [ | ? [ p2 m2 ] ? ? [ E2 _ ] Hp' ]; subst. inversion Hp' as [ | ? [ p3 m3 ] ? ? [ E3 _ ] Hp'' ]; subst. inversion Hp''; subst. cbn [fst c_k] in E2, E3.
    exists r, p2, m2, p3, m3. split; [ exact Hready | ]. split; [ exact Ho | ].
    assert (G : forall a b : Z, (0 <= a < 7)%Z -> (0 <= b < 10)%Z -> in_grid 7 10 (a, b)) by (intros a b A B; split; cbn [fst snd]; lia).
    split; intros i Hi.
    + vm_compute in E2. injection E2 as <-. cbn [pk] in Hi. assert (i = 0 \/ i = 1)%Z as [ -> | -> ] by lia;
        [ exists (0, 0)%Z, (1, 0)%Z | exists (0, 9)%Z, (1, 9)%Z ]; repeat split; try lia; discriminate.
    + vm_compute in E3. injection E3 as <-. cbn [pk] in Hi. assert (i = 0 \/ i = 1 \/ i = 2)%Z as [ -> | [ -> | -> ] ] by lia;
        [ exists (0, 0)%Z, (1, 0)%Z | exists (0, 4)%Z, (1, 4)%Z | exists (0, 9)%Z, (1, 9)%Z ]; repeat split; try lia; discriminate.
Qed.
Lemma ex137_silhouettes p : valid_partition p 7 10 -> silhouette_of ex137_score ex137_samples ex7_matrix 7 10 p (Fin (1 # 2), repeat (Fin (1 # 2)) 70).
Proof.
  intros V. exists (a2d (labels p)). pose proof V as (X & Y & W & _). assert (Ll : length (a2d (labels p)) = 70) by (rewrite W, X, Y; reflexivity).
  split; [ apply in_order_labels, V | ]. split; [ reflexivity | ]. split; [ unfold ex137_samples; rewrite Ll; reflexivity | reflexivity ].
Qed.
Example C137_ex : exists w' sils hists rows,
  analyze_suite_with (fun v => v) (fun _ => false) ex7_choice ex7_env (fun _ => Ok (qregion ex7_d None)) (fun _ => "v"%string) (fun _ _ => "c"%string)
    ex137_score ex137_samples (fun l => l) (fun _ => ex_draw) (fun v => v) (Options true true (Some "4"%string) "auto") ex137_w "nordeste_small_2015_2015_1spd" "regular" "quick" = (w', (sils ++ hists)%list, Ok tt) /\
  map fst sils = ["outputs/nordeste_small_2015_2015_1spd/dtw/regular_k2/silhouette-regular_k2.pdf"; "outputs/nordeste_small_2015_2015_1spd/dtw/regular_k3/silhouette-regular_k3.pdf"]%string /\
  map fst hists = ["outputs/nordeste_small_2015_2015_1spd/dtw/regular_k2/variance-histograms__regular_k2__random4.pdf"; "outputs/nordeste_small_2015_2015_1spd/dtw/regular_k3/variance-histograms__regular_k3__random4.pdf"]%string /\
  w_texts w' "outputs/nordeste_small_2015_2015_1spd/dtw/clustering__regular-quick.csv" = Some (suite_csv rows) /\ length rows = 2.
Proof.
  destruct ex137_regular as (Es & r & p2 & m2 & p3 & m3 & Hready & Ho & H2 & H3).
  destruct (C137_written unit fnum (fun v => v) (fun _ => false) ex7_choice ex7_env (fun _ => Ok (qregion ex7_d None)) (fun _ => "v"%string) (fun _ _ => "c"%string)
    ex137_score ex137_samples (fun l => l) (fun _ => ex_draw) (fun v => v) (Options true true (Some "4"%string) "auto") ex137_w _ r ex7_d None ex7_matrix ex7_dist "regular" "quick" _ _
    (fun _ => (Fin (1 # 2), repeat (Fin (1 # 2)) 70)) (Some 4%Z) Hready Es Ho) as (w' & sils & hists & rows & E & (T & L & _) & HS & HH).
  - intros _. pose proof Ho as Ho'. inversion Ho' as [ | ? ? ? ? [ _ (V2 & _) ] Hr ]; subst. inversion Hr as [ | ? ? ? ? [ _ (V3 & _) ] _ ]; subst.
    constructor; [ apply ex137_silhouettes, V2 | ]. constructor; [ apply ex137_silhouettes, V3 | constructor ].
  - intros _. split; [ split; [ lia | reflexivity ] | ]. split; [ left; reflexivity | ]. split; [ intros l; apply Permutation_refl | ]. split; [ intros c i; apply ex_draw_ok | ].
    constructor; [ exact H2 | ]. constructor; [ exact H3 | constructor ].
  - exists w', sils, hists, rows. split; [ exact E | ]. cbn [o_silhouette o_variance] in HS, HH. unfold sils_of, hists_of in *. cbn [combine] in HS, HH. split; [ | split; [ | split; [ exact T | rewrite L; reflexivity ] ] ].
    + inversion HS as [ | ? ? ? ? (x1 & -> & _) HS' ]; subst. inversion HS' as [ | ? ? ? ? (x2 & -> & _) HS'' ]; subst. inversion HS''; subst. reflexivity.
    + inversion HH as [ | ? ? ? ? (x1 & -> & _) HS' ]; subst. inversion HS' as [ | ? ? ? ? (x2 & -> & _) HS'' ]; subst. inversion HS''; subst. reflexivity.
Qed.
(** ten bins cannot be asked for: the table is left without rows *)
Example C137_ex_ten_bins : exists w' e,
  analyze_suite_with (fun v => v) (fun _ => false) ex7_choice ex7_env (fun _ => Ok (qregion ex7_d None)) (fun _ => "v"%string) (fun _ _ => "c"%string)
    ex137_score ex137_samples (fun l => l) (fun _ => ex_draw) (fun v => v) (Options false true None "10") ex137_w "nordeste_small_2015_2015_1spd" "regular" "quick" = (w', [], Raise e) /\
  w_texts w' "outputs/nordeste_small_2015_2015_1spd/dtw/clustering__regular-quick.csv" = Some (suite_csv []).
Proof.
  destruct ex137_regular as (Es & r & p2 & m2 & p3 & m3 & Hready & Ho & H2 & H3).
  destruct (C137_histograms_stop unit fnum (fun v => v) (fun _ => false) ex7_choice ex7_env (fun _ => Ok (qregion ex7_d None)) (fun _ => "v"%string) (fun _ _ => "c"%string)
    ex137_score ex137_samples (fun l => l) (fun _ => ex_draw) (fun v => v) (Options false true None "10") ex137_w _ r ex7_d None ex7_matrix ex7_dist "regular" "quick" [] (CRegular 2) [CRegular 3] [] p2 m2 [(p3, m3)]
    (fun _ => (NaN, [])) None Hready Es eq_refl Ho) as (w' & sils & hists & rows & e & E & T & L & _ & _ & _ & HS & HH).
  - cbn [o_silhouette]. discriminate.
  - reflexivity.
  - left. reflexivity.
  - left. cbn [o_bins bin_names In]. intuition discriminate.
  - cbn [o_silhouette] in HS. subst sils. exists w', e. unfold hists_of in HH. cbn [combine] in HH. inversion HH; subst. destruct rows; [ | discriminate ]. split; [ exact E | exact T ].
Qed.
