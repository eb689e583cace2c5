(** C117: the program that analyses every clustering of a suite. *)
From Coq Require Import String Lia Lqa.
From Verif Require Import Base.Py Base.PyFacts Base.Str Base.StrFacts Base.Arr Base.ArrFacts Base.Float Base.FloatFacts Model.Region Model.Arrays Model.Distance
  Model.KMedoids Model.Clustering Model.Variance Model.SolverFiles Model.Algorithms Model.Programs Model.Dnn Model.PartitionAnalysis
  Spec.Grid Spec.Partition Spec.Distance Spec.Solver Spec.SolverFiles Spec.Programs Spec.Algorithms Spec.PartitionAnalysis
  Proofs.RegionFacts Proofs.PartitionFacts Proofs.ProperFacts Proofs.SolverFacts Proofs.ArraysFacts Proofs.DistanceFacts Proofs.DistanceObjFacts Proofs.VarianceFacts
  Proofs.KMedoidsFacts Proofs.ReportFacts Proofs.ClusteringFacts Proofs.NameFacts Proofs.ProgramFacts Proofs.FilesFacts Proofs.AnalysisFacts
  Props.Distance Props.Clustering Props.SolverFiles Props.Programs Props.Algorithms.
From Coq Require Import ZifyBool ZifyNat.
Local Notation length := List.length.
Local Open Scope nat_scope.

Definition itemize (cr : cmeta * (crisp * list point)) : item := (fst cr, fst (snd cr), snd (snd cr)).
Lemma suite_clean ty sid suite : get_suite ty sid = Ok suite ->
  has_char "/" (suite_repr ty sid) = false /\ NoDup (map c_repr suite) /\ forall c, In c suite -> has_char "/" (mode_of c) = false /\ (2 <= c_k c)%Z.
Proof.
  intros H. destruct (C112_suites _ _ _ H) as [ I N ]. split; [ | split; [ exact N | ] ].
  - destruct (proj2 (proj1 (C112_which_suites ty sid)) (ex_intro _ _ H)) as [ c Hc ]. inversion Hc; reflexivity.
  - intros c Hc. apply I in Hc. inversion Hc; subst; cbn; split; auto; lia.
Qed.
Lemma combine_fst {A B} (l : list A) : forall l' : list B, length l = length l' -> map fst (combine l l') = l.
Proof. induction l as [ | a l IH ]; intros [ | b l' ] E; cbn in *; try discriminate; auto. f_equal. apply IH. lia. Qed.
Lemma combine_nth_error {A B} (l : list A) : forall (l' : list B) i a b, nth_error l i = Some a -> nth_error l' i = Some b -> nth_error (combine l l') i = Some (a, b).
Proof. induction l as [ | a0 l IH ]; intros [ | b0 l' ] [ | i ] a b Ha Hb; cbn in *; try discriminate; [ congruence | ]. apply IH; auto. Qed.
Lemma forall2_length {A B} (R : A -> B -> Prop) l l' : Forall2 R l l' -> length l = length l'.
Proof. induction 1; cbn; congruence. Qed.
Lemma nodup_app_l {A} (l l' : list A) : NoDup (l ++ l') -> NoDup l.
Proof. induction l as [ | a l IH ]; cbn; intros H; [ constructor | ]. inversion_clear H as [ | ? ? Hn Hd ]. constructor; [ | apply IH, Hd ]. intros Hi. apply Hn, in_or_app. left. exact Hi. Qed.
Lemma nth_error_same {A} (l : list A) : forall l', (forall i, nth_error l i = nth_error l' i) -> l = l'.
Proof. induction l as [ | a l IH ]; intros [ | b l' ] H; auto; [ specialize (H 0); discriminate | specialize (H 0); discriminate | ].
  f_equal; [ specialize (H 0); cbn in H; congruence | apply IH; intros i; apply (H (S i)) ]. Qed.
Lemma Forall2_in {A B} (R : A -> B -> Prop) l l' : Forall2 R l l' -> forall cr, In cr (combine l l') -> R (fst cr) (snd cr).
Proof. induction 1 as [ | a b l l' Hab H IH ]; intros cr; [ intros [] | ]. intros [ <- | Hin ]; [ exact Hab | apply IH; assumption ]. Qed.

Section Run.
Context {M : Type} (choice : Z -> nat -> Z -> res (list Z)) (env : denv) (create_instance : rmeta -> res (stregion fnum))
        (format_coverage : Q -> string) (format_float : nat -> fnum -> string).
Local Notation analyze_suite := (@analyze_suite M choice env create_instance format_coverage format_float).

Lemma run_prefix (w : world M) region r d sc D dist ty sid suite before results rest :
  ready env create_instance region r d sc D dist -> get_suite ty sid = Ok suite -> suite = (before ++ rest)%list ->
  outcomes choice env (w_pickles w) r d sc D before results ->
  let items := map itemize (combine before results) in
  exists w', analyze_suite w region ty sid =
      analyze_clusterings choice env create_instance format_coverage format_float w' (table_at region ty sid) r rest /\
    w_distance w' = DObj PlainDTW (Some D) false /\
    (forall q, w_texts w' q = texts_after format_coverage format_float r d dist w (table_at region ty sid) [csv_line ["clustering"; "total_cost"; "medoids"]%string] items q) /\
    (forall q, w_pickles w' q = pickles_after r w items q).
Proof.
  intros (Hr & Hi & Hq & Hsp & Hl & HD & Hent) Hs Es Ho items. destruct (predefined_facts _ _ Hr) as (En & Hn & _).
  destruct (suite_clean _ _ _ Hs) as (Cs & Nd & Cm). pose proof (forall2_length _ _ _ Ho) as Hlen.
  assert (Ei : map it_c items = before). { unfold items. rewrite map_map. cbn. apply combine_fst, Hlen. }
  unfold PartitionAnalysis.analyze_suite. rewrite Hr, Hs. cbn [bind]. unfold load_distance_matrix_2d. cbn [d_kind].
  rewrite (base_load_ok env _ _ (a3x d) (a3y d) _ D Hsp Hl HD). rewrite (table_at_path ty sid r Hn), En.
  cbn [d_weighted].
  set (w0 := write_text _ _ _). rewrite Es, <- Ei.
  destruct (loop choice env create_instance format_coverage format_float r d sc D dist Hn Hi Hsp Hl HD Hent (table_at region ty sid) items w0
              [csv_line ["clustering"; "total_cost"; "medoids"]%string] rest) as (w' & E & Dw & T & P).
  - reflexivity.
  - unfold w0, write_text. cbn [w_texts]. rewrite String.eqb_refl. reflexivity.
  - rewrite <- (map_map it_c c_repr), Ei. rewrite Es, map_app in Nd. apply nodup_app_l in Nd. exact Nd.
  - intros it Hit. assert (Hin : In (it_c it) suite). { rewrite Es. apply in_or_app. left. rewrite <- Ei. apply in_map, Hit. }
    destruct (Cm _ Hin) as [ Hm _ ]. split; [ exact Hm | ]. split.
    { rewrite <- En, <- (table_at_path ty sid r Hn). apply report_not_analysis; auto. }
    unfold items in Hit. apply in_map_iff in Hit. destruct Hit as (cr & <- & Hcr). apply (Forall2_in _ _ _ Ho) in Hcr. exact Hcr.
  - exists w'. split; [ exact E | ]. split; [ exact Dw | ]. split.
    + intros q. rewrite T. unfold texts_after. destruct (String.eqb_spec q (table_at region ty sid)) as [ | Hq0 ]; [ reflexivity | ].
      unfold w0, write_text. cbn [w_texts]. rewrite (proj2 (String.eqb_neq q _) Hq0). reflexivity.
    + intros q. rewrite P. reflexivity.
Qed.

(** The rows of the table, one per clustering *)
Lemma texts_at_table (w : world M) r d dist path items :
  texts_after format_coverage format_float r d dist w path [csv_line ["clustering"; "total_cost"; "medoids"]%string] items path =
  Some (suite_csv (map (it_row format_float r d dist) items)).
Proof.
  unfold texts_after. rewrite String.eqb_refl. unfold suite_csv. cbn [app]. reflexivity.
Qed.
Lemma find_item (key : item -> string) (items : list item) it : NoDup (map key items) -> In it items ->
  find (fun it' => (key it =? key it')%string) items = Some it.
Proof.
  induction items as [ | it0 items IH ]; intros Hnd Hin; [ destruct Hin | ]. cbn [map find] in *. inversion_clear Hnd as [ | ? ? Hni Hnd' ].
  destruct (String.eqb_spec (key it) (key it0)) as [ E | Hne ].
  - destruct Hin as [ -> | Hin ]; [ reflexivity | ]. exfalso. apply Hni. rewrite <- E. apply in_map, Hin.
  - destruct Hin as [ -> | Hin ]; [ congruence | ]. apply IH; auto.
Qed.

Lemma prefix_left_behind (w : world M) region r d sc D dist ty sid suite before results rest w' :
  ready env create_instance region r d sc D dist -> get_suite ty sid = Ok suite -> suite = (before ++ rest)%list ->
  outcomes choice env (w_pickles w) r d sc D before results ->
  let items := map itemize (combine before results) in
  (forall q, w_texts w' q = texts_after format_coverage format_float r d dist w (table_at region ty sid) [csv_line ["clustering"; "total_cost"; "medoids"]%string] items q) ->
  (forall q, w_pickles w' q = pickles_after r w items q) ->
  left_behind format_coverage format_float w w' region r d dist ty sid before results (map (it_row format_float r d dist) items).
Proof.
  intros (Hr & _) Hs Es Ho items T P. destruct (predefined_facts _ _ Hr) as (En & Hn & _).
  destruct (suite_clean _ _ _ Hs) as (Cs & Nd & Cm). pose proof (forall2_length _ _ _ Ho) as Hlen.
  assert (Ei : map it_c items = before). { unfold items. rewrite map_map. cbn. apply combine_fst, Hlen. }
  assert (Hmode : forall it, In it items -> has_char "/" (mode_of (it_c it)) = false).
  { intros it Hit. apply Cm. rewrite Es. apply in_or_app. left. rewrite <- Ei. apply in_map, Hit. }
  assert (Nr : NoDup (map (fun it => c_repr (it_c it)) items)).
  { rewrite <- (map_map it_c c_repr), Ei. rewrite Es, map_app in Nd. apply nodup_app_l in Nd. exact Nd. }
  assert (Nrep : NoDup (map (fun it => report_path (it_c it) r "dtw" "outputs") items)).
  { clear - Nr Hmode Hn. induction items as [ | it items IH ]; cbn [map] in *; [ constructor | ]. inversion_clear Nr as [ | ? ? Hni Hnd ].
    constructor; [ | apply IH; auto; intros; apply Hmode; right; auto ]. intros Hin. apply Hni. apply in_map_iff in Hin. destruct Hin as (it' & E & Hin).
    apply report_path_inj in E; auto; [ | apply Hmode; right; exact Hin | apply Hmode; left; reflexivity ].
    rewrite <- E. apply (in_map (fun it => c_repr (it_c it))), Hin. }
  assert (Npic : NoDup (map (fun it => pickle_full_path (it_c it) r "dtw") items)).
  { clear - Nr Hmode Hn. induction items as [ | it items IH ]; cbn [map] in *; [ constructor | ]. inversion_clear Nr as [ | ? ? Hni Hnd ].
    constructor; [ | apply IH; auto; intros; apply Hmode; right; auto ]. intros Hin. apply Hni. apply in_map_iff in Hin. destruct Hin as (it' & E & Hin).
    apply pickle_path_inj in E; auto; [ | apply Hmode; right; exact Hin | apply Hmode; left; reflexivity ].
    rewrite <- E. apply (in_map (fun it => c_repr (it_c it))), Hin. }
  assert (Hnt : forall it, In it items -> report_path (it_c it) r "dtw" "outputs" <> table_at region ty sid).
  { intros it Hit. rewrite <- En, <- (table_at_path ty sid r Hn). apply report_not_analysis; auto. }
  split; [ rewrite T; apply texts_at_table | ]. split; [ unfold items; rewrite !map_length, combine_length; lia | ]. split; [ | split ].
  - intros i c p ms Hc Hp. set (it := (c, p, ms) : item).
    assert (Hnth : nth_error items i = Some it). { unfold items. rewrite nth_error_map, (combine_nth_error _ _ _ _ _ Hc Hp). reflexivity. }
    assert (Hit : In it items) by (eapply nth_error_In; exact Hnth).
    destruct (Forall2_in _ _ _ Ho (c, (p, ms))) as [ _ HW ]; [ eapply nth_error_In, combine_nth_error; eauto | ]. cbn [fst snd] in HW.
    pose proof HW as (V & K & L & G).
    split; [ | split ].
    + exists (it_row format_float r d dist it). rewrite nth_error_map, Hnth. split; [ reflexivity | ]. apply row_spec, V.
    + rewrite P. unfold pickles_after. rewrite <- En, <- (saved_at_path c r Hn (Hmode it Hit)).
      pose proof (find_item (fun it => pickle_full_path (it_c it) r "dtw") items it Npic Hit) as F.
      change (find (fun it0 : item => (pickle_full_path c r "dtw" =? pickle_full_path (it_c it0) r "dtw")%string) items = Some it) in F. rewrite F. reflexivity.
    + destruct (C80_report_reads_back format_coverage (c_k c) p _ _ V ltac:(lia)) as (lines & rows & Er & _). exists lines. split; [ exact Er | ].
      rewrite T. unfold texts_after. replace (report_at region c) with (report_path c r "dtw" "outputs") by (rewrite <- En; apply (report_at_path c r Hn (Hmode it Hit))).
      destruct (String.eqb_spec (report_path c r "dtw" "outputs") (table_at region ty sid)) as [ E | _ ]; [ exfalso; apply (Hnt it Hit E) | ].
      pose proof (find_item (fun it => report_path (it_c it) r "dtw" "outputs") items it Nrep Hit) as F.
      change (find (fun it0 : item => (report_path c r "dtw" "outputs" =? report_path (it_c it0) r "dtw" "outputs")%string) items = Some it) in F. rewrite F.
      cbn. unfold report. rewrite Er. reflexivity.
  - intros q Hq Hother. rewrite T. unfold texts_after. rewrite (proj2 (String.eqb_neq q _) Hq).
    destruct (find _ items) as [ it | ] eqn:Ef; [ | reflexivity ]. apply find_some in Ef. destruct Ef as [ Hit Eq ]. apply String.eqb_eq in Eq. exfalso.
    apply In_nth_error in Hit as Hi. destruct Hi as [ i Hi ]. unfold items in Hi. rewrite nth_error_map in Hi.
    destruct (nth_error (combine before results) i) as [ [ c pm ] | ] eqn:Ec; [ | discriminate ]. cbn in Hi. injection Hi as <-.
    assert (nth_error before i = Some c /\ nth_error results i = Some pm) as [ Hc Hp ].
    { clear - Ec. revert results i Ec. induction before as [ | b l IH ]; intros [ | b' l' ] [ | i ] Ec; cbn in *; try discriminate; [ split; congruence | apply IH, Ec ]. }
    apply (Hother i c pm Hc Hp). rewrite Eq, <- En. apply (report_at_path c r Hn). exact (Hmode _ Hit).
  - intros q Hother. rewrite P. unfold pickles_after.
    destruct (find _ items) as [ it | ] eqn:Ef; [ | reflexivity ]. apply find_some in Ef. destruct Ef as [ Hit Eq ]. apply String.eqb_eq in Eq. exfalso.
    apply In_nth_error in Hit as Hi. destruct Hi as [ i Hi ]. unfold items in Hi. rewrite nth_error_map in Hi.
    destruct (nth_error (combine before results) i) as [ [ c pm ] | ] eqn:Ec; [ | discriminate ]. cbn in Hi. injection Hi as <-.
    assert (nth_error before i = Some c /\ nth_error results i = Some pm) as [ Hc Hp ].
    { clear - Ec. revert results i Ec. induction before as [ | b l IH ]; intros [ | b' l' ] [ | i ] Ec; cbn in *; try discriminate; [ split; congruence | apply IH, Ec ]. }
    apply (Hother i c pm Hc Hp). rewrite Eq, <- En. apply (saved_at_path c r Hn). exact (Hmode _ Hit).
Qed.
End Run.

(** C117: after a run the table has one row per clustering of the suite, in the order of the suite, with its name, its cost and
    its medoids in raw coordinates; the partitions are saved; the reports are written; nothing else changes.  The reader of the
    table (FindClusterCosts / retrieve_suite_result) gets the medoids back. *)
Theorem C117_written : forall M choice env create_instance format_coverage format_float (w : world M) region r d sc D dist ty sid suite results,
  ready env create_instance region r d sc D dist -> get_suite ty sid = Ok suite -> outcomes choice env (w_pickles w) r d sc D suite results ->
  exists w' rows, analyze_suite choice env create_instance format_coverage format_float w region ty sid = (w', Ok tt) /\
    left_behind format_coverage format_float w w' region r d dist ty sid suite results rows /\
    retrieve_suite_result (w_texts w' (table_at region ty sid)) =
      Ok (map (fun cr => (c_repr (fst cr), map (fun m => (fst m + x1 (rm_region r), snd m + y1 (rm_region r))%Z) (snd (snd cr)))) (combine suite results)).
Proof.
  intros M choice env create fc ff w region r d sc D dist ty sid suite results Hready Hs Ho.
  destruct (run_prefix choice env create fc ff w region r d sc D dist ty sid suite suite results [] Hready Hs (eq_sym (app_nil_r _)) Ho) as (w' & E & _ & T & P).
  pose proof (prefix_left_behind choice env create fc ff w region r d sc D dist ty sid suite suite results [] w' Hready Hs (eq_sym (app_nil_r _)) Ho T P) as HL.
  exists w'. eexists. split; [ exact E | ]. split; [ exact HL | ]. destruct HL as (Ht & _). rewrite Ht.
  destruct (C38_suite_csv_round_trip (map (it_row ff r d dist) (map itemize (combine suite results)))) as (t & Er & _ & Hd).
  pose proof (forall2_length _ _ _ Ho) as Hlen. destruct (suite_clean _ _ _ Hs) as (_ & Nd & _). rewrite Er. f_equal. rewrite Hd.
  - rewrite !map_map. apply map_ext. intros [ c [ p ms ] ]. reflexivity.
  - rewrite !map_map. rewrite <- (combine_fst suite results Hlen) in Nd. rewrite map_map in Nd. exact Nd.
Qed.
Print Assumptions C117_written.

(** C117: the cost in a row is the sum over all the points of the region of the distance from the medoid of the point's cluster *)
Theorem C117_total_cost : forall format_float x y g (dist : point -> point -> Q) c p ms row (own : point -> point),
  with_medoids x y (c_k c) p ms -> row_of format_float (fun q pt => Fin (dist q pt)) x y g c p ms row ->
  (forall pt, in_grid x y pt -> exists l, label_at p pt l /\ nth_error ms (Z.to_nat l) = Some (own pt)) ->
  exists v, feqv v (Fin (qsum (map (fun pt => dist (own pt) pt) (grid x y)))) /\ snd (fst row) = format_float 3 v /\ fst (fst row) = c_repr c.
Proof.
  intros ff x y g dist c p ms row own (V & K & L & G) (costs & [ Hlen Hc ] & ->) Hown. exists (fsum costs). split; [ | split; reflexivity ].
  set (L0 := fun pt => Z.to_nat (label_of p pt)).
  assert (Hlab : forall pt, in_grid x y pt -> label_at p pt (label_of p pt) /\ (0 <= label_of p pt < pk p)%Z) by (intros pt Hg; apply (label_of_spec p x y pt V Hg)).
  assert (Ec : costs = map (fun j => fsum (map (fun pt => Fin (dist (nth j ms (0, 0)%Z) pt)) (filter (fun pt => L0 pt =? j) (grid x y)))) (seq 0 (length ms))).
  { apply nth_error_same. intros j. destruct (nth_error costs j) as [ v | ] eqn:Ej.
    - assert (Hj : j < length ms) by (rewrite <- Hlen; apply nth_error_Some; congruence).
      destruct (nth_error ms j) as [ m | ] eqn:Em; [ | apply nth_error_None in Em; lia ].
      destruct (Hc j m v Em Ej) as (pts & (keep & -> & Hk) & ->).
      rewrite nth_error_map, (nth_error_nth' _ 0) by (rewrite seq_length; lia). rewrite seq_nth by lia. cbn [option_map Nat.add]. rewrite (nth_error_nth _ _ (0, 0)%Z Em).
      f_equal. f_equal. f_equal. apply filter_ext_in. intros pt Hg. apply in_grid_iff in Hg. apply Bool.eq_true_iff_eq. rewrite (Hk pt Hg).
      destruct (Hlab pt Hg) as [ A B ]. unfold label_at in *. unfold L0. rewrite Nat.eqb_eq. split; intros C; [ rewrite C in A; injection A as A; lia | rewrite A; f_equal; lia ].
    - apply nth_error_None in Ej. symmetry. apply nth_error_None. rewrite map_length, seq_length. lia. }
  rewrite Ec.
  transitivity (Fin (qsum (map (fun j => qsum (map (fun pt => dist (nth j ms (0, 0)%Z) pt) (filter (fun pt => L0 pt =? j) (grid x y)))) (seq 0 (length ms))))).
  - apply feqv_fsum_map. intros j _. apply (feqv_fsum_map (fun pt => Fin (dist (nth j ms (0, 0)%Z) pt))). intros pt _. reflexivity.
  - cbn [feqv]. rewrite (qsum_by_label L0 (fun j pt => dist (nth j ms (0, 0)%Z) pt)).
    + apply qsum_ext. intros pt Hg. apply in_grid_iff in Hg. destruct (Hown pt Hg) as (l & A & B). destruct (Hlab pt Hg) as [ A' _ ].
      assert (l = label_of p pt) as -> by (unfold label_at in *; congruence). unfold L0. rewrite (nth_error_nth _ _ (0, 0)%Z B). reflexivity.
    + intros pt Hg. apply in_grid_iff in Hg. destruct (Hlab pt Hg) as [ _ B ]. unfold L0. lia.
Qed.
Print Assumptions C117_total_cost.

(** C117: when a clustering fails the program stops with its exception; the table keeps the rows of the clusterings before it *)
Theorem C117_failure_keeps_rows : forall M choice env create_instance format_coverage format_float (w : world M) region r d sc D dist ty sid before results c after e,
  ready env create_instance region r d sc D dist -> get_suite ty sid = Ok (before ++ c :: after)%list ->
  outcomes choice env (w_pickles w) r d sc D before results ->
  (forall q, w_pickles w (saved_at region c) <> Some (FPartition q)) ->
  algorithm_partition_impl choice env c (Some (dmeta_of r)) (qregion d sc) true (DObj PlainDTW (Some D) false) = Raise e ->
  exists w' rows, analyze_suite choice env create_instance format_coverage format_float w region ty sid = (w', Raise e) /\
    left_behind format_coverage format_float w w' region r d dist ty sid before results rows.
Proof.
  intros M choice env create fc ff w region r d sc D dist ty sid before results c after e Hready Hs Ho Hn Ea.
  destruct (run_prefix choice env create fc ff w region r d sc D dist ty sid _ before results (c :: after) Hready Hs eq_refl Ho) as (w1 & E & Dw & T & P).
  pose proof (prefix_left_behind choice env create fc ff w region r d sc D dist ty sid _ before results (c :: after) w1 Hready Hs eq_refl Ho T P) as HL.
  pose proof Hready as (Hr & Hi & Hq & Hsp & Hl & HD & Hent). destruct (predefined_facts _ _ Hr) as (En & Hnm & _). destruct (suite_clean _ _ _ Hs) as (_ & Nd & Cm).
  assert (Hin : In c (before ++ c :: after)) by (apply in_or_app; right; left; reflexivity). destruct (Cm _ Hin) as [ Hm _ ].
  destruct (step_fails choice env create fc ff r d sc D Hnm Hi Hsp Hl HD w1 c e Hm Dw) as (w' & Ef & _ & Tt & Pp); [ | exact Ea | ].
  - intros q. rewrite En. assert (Eu : w_pickles w1 (saved_at region c) = w_pickles w (saved_at region c)).
    { destruct HL as (_ & _ & _ & _ & Hsame). apply Hsame. intros i c' pm Hc' _ Eq. apply nth_error_In in Hc'.
      assert (Hin' : In c' (before ++ c :: after)) by (apply in_or_app; left; exact Hc'). destruct (Cm _ Hin') as [ Hm' _ ].
      rewrite <- En, <- !(saved_at_path _ r Hnm) in Eq by assumption. apply pickle_path_inj in Eq; auto.
      rewrite map_app in Nd. cbn [map] in Nd. apply NoDup_remove_2 in Nd. apply Nd, in_or_app. left. rewrite Eq. apply in_map, Hc'. }
    rewrite Eu. apply Hn.
  - exists w'. eexists. split.
    + rewrite E. cbn [analyze_clusterings]. rewrite Ef. reflexivity.
    + unfold left_behind in *. rewrite Tt, Pp. exact HL.
Qed.
Print Assumptions C117_failure_keeps_rows.

(** C117: running the program again, with any other random choices, changes no file: the saved partitions are used *)
Theorem C117_run_again : forall M choice choice' env create_instance format_coverage format_float (w : world M) region r d sc D dist ty sid suite results w',
  ready env create_instance region r d sc D dist -> get_suite ty sid = Ok suite -> outcomes choice env (w_pickles w) r d sc D suite results ->
  analyze_suite choice env create_instance format_coverage format_float w region ty sid = (w', Ok tt) ->
  exists w'', analyze_suite choice' env create_instance format_coverage format_float w' region ty sid = (w'', Ok tt) /\
    (forall q, w_texts w'' q = w_texts w' q) /\ (forall q, w_pickles w'' q = w_pickles w' q).
Proof.
  intros M choice choice' env create fc ff w region r d sc D dist ty sid suite results w' Hready Hs Ho Erun.
  destruct (run_prefix choice env create fc ff w region r d sc D dist ty sid suite suite results [] Hready Hs (eq_sym (app_nil_r _)) Ho) as (w1 & E & _ & T & P).
  rewrite Erun in E. cbn [analyze_clusterings] in E. injection E as <-.
  pose proof (prefix_left_behind choice env create fc ff w region r d sc D dist ty sid suite suite results [] w' Hready Hs (eq_sym (app_nil_r _)) Ho T P) as HL.
  pose proof Hready as (Hr & _). destruct (predefined_facts _ _ Hr) as (En & Hnm & _).
  assert (Ho' : outcomes choice' env (w_pickles w') r d sc D suite results).
  { destruct HL as (_ & _ & Hall & _). unfold outcomes in *. clear - Ho Hall En.
    assert (H : forall i c p ms, nth_error suite i = Some c -> nth_error results i = Some (p, ms) -> w_pickles w' (saved_at region c) = Some (FPartition (p, Some ms))) by (intros i c p ms A B; apply (Hall i c p ms A B)).
    clear Hall. induction Ho as [ | c [ p ms ] suite results [ HU HW ] Ho IH ]; constructor.
    - split; [ | exact HW ]. unfold used. rewrite En, (H 0 c p ms eq_refl eq_refl). reflexivity.
    - apply IH. intros i c' p' ms' A B. apply (H (S i) c' p' ms' A B). }
  destruct (run_prefix choice' env create fc ff w' region r d sc D dist ty sid suite suite results [] Hready Hs (eq_sym (app_nil_r _)) Ho') as (w2 & E2 & _ & T2 & P2).
  exists w2. split; [ exact E2 | ]. split.
  - intros q. rewrite T2. unfold texts_after at 1. rewrite T. unfold texts_after. destruct (String.eqb_spec q (table_at region ty sid)) as [ -> | ]; [ reflexivity | ].
    destruct (find _ _); reflexivity.
  - intros q. rewrite P2. unfold pickles_after at 1. rewrite P. unfold pickles_after. destruct (find _ _); reflexivity.
Qed.
Print Assumptions C117_run_again.

(** C117: an unknown region or suite, or a distances file that cannot be read (other than a missing one) or of another size,
    stops the program before it writes anything *)
Theorem C117_nothing_written : forall M choice env create_instance format_coverage format_float (w : world M) region ty sid e,
  region_by_name region = Raise e \/
  (exists r, region_by_name region = Ok r /\
     (get_suite ty sid = Raise e \/
      exists suite, get_suite ty sid = Ok suite /\
        ((np_load env (distances_filename r) = Raise e /\ e <> IOError) \/
         exists D x y, np_load env (distances_filename r) = Ok D /\ spans (rm_region r) x y /\ (length (m_rows D) <> x * y \/ m_cols D <> x * y) /\ e = ValueError))) ->
  exists w', analyze_suite choice env create_instance format_coverage format_float w region ty sid = (w', Raise e) /\
    (forall q, w_texts w' q = w_texts w q) /\ (forall q, w_pickles w' q = w_pickles w q).
Proof.
  intros M choice env create fc ff w region ty sid e H. unfold analyze_suite. destruct H as [ -> | (r & -> & H) ]; [ cbn [bind]; eauto | ].
  destruct H as [ -> | (suite & -> & H) ]; cbn [bind]; [ eauto | ]. unfold load_distance_matrix_2d, base_load. cbn [d_kind].
  destruct H as [ [ -> He ] | (D & x & y & -> & [ Sx Sy ] & Hd & ->) ].
  - destruct e; try congruence; eexists; split; reflexivity || (split; reflexivity).
  - assert (Hp : r_points (rm_region r) = Z.of_nat (x * y)) by (unfold r_points; rewrite Sx, Sy; lia). rewrite Hp.
    replace (_ && _)%bool with false by (destruct Hd as [ Hd | Hd ]; lia). eexists. split; [ reflexivity | split; reflexivity ].
Qed.
Print Assumptions C117_nothing_written.

(** C117: without the distances file the program always fails, with a table that holds only the header *)
Theorem C117_missing_distances : forall M choice env create_instance format_coverage format_float (w : world M) region r ty sid suite,
  region_by_name region = Ok r -> get_suite ty sid = Ok suite -> np_load env (distances_filename r) = Raise IOError ->
  exists w' e, analyze_suite choice env create_instance format_coverage format_float w region ty sid = (w', Raise e) /\
    w_texts w' (table_at region ty sid) = Some (suite_csv []).
Proof.
  intros M choice env create fc ff w region r ty sid suite Hr Hs Hl. destruct (predefined_facts _ _ Hr) as (En & Hn & _).
  destruct (suite_clean _ _ _ Hs) as (Cs & Nd & Cm). unfold analyze_suite. rewrite Hr, Hs. cbn [bind]. unfold load_distance_matrix_2d, base_load. cbn [d_kind]. rewrite Hl.
  rewrite (table_at_path ty sid r Hn), En. set (w0 := write_text _ _ _).
  destruct suite as [ | c rest ].
  { exfalso. destruct (proj2 (proj1 (C112_which_suites ty sid)) (ex_intro _ _ Hs)) as [ c Hc ]. apply (proj1 (C112_suites _ _ _ Hs)) in Hc. destruct Hc. }
  destruct (Cm c (or_introl eq_refl)) as [ Hm Hk ].
  assert (Hpath : report_path c r "dtw" "outputs" <> table_at region ty sid) by (rewrite <- En, <- (table_at_path ty sid r Hn); apply report_not_analysis; auto).
  assert (H0 : w_texts w0 (table_at region ty sid) = Some (suite_csv [])) by (unfold w0, write_text; cbn [w_texts]; rewrite String.eqb_refl; reflexivity).
  assert (D0 : w_distance w0 = DObj PlainDTW None false) by reflexivity.
  assert (Hsave : forall w1 p, w_distance w1 = DObj PlainDTW None false -> w_texts w1 (table_at region ty sid) = Some (suite_csv []) ->
     let w2 := fst (save_to_csv fc w1 c r p "outputs") in w_distance w2 = DObj PlainDTW None false /\ w_texts (M := M) w2 (table_at region ty sid) = Some (suite_csv [])).
  { intros w1 p A B. unfold save_to_csv. destruct (clustering_report fc (c_k c) p); cbn [fst write_text w_distance w_texts]; rewrite (proj2 (String.eqb_neq _ _) (not_eq_sym Hpath)); auto. }
  assert (Hpart : forall spt, let '(w2, _) := partition_and_report choice env fc w0 c r spt in w_distance w2 = DObj PlainDTW None false /\ w_texts w2 (table_at region ty sid) = Some (suite_csv [])).
  { intros spt. unfold partition_and_report. destruct (try_load_previous_partition _ _ _ _ _) as [ p | ].
    - pose proof (Hsave w0 (fst p) D0 H0) as HS. cbn zeta in HS. destruct (save_to_csv fc w0 c r (fst p) "outputs") as [ w2 [ ? | ? ] ]; exact HS.
    - unfold clustering_impl. cbn [try_load_distance_matrix load_distance_matrix_md dmeta_of md_filename md_region]. unfold load_distance_matrix_2d, base_load. rewrite D0. cbn [d_kind]. rewrite Hl.
      destruct (algorithm_partition_impl _ _ _ _ _ _ _) as [ p | e ]; [ | split; [ reflexivity | exact H0 ] ].
      pose proof (Hsave (World (w_pickles w0) (w_texts w0) (DObj PlainDTW None false)) (fst p) eq_refl H0) as HS. cbn zeta in HS.
      destruct (save_to_csv fc _ c r (fst p) "outputs") as [ w2 [ ? | ? ] ]; exact HS. }
  cbn [analyze_clusterings]. unfold analyze_partition. destruct (create r) as [ spt | e ]; [ | eauto ].
  specialize (Hpart spt). destruct (partition_and_report choice env fc w0 c r spt) as [ w2 [ [ p [ ms | ] ] | e ] ]; destruct Hpart as [ D2 T2 ]; [ | eauto | eauto ].
  destruct (clusters_with_centroids p spt None None (Some ms)) as [ cl | e ]; [ | eauto ].
  assert (Ez : zrange 0 (c_k c) = 0%Z :: zrange 1 (c_k c)).
  { unfold zrange. replace (Z.to_nat (c_k c - 0)) with (S (Z.to_nat (c_k c - 1))) by lia. cbn [seq map]. f_equal. rewrite <- seq_shift, map_map. apply map_ext. intros i. lia. }
  assert (Hraise : forall l e o, fold_left (analyze_cluster env r cl) l (Raise e, o) = (Raise e, o)) by (induction l as [ | a l IH ]; intros e o; [ reflexivity | exact (IH e o) ]).
  assert (Hfirst : exists e o, analyze_cluster env r cl (Ok (""%string, []), w_distance w2) 0%Z = (Raise e, o)).
  { unfold analyze_cluster. destruct (getitem cl 0) as [ h | e ]; cbn [bind]; [ | eauto ]. destruct (h_own h) as [ m | ]; cbn [bind]; [ | eauto ].
    destruct (all_point_indices (h_region h)) as [ ns | e ]; cbn [bind]; [ | eauto ]. rewrite D2. unfold distances_to_point. cbn [negb d_matrix load_distance_matrix_md dmeta_of md_filename md_region].
    unfold load_distance_matrix_2d, base_load. cbn [d_kind]. rewrite Hl. unfold distances_to_point_with_matrix. cbn [d_matrix]. eauto. }
  destruct Hfirst as (e & o & Ef). rewrite Ez. cbn [fold_left]. rewrite Ef, Hraise. cbn [bind]. eexists _, _. split; [ reflexivity | exact T2 ].
Qed.
Print Assumptions C117_missing_distances.

(** C117: with no saved partitions, different points at positive distances and k different points drawn at random for each
    clustering, a k-medoids suite runs to its end; every point is in the cluster of its nearest medoid. *)
Theorem C117_kmedoids_suite : forall M choice env (create_instance : rmeta -> res (stregion fnum)) (fs : fsys M) region r d sc D dist sid suite,
  ready env create_instance region r d sc D dist -> get_suite "kmedoids" sid = Ok suite ->
  (forall c, In c suite -> forall q, fs (saved_at region c) <> Some (FPartition q)) ->
  (forall q pt, in_grid (a3x d) (a3y d) q -> in_grid (a3x d) (a3y d) pt -> is_nan (dist q pt) = false) ->
  (forall q, in_grid (a3x d) (a3y d) q -> feqb (dist q q) (Fin 0) = true) ->
  (forall q pt, in_grid (a3x d) (a3y d) q -> in_grid (a3x d) (a3y d) pt -> q <> pt -> flt (Fin 0) (dist q pt) = true) ->
  (forall c, In c suite -> exists m starts, c = CKmedoids m /\ can_start choice m (a3x d) (a3y d) (Z.to_nat (c_k c)) starts) ->
  exists results, outcomes choice env fs r d sc D suite results /\
    Forall2 (fun c pm => clustered dist (a3x d) (a3y d) (Z.to_nat (c_k c)) (fst pm) (snd pm)) suite results.
Proof.
  intros M choice env create fs region r d sc D dist sid suite Hready Hs Hfresh Hnan H0 Hpos Hstart.
  pose proof Hready as (Hr & Hi & Hq & Hsp & Hl & HD & Hent). destruct (predefined_facts _ _ Hr) as (En & Hn & _ & _ & Hx & Hy & _).
  assert (Hxy : 0 < a3x d * a3y d) by (destruct Hsp; nia).
  assert (Hmeas : measured env (DObj PlainDTW (Some D) false) d dist) by (split; [ exact HD | exact Hent ]).
  assert (Hone : forall c, In c suite -> exists pm, (used choice env fs r (dmeta_of r) (qregion d sc) (DObj PlainDTW (Some D) false) c (fst pm) (snd pm) /\
                       with_medoids (a3x d) (a3y d) (c_k c) (fst pm) (snd pm)) /\ clustered dist (a3x d) (a3y d) (Z.to_nat (c_k c)) (fst pm) (snd pm)).
  { intros c Hc. destruct (Hstart c Hc) as (m & starts & -> & Hst). pose proof (proj2 (proj2 (proj2 (suite_clean _ _ _ Hs)) _ Hc)) as Hk.
    destruct (C116_kmedoids_distinct choice env _ d sc _ _ dist _ m starts Hq eq_refl eq_refl Hxy Hmeas Hnan H0 Hpos Hst) as (p & ms & E & _ & Hcl & Kp & _).
    exists (p, ms). cbn [fst snd]. split; [ | exact Hcl ]. split.
    - unfold used. specialize (Hfresh _ Hc). rewrite En. destruct (fs (saved_at region (CKmedoids m))) as [ [ q | | | ] | ] eqn:Ef; [ exfalso; apply (Hfresh q); reflexivity | | | | ]; exact E.
    - destruct Hcl as (V & _ & L & _ & G & _). split; [ exact V | ]. split; [ rewrite Kp; lia | ]. split; [ rewrite L; lia | exact G ]. }
  unfold outcomes. clear - Hone. induction suite as [ | c suite IH ]; [ exists []; split; constructor | ].
  destruct (Hone c (or_introl eq_refl)) as (pm & A & B). destruct IH as (results & P & Q); [ intros c' Hc'; apply Hone; right; exact Hc' | ].
  exists (pm :: results). split; constructor; assumption.
Qed.
Print Assumptions C117_kmedoids_suite.

(** C117: a suite of regular partitions runs to its end for finite distances when the region can be divided in each number of
    parts; no point of a cluster has a lower cost than its medoid. *)
Theorem C117_regular_suite : forall M choice env (create_instance : rmeta -> res (stregion fnum)) (fs : fsys M) region r d sc D (dist : point -> point -> Q) sid suite,
  ready env create_instance region r d sc D (fun q pt => Fin (dist q pt)) -> get_suite "regular" sid = Ok suite ->
  (forall c, In c suite -> forall q, fs (saved_at region c) <> Some (FPartition q)) ->
  (forall c, In c suite -> exists p, with_regular_partition (c_k c) (a3x d) (a3y d) = Ok p) ->
  exists results, outcomes choice env fs r d sc D suite results /\
    Forall2 (fun c pm => with_regular_partition (c_k c) (a3x d) (a3y d) = Ok (fst pm) /\
      forall i m, nth_error (snd pm) i = Some m -> label_at (fst pm) m (Z.of_nat i) /\
        exists pts, cluster_points (fst pm) (a3x d) (a3y d) (Z.of_nat i) pts /\
          forall q, In q pts -> (qsum (map (dist m) pts) <= qsum (map (dist q) pts))%Q) suite results.
Proof.
  intros M choice env create fs region r d sc D dist sid suite Hready Hs Hfresh Hreg.
  pose proof Hready as (Hr & Hi & Hq & Hsp & Hl & HD & Hent). destruct (predefined_facts _ _ Hr) as (En & Hn & _ & _ & Hx & Hy & _).
  set (R := fun (c : cmeta) (pm : crisp * list point) => (used choice env fs r (dmeta_of r) (qregion d sc) (DObj PlainDTW (Some D) false) c (fst pm) (snd pm) /\
                       with_medoids (a3x d) (a3y d) (c_k c) (fst pm) (snd pm))).
  set (S := fun (c : cmeta) (pm : crisp * list point) => with_regular_partition (c_k c) (a3x d) (a3y d) = Ok (fst pm) /\
      forall i m, nth_error (snd pm) i = Some m -> label_at (fst pm) m (Z.of_nat i) /\
        exists pts, cluster_points (fst pm) (a3x d) (a3y d) (Z.of_nat i) pts /\
          forall q, In q pts -> (qsum (map (dist m) pts) <= qsum (map (dist q) pts))%Q).
  assert (Hone : forall c, In c suite -> exists pm, R c pm /\ S c pm).
  { intros c Hc. pose proof (proj2 (proj2 (proj2 (suite_clean _ _ _ Hs)) _ Hc)) as Hk. destruct (Hreg c Hc) as [ p Ep ].
    assert (exists k, c = CRegular k) as [ k -> ] by (apply (proj1 (C112_suites _ _ _ Hs)) in Hc; inversion Hc; eauto). cbn [c_k] in *.
    assert (Hpr : provides env (Some (dmeta_of r)) (DObj PlainDTW (Some D) false) D) by (left; reflexivity).
    destruct (C116_regular_medoids choice env (Some (dmeta_of r)) _ D d sc _ _ dist k p Hq eq_refl eq_refl ltac:(lia) Ep HD Hpr Hent) as (ms & E & L & Hms).
    exists (p, ms). unfold R, S. cbn [fst snd c_k]. split.
    - split.
      + unfold used. specialize (Hfresh _ Hc). rewrite En. destruct (fs (saved_at region (CRegular k))) as [ [ q | | | ] | ] eqn:Ef; [ exfalso; apply (Hfresh q); reflexivity | | | | ]; exact E.
      + destruct (regular_partition_valid (a3x d) (a3y d) k ltac:(lia)) as (p' & Ep' & Kp & Vp & _).
        { unfold with_regular_partition in Ep. destruct (regular_partitioning (a3x d) (a3y d) k); [ eauto | discriminate ]. }
        rewrite Ep in Ep'. injection Ep' as <-. split; [ exact Vp | ]. split; [ exact Kp | ]. split; [ exact L | ]. apply Forall_forall. intros m Hm.
        apply In_nth_error in Hm. destruct Hm as [ i Hm ]. apply (Hms i m Hm).
    - split; [ exact Ep | ]. intros i m Hm. destruct (Hms i m Hm) as (_ & A & B). split; assumption. }
  unfold outcomes. clear - Hone. change (exists results, Forall2 R suite results /\ Forall2 S suite results). clearbody R S.
  induction suite as [ | c suite IH ]; [ exists []; split; constructor | ].
  destruct (Hone c (or_introl eq_refl)) as (pm & A & B). destruct IH as (results & P & Q); [ intros c' Hc'; apply Hone; right; exact Hc' | ].
  exists (pm :: results). split; constructor; assumption.
Qed.
Print Assumptions C117_regular_suite.

(* ---------- an example: the region of 7 by 10 points, points at the distance of their indices ---------- *)
Definition ex7_dist (q pt : point) : Q := inject_Z (Z.abs (Z.of_nat (index_of 10 q) - Z.of_nat (index_of 10 pt))).
Definition ex7_matrix : mat := Mat 70 (map (fun i => map (fun j => Fin (inject_Z (Z.abs (Z.of_nat i - Z.of_nat j)))) (seq 0 70)) (seq 0 70)).
Definition ex7_env : denv := DEnv (fun _ => Ok ex7_matrix) (fun _ _ => NaN) (fun _ _ => NaN) NaN.
Definition ex7_d : arr3 fnum := mk3 1 7 10 (repeat (Fin 1) 70).
Definition ex7_choice (seed : Z) (n : nat) (k : Z) : res (list Z) := Ok (zrange 0 k).
Lemma ex7_ready : exists r, ready ex7_env (fun _ => Ok (qregion ex7_d None)) "nordeste_small_2015_2015_1spd" r ex7_d None ex7_matrix (fun q pt => Fin (ex7_dist q pt)).
Proof.
  eexists. split; [ reflexivity | ]. split; [ reflexivity | ]. split; [ split; [ reflexivity | exact I ] | ]. split; [ split; reflexivity | ]. split; [ reflexivity | ].
  change (a3x ex7_d * a3y ex7_d) with 70. change (a3x ex7_d) with 7. change (a3y ex7_d) with 10. split.
  - split; [ reflexivity | ]. split; [ reflexivity | ]. intros row Hrow. cbn [m_rows ex7_matrix] in Hrow. apply in_map_iff in Hrow. destruct Hrow as (i & <- & _).
    rewrite map_length, seq_length. reflexivity.
  - intros q pt Hq Hp. destruct (index_of_encode _ _ _ Hq) as [ _ Lq ]. destruct (index_of_encode _ _ _ Hp) as [ _ Lp ]. unfold entry. cbn [m_rows ex7_matrix].
    rewrite nth_error_map, (nth_error_nth' _ 0) by (rewrite seq_length; lia). rewrite seq_nth by lia. cbn [option_map Nat.add].
    rewrite nth_error_map, (nth_error_nth' _ 0) by (rewrite seq_length; lia). rewrite seq_nth by lia. reflexivity.
Qed.
Lemma ex7_pos q pt : in_grid 7 10 q -> in_grid 7 10 pt -> q <> pt -> flt (Fin 0) (Fin (ex7_dist q pt)) = true.
Proof.
  intros [ A B ] [ C E ] Hne. unfold ex7_dist, index_of. cbn [flt]. destruct q as [ a b ], pt as [ a' b' ]. cbn [fst snd] in *.
  set (z := Z.abs _). assert (0 < z)%Z. { unfold z. assert (a <> a' \/ b <> b') by (destruct (Z.eq_dec a a'), (Z.eq_dec b b'); subst; auto). nia. }
  destruct z; [ lia | reflexivity | lia ].
Qed.
Example C117_ex : exists r suite w' rows results,
  get_suite "kmedoids" "quick" = Ok suite /\ length suite = 4 /\
  outcomes ex7_choice ex7_env (fun _ => None : option (@file unit)) r ex7_d None ex7_matrix suite results /\
  analyze_suite ex7_choice ex7_env (fun _ => Ok (qregion ex7_d None)) (fun _ => "v"%string) (fun _ _ => "c"%string)
    (World (fun _ => None : option (@file unit)) (fun _ => None) (fresh PlainDTW)) "nordeste_small_2015_2015_1spd" "kmedoids" "quick" = (w', Ok tt) /\
  w_texts w' "outputs/nordeste_small_2015_2015_1spd/dtw/clustering__kmedoids-quick.csv" = Some (suite_csv rows) /\ length rows = 4.
Proof.
  destruct ex7_ready as [ r Hready ]. exists r. destruct (get_suite "kmedoids" "quick") as [ suite | ] eqn:Hs; [ | discriminate ]. exists suite.
  assert (Hlen : length suite = 4) by (vm_compute in Hs; injection Hs as <-; reflexivity).
  destruct (C117_kmedoids_suite unit ex7_choice ex7_env (fun _ => Ok (qregion ex7_d None)) (fun _ => None) _ r ex7_d None ex7_matrix _ "quick" suite Hready Hs) as (results & Ho & _).
  - intros c _ q. discriminate.
  - reflexivity.
  - intros q _. unfold ex7_dist. rewrite Z.sub_diag. reflexivity.
  - intros q pt. apply ex7_pos.
  - intros c Hc. apply (proj1 (C112_suites _ _ _ Hs)) in Hc. inversion Hc; subst. eexists _, (zrange 0 k). split; [ reflexivity | ].
    cbn [c_k kmeta_default km_k]. assert (k = 2 \/ k = 3)%Z as [ -> | -> ] by lia; (split; [ reflexivity | ]; split; [ cbn; lia | ]; split; [ reflexivity | ];
      split; [ left; reflexivity | ]; split; [ reflexivity | ]; split; [ reflexivity | ]; split; [ apply zrange_nodup | ]; intros i Hin; apply in_zrange in Hin; cbn; lia).
  - destruct (C117_written unit ex7_choice ex7_env (fun _ => Ok (qregion ex7_d None)) (fun _ => "v"%string) (fun _ _ => "c"%string)
       (World (fun _ => None) (fun _ => None) (fresh PlainDTW)) _ r ex7_d None ex7_matrix _ _ _ suite results Hready Hs Ho) as (w' & rows & E & (Ht & Hl & _) & _).
    exists w', rows, results. split; [ reflexivity | ]. split; [ exact Hlen | ]. split; [ exact Ho | ]. split; [ exact E | ]. split; [ exact Ht | ].
    rewrite Hl, <- Hlen. symmetry. apply (forall2_length _ _ _ Ho).
Qed.
