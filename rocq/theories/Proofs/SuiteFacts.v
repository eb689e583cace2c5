(** Facts about the programs that write tables for every clustering of a suite. *)
From Coq Require Import String Lia.
From Verif Require Import Base.Py Base.PyFacts Base.Str Base.StrFacts Base.Arr Base.ArrFacts Base.Float Base.FloatFacts Model.Region Model.Arrays Model.Distance
  Model.KMedoids Model.Clustering Model.Variance Model.Solver Model.SolverFiles Model.Results Model.Reports Model.Algorithms Model.Programs Model.Dnn Model.PartitionAnalysis Model.SuitePrograms
  Spec.Grid Spec.Partition Spec.Distance Spec.Solver Spec.SolverFiles Spec.Algorithms Spec.PartitionAnalysis Spec.SuitePrograms
  Proofs.RegionFacts Proofs.PartitionFacts Proofs.ProperFacts Proofs.SolverFacts Proofs.DistanceFacts Proofs.DistanceObjFacts Proofs.VarianceFacts
  Proofs.ReportFacts Proofs.ClusteringFacts Proofs.NameFacts Proofs.ProgramFacts Proofs.FilesFacts Proofs.AnalysisFacts Props.Clustering Props.SolverFiles Props.Programs Props.PartitionAnalysis.
From Coq Require Import ZifyBool ZifyNat.
Local Notation length := List.length.
Local Open Scope nat_scope.

(* ---------- paths ---------- *)
Lemma clustering_dir c r : has_char "/" (rm_name r) = false -> has_char "/" (mode_of c) = false ->
  clustering_output_dir c r "dtw" "outputs" = join "/" ["outputs"; rmeta_repr r; "dtw"; c_repr c]%string.
Proof.
  intros Hr Hc. pose proof (c_repr_no_slash c Hc) as Cs. pose proof (rmeta_repr_no_slash r Hr) as Rs.
  pose proof (c_repr_nonempty c) as Cn. pose proof (rmeta_repr_nonempty r) as Rn.
  unfold clustering_output_dir, region_output_dir, clustering_subdir.
  change (path_join "outputs" (rmeta_repr r)) with (path_join ("" ++ join "/" ["outputs"%string]) (rmeta_repr r)).
  rewrite path_join_names; auto; try discriminate. 2:{ intros s [ <- | [] ]. split; [ reflexivity | discriminate ]. }
  rewrite path_join_names2; auto; try discriminate. cbn [app]. intros s [ <- | [ <- | [] ] ]; split; auto; try reflexivity; discriminate.
Qed.
Lemma join_end pre s : s <> ""%string -> has_char "/" s = false -> (pre ++ "/" ++ s)%string <> ""%string /\ ends_with_slash (pre ++ "/" ++ s) = false.
Proof.
  intros Hn Hs. split; [ apply app_nonempty_r; discriminate | ]. rewrite ends_slash_app by discriminate. rewrite ends_slash_app by exact Hn. apply no_slash_end, Hs.
Qed.
Lemma clustering_path c r b : has_char "/" (rm_name r) = false -> has_char "/" (mode_of c) = false -> b <> ""%string -> (forall s, b <> String "/" s) ->
  path_join (clustering_output_dir c r "dtw" "outputs") b = (clustering_at (rmeta_repr r) c ++ b)%string.
Proof.
  intros Hr Hc Hb Hs. rewrite clustering_dir by assumption. unfold clustering_at. cbn [join].
  destruct (join_end ("outputs" ++ "/" ++ rmeta_repr r ++ "/" ++ "dtw") (c_repr c) (c_repr_nonempty c) (c_repr_no_slash c Hc)) as [ N E ]. rewrite ?sapp_assoc in N, E.
  rewrite path_join_plain; auto. rewrite ?sapp_assoc. reflexivity.
Qed.
Lemma clustering_path2 c r a b : has_char "/" (rm_name r) = false -> has_char "/" (mode_of c) = false -> a <> ""%string -> has_char "/" a = false ->
  b <> ""%string -> (forall s, b <> String "/" s) ->
  path_join (path_join (clustering_output_dir c r "dtw" "outputs") a) b = (clustering_at (rmeta_repr r) c ++ a ++ "/" ++ b)%string.
Proof.
  intros Hr Hc Ha Hsa Hb Hs. rewrite (clustering_path c r a); auto using no_slash_start. unfold clustering_at.
  destruct (join_end ("outputs" ++ "/" ++ rmeta_repr r ++ "/" ++ "dtw" ++ "/" ++ c_repr c) a Ha Hsa) as [ N E ]. rewrite ?sapp_assoc in N, E.
  change ("outputs/" ++ rmeta_repr r ++ "/dtw/" ++ c_repr c ++ "/")%string with ("outputs" ++ "/" ++ rmeta_repr r ++ "/" ++ "dtw" ++ "/" ++ c_repr c ++ "/")%string.
  rewrite ?sapp_assoc. rewrite path_join_plain; auto. rewrite ?sapp_assoc. reflexivity.
Qed.
Lemma clustering_at_inj region c c' a b : has_char "/" (mode_of c) = false -> has_char "/" (mode_of c') = false ->
  (clustering_at region c ++ a)%string = (clustering_at region c' ++ b)%string -> c_repr c = c_repr c' /\ a = b.
Proof.
  intros Hc Hc' E. unfold clustering_at in E. rewrite !sapp_assoc in E. apply sapp_inj_l in E. apply sapp_inj_l in E. apply sapp_inj_l in E.
  pose proof (c_repr_no_slash c Hc) as Cs. pose proof (c_repr_no_slash c' Hc') as Cs'. revert Cs Cs' E. generalize (c_repr c) (c_repr c'). clear.
  induction s as [ | ch s IH ]; intros [ | ch' s' ] H H' E; cbn in *.
  - injection E as E. auto.
  - injection E as E1 E2. subst ch'. cbn in H'. discriminate.
  - injection E as E1 E2. subst ch. cbn in H. discriminate.
  - injection E as E1 E2. subst ch'. apply Bool.orb_false_iff in H, H'. destruct (IH s' (proj2 H) (proj2 H') E2) as [ -> -> ]. auto.
Qed.

Lemma medoid_distances_path_at c r : has_char "/" (rm_name r) = false -> has_char "/" (mode_of c) = false ->
  medoid_distances_path c r = medoid_distances_at (rmeta_repr r) c.
Proof. intros Hr Hc. unfold medoid_distances_path. rewrite clustering_path by (auto; discriminate). reflexivity. Qed.
Lemma between_medoids_path_at c r n et : has_char "/" (rm_name r) = false -> has_char "/" (mode_of c) = false ->
  path_join (solver_output_dir (trainer_metadata r c (PAutoArima 1 1 3 3 None true) n et) "outputs") (between_medoids_filename c et) = between_medoids_at (rmeta_repr r) c et.
Proof.
  intros Hr Hc. unfold solver_output_dir, trainer_metadata, between_medoids_filename. cbn [sm_kind sm_params sm_region]. change (params_repr (PAutoArima 1 1 3 3 None true)) with simple_search.
  rewrite clustering_path2; try assumption; try discriminate; try reflexivity.
Qed.
Lemma distance_errors_path_at c r n et i order : has_char "/" (rm_name r) = false -> has_char "/" (mode_of c) = false ->
  path_join (solver_output_dir (trainer_metadata r c (PAutoArima 1 1 3 3 None true) n et) "outputs") (distance_errors_filename c et ("cluster" ++ str_int (Z.of_nat i)) order) =
  distance_errors_at (rmeta_repr r) c et i order.
Proof.
  intros Hr Hc. destruct order as [ [ p d ] q ]. unfold solver_output_dir, trainer_metadata, distance_errors_filename, distance_errors_at. cbn [sm_kind sm_params sm_region].
  change (params_repr (PAutoArima 1 1 3 3 None true)) with simple_search. rewrite clustering_path2; try assumption; try discriminate; try reflexivity.
Qed.
Lemma arima_errors_path_at c r name et : has_char "/" (rm_name r) = false -> has_char "/" (mode_of c) = false -> has_char "/" name = false ->
  arima_errors_path c r name et = arima_errors_at (rmeta_repr r) c name et.
Proof.
  intros Hr Hc Hn. unfold arima_errors_path, arima_errors_at. rewrite clustering_path2; try assumption; try discriminate.
  rewrite ?sapp_assoc. reflexivity.
Qed.
Lemma auto_arima_errors_path_at c r et : has_char "/" (rm_name r) = false -> has_char "/" (mode_of c) = false ->
  auto_arima_errors_path c r (PAutoArima 1 1 3 3 None true) et = auto_arima_errors_at (rmeta_repr r) c et.
Proof.
  intros Hr Hc. unfold auto_arima_errors_path, auto_arima_errors_at. change (params_repr (PAutoArima 1 1 3 3 None true)) with simple_search.
  rewrite clustering_path2; try assumption; try discriminate; try reflexivity.
Qed.

(* ---------- tables ---------- *)
Lemma put_tables_other files : forall t q, ~ In q (map fst files) -> put_tables t files q = t q.
Proof.
  induction files as [ | [ p f ] files IH ]; intros t q Hn; [ reflexivity | ]. cbn [put_tables fold_left map] in *. fold (put_tables (put_table t (p, f)) files). rewrite IH.
  - unfold put_table. cbn [fst]. destruct (String.eqb_spec q p); [ subst; exfalso; apply Hn; left; reflexivity | reflexivity ].
  - intros H. apply Hn. right. exact H.
Qed.
Lemma put_tables_in files : forall t q f, NoDup (map fst files) -> In (q, f) files -> put_tables t files q = Some f.
Proof.
  induction files as [ | [ p f0 ] files IH ]; intros t q f Hnd Hin; [ destruct Hin | ]. cbn [put_tables fold_left map] in *. fold (put_tables (put_table t (p, f0)) files).
  inversion_clear Hnd as [ | ? ? Hni Hnd' ]. destruct Hin as [ E | Hin ]; [ | apply IH; assumption ]. injection E as -> ->.
  cbn [fst] in Hni. rewrite put_tables_other by exact Hni. unfold put_table. cbn [fst snd]. rewrite String.eqb_refl. reflexivity.
Qed.
Lemma put_tables_app files files' t : put_tables t (files ++ files')%list = put_tables (put_tables t files) files'.
Proof. unfold put_tables. apply fold_left_app. Qed.
(* ---------- the loop ---------- *)
Section Loop.
Context {M : Type} (choice : Z -> nat -> Z -> res (list Z)) (env : denv) (format_coverage : Q -> string).
Context (r : rmeta) (d : arr3 fnum) (sc : option (arr2 fnum * arr2 fnum)) (D : mat).
Local Notation x := (a3x d).
Local Notation y := (a3y d).
Local Notation spt := (qregion d sc).
Context (Hname : has_char "/" (rm_name r) = false) (Hspan : spans (rm_region r) x y)
        (Hload : np_load env (distances_filename r) = Ok D) (HD : square (x * y) D).
Local Notation loaded := (DObj PlainDTW (Some D) false).
Local Notation Used fs := (used choice env fs r (dmeta_of r) spt loaded).
Local Notation world := (world M).
Local Notation report := (report format_coverage).

Lemma partition_step (w : world) c p ms : has_char "/" (mode_of c) = false -> w_distance w = loaded -> Used (w_pickles w) c p ms ->
  with_medoids x y (c_k c) p ms ->
  exists w', partition_and_report choice env format_coverage w c r spt = (w', Ok (p, Some ms)) /\ w_distance w' = loaded /\
    (forall q, w_texts w' q = if (q =? report_path c r "dtw" "outputs")%string then Some (report c p) else w_texts w q) /\
    (forall q, w_pickles w' q = if (q =? pickle_full_path c r "dtw")%string then Some (FPartition (p, Some ms)) else w_pickles w q).
Proof.
  intros Hmode Ew HU HW. pose proof HW as (V & K & L & G).
  destruct (C80_report_reads_back format_coverage (c_k c) p x y V ltac:(lia)) as (lines & rows & Er & _).
  assert (Erep : report c p = lines) by (unfold AnalysisFacts.report; rewrite Er; reflexivity).
  unfold partition_and_report, save_to_csv. unfold used in HU. rewrite <- (saved_at_path c r Hname Hmode) in HU. rewrite Erep.
  unfold try_load_previous_partition, load_previous_partition, load_file.
  destruct (w_pickles w (pickle_full_path c r "dtw")) as [ [ q | ms0 | e0 | ] | ] eqn:Ef; cbn [as_partition].
  { subst q. cbn [fst]. rewrite Er. eexists. split; [ reflexivity | ]. split; [ exact Ew | ]. split; [ reflexivity | ]. intros q. cbn [write_text w_pickles].
    destruct (String.eqb_spec q (pickle_full_path c r "dtw")) as [ -> | ]; [ exact Ef | reflexivity ]. }
  all: rewrite (load_again choice env r d sc D Hspan Hload HD w Ew), HU; cbn [fst]; rewrite Er; eexists; split; [ reflexivity | ]; split; [ reflexivity | ]; split; reflexivity.
Qed.
Lemma partition_fails (w : world) c e : has_char "/" (mode_of c) = false -> w_distance w = loaded ->
  (forall q, w_pickles w (saved_at (rmeta_repr r) c) <> Some (FPartition q)) ->
  algorithm_partition_impl choice env c (Some (dmeta_of r)) spt true loaded = Raise e ->
  exists w', partition_and_report choice env format_coverage w c r spt = (w', Raise e) /\
    w_texts w' = w_texts w /\ w_pickles w' = w_pickles w.
Proof.
  intros Hmode Ew Hn Ea. rewrite <- (saved_at_path c r Hname Hmode) in Hn.
  unfold partition_and_report, try_load_previous_partition, load_previous_partition, load_file.
  destruct (w_pickles w (pickle_full_path c r "dtw")) as [ [ q | ms0 | e0 | ] | ] eqn:Ef; cbn [as_partition]; [ exfalso; apply (Hn q); reflexivity | | | | ].
  all: rewrite (load_again choice env r d sc D Hspan Hload HD w Ew), Ea; eexists; repeat split; reflexivity.
Qed.
Lemma partition_distance (w : world) c : w_distance w = loaded -> w_distance (fst (partition_and_report choice env format_coverage w c r spt)) = loaded.
Proof.
  intros Ew. unfold partition_and_report, save_to_csv. destruct (try_load_previous_partition _ _ _ _ _) as [ [ p ms ] | ].
  - destruct (clustering_report _ _ _); exact Ew.
  - rewrite (load_again choice env r d sc D Hspan Hload HD w Ew). destruct (algorithm_partition_impl _ _ _ _ _ _ _) as [ [ p ms ] | e ]; [ | reflexivity ].
    destruct (clustering_report _ _ _); reflexivity.
Qed.

(** a new distance measure for each clustering is as good as a shared one *)
Definition reload (w : world) : world := World (w_pickles w) (w_texts w) loaded.
Lemma reload_same w : w_distance w = loaded -> reload w = w.
Proof. destruct w as [ p t o ]. cbn. intros ->. reflexivity. Qed.
Lemma prepared_step use (w : world) c : with_prepared_partition choice env format_coverage r spt use w c = with_partition choice env format_coverage r spt use (reload w) c.
Proof. unfold with_prepared_partition, load_distance_matrix_2d. cbn [d_kind]. rewrite (base_load_ok env _ _ x y _ D Hspan Hload HD). reflexivity. Qed.
Lemma with_partition_distance use (w : world) c : w_distance w = loaded -> w_distance (fst (with_partition choice env format_coverage r spt use w c)) = loaded.
Proof.
  intros Ew. pose proof (partition_distance w c Ew) as H. unfold with_partition. destruct (partition_and_report _ _ _ _ _ _ _) as [ w' [ [ p [ ms | ] ] | e ] ]; exact H.
Qed.
Lemma prepared_loop use suite : forall (w : world) t, w_distance w = loaded ->
  each_clustering (with_prepared_partition choice env format_coverage r spt use) w t suite = each_clustering (with_partition choice env format_coverage r spt use) w t suite.
Proof.
  induction suite as [ | c suite IH ]; intros w t Ew; [ reflexivity | ]. cbn [each_clustering]. rewrite prepared_step, (reload_same w Ew).
  pose proof (with_partition_distance use w c Ew) as H. destruct (with_partition _ _ _ _ _ _ _ _) as [ w' [ files [ e | ] ] ]; [ reflexivity | ]. apply IH, H.
Qed.
Lemma prepared_is_shared use suite (w : world) t : suite <> [] ->
  each_clustering (with_prepared_partition choice env format_coverage r spt use) w t suite = each_clustering (with_partition choice env format_coverage r spt use) (reload w) t suite.
Proof.
  destruct suite as [ | c suite ]; intros Hne; [ congruence | ]. cbn [each_clustering]. rewrite prepared_step.
  pose proof (with_partition_distance use (reload w) c eq_refl) as H. destruct (with_partition _ _ _ _ _ _ _ _) as [ w' [ files [ e | ] ] ]; [ reflexivity | ]. apply prepared_loop, H.
Qed.

Lemma partition_loop use (files : item -> list (string * csv_file)) : forall items (w : world) t rest, w_distance w = loaded ->
  NoDup (map (fun it => c_repr (it_c it)) items) ->
  (forall it, In it items -> has_char "/" (mode_of (it_c it)) = false /\
     Used (w_pickles w) (it_c it) (it_p it) (it_ms it) /\ with_medoids x y (c_k (it_c it)) (it_p it) (it_ms it) /\
     use (it_c it) (it_p it) (it_ms it) loaded = (files it, None)) ->
  exists w', each_clustering (with_partition choice env format_coverage r spt use) w t (map it_c items ++ rest) =
             each_clustering (with_partition choice env format_coverage r spt use) w' (put_tables t (flat_map files items)) rest /\
    w_distance w' = loaded /\
    (forall it, In it items -> w_pickles w' (saved_at (rmeta_repr r) (it_c it)) = Some (FPartition (it_p it, Some (it_ms it))) /\
                               w_texts w' (report_at (rmeta_repr r) (it_c it)) = Some (report (it_c it) (it_p it))) /\
    (forall q, (forall it, In it items -> q <> report_at (rmeta_repr r) (it_c it)) -> w_texts w' q = w_texts w q) /\
    (forall q, (forall it, In it items -> q <> saved_at (rmeta_repr r) (it_c it)) -> w_pickles w' q = w_pickles w q).
Proof.
  induction items as [ | it items IH ]; intros w t rest Ew Hnd H.
  - exists w. split; [ reflexivity | ]. split; [ exact Ew | ]. split; [ intros it [] | ]. split; reflexivity.
  - destruct (H it (or_introl eq_refl)) as (Hc & HU & HW & Hf). destruct (partition_step w (it_c it) (it_p it) (it_ms it) Hc Ew HU HW) as (w1 & E1 & D1 & T1 & P1).
    cbn [map app each_clustering]. unfold with_partition at 1. rewrite E1, D1, Hf. cbn [map] in Hnd. inversion_clear Hnd as [ | ? ? Hni Hnd' ].
    assert (Same : forall it', In it' items -> c_repr (it_c it') <> c_repr (it_c it)).
    { intros it' Hin E. apply Hni. rewrite <- E. apply (in_map (fun it => c_repr (it_c it))), Hin. }
    rewrite (report_at_path _ r Hname Hc) in T1. rewrite (saved_at_path _ r Hname Hc) in P1.
    assert (Pn : forall it', In it' items -> saved_at (rmeta_repr r) (it_c it') <> saved_at (rmeta_repr r) (it_c it)).
    { intros it' Hin E. destruct (H it' (or_intror Hin)) as (Hc' & _). rewrite <- !saved_at_path in E by assumption. apply (Same it' Hin). apply (pickle_path_inj _ _ r); assumption. }
    assert (Tn : forall it', In it' items -> report_at (rmeta_repr r) (it_c it') <> report_at (rmeta_repr r) (it_c it)).
    { intros it' Hin E. destruct (H it' (or_intror Hin)) as (Hc' & _). rewrite <- !report_at_path in E by assumption. apply (Same it' Hin). apply (report_path_inj _ _ r); assumption. }
    destruct (IH w1 (put_tables t (files it)) rest D1 Hnd') as (w' & E' & D' & A' & T' & P').
    + intros it' Hin. destruct (H it' (or_intror Hin)) as (Hc' & HU' & HW'). split; [ exact Hc' | ]. split; [ | exact HW' ].
      unfold used in *. rewrite P1. destruct (String.eqb_spec (saved_at (rmeta_repr r) (it_c it')) (saved_at (rmeta_repr r) (it_c it))) as [ E | ]; [ | exact HU' ].
      exfalso. apply (Pn it' Hin E).
    + exists w'. cbn [flat_map]. rewrite put_tables_app. split; [ exact E' | ]. split; [ exact D' | ]. split; [ | split ].
      * intros it' [ <- | Hin ]; [ | apply A', Hin ]. split.
        -- rewrite P'; [ | intros it' Hin E; apply (Pn it' Hin); congruence ]. rewrite P1, String.eqb_refl. reflexivity.
        -- rewrite T'; [ | intros it' Hin E; apply (Tn it' Hin); congruence ]. rewrite T1, String.eqb_refl. reflexivity.
      * intros q Hq. rewrite T'; [ | intros it' Hin; apply Hq; right; exact Hin ]. rewrite T1.
        destruct (String.eqb_spec q (report_at (rmeta_repr r) (it_c it))) as [ -> | ]; [ exfalso; apply (Hq it (or_introl eq_refl)); reflexivity | reflexivity ].
      * intros q Hq. rewrite P'; [ | intros it' Hin; apply Hq; right; exact Hin ]. rewrite P1.
        destruct (String.eqb_spec q (saved_at (rmeta_repr r) (it_c it))) as [ -> | ]; [ exfalso; apply (Hq it (or_introl eq_refl)); reflexivity | reflexivity ].
Qed.
End Loop.
(* ---------- suites ---------- *)
Lemma in_combine_nth {A B} (l : list A) : forall (l' : list B) a b, In (a, b) (combine l l') -> exists i, nth_error l i = Some a /\ nth_error l' i = Some b.
Proof.
  induction l as [ | a0 l IH ]; intros [ | b0 l' ] a b H; try destruct H as [ E | H ]; try contradiction.
  - injection E as -> ->. exists 0. auto.
  - destruct (IH l' a b H) as (i & A1 & B1). exists (S i). auto.
Qed.
Lemma each_in suite results P : length suite = length results -> (each suite results P <-> forall c p ms, In (c, (p, ms)) (combine suite results) -> P c p ms).
Proof.
  intros L. split.
  - intros H c p ms Hin. destruct (in_combine_nth _ _ _ _ Hin) as (i & A & B). apply (H i c p ms A B).
  - intros H i c p ms A B. apply H. apply nth_error_In with i. apply combine_nth_error; assumption.
Qed.
Lemma suite_nonempty ty sid suite : get_suite ty sid = Ok suite -> suite <> [].
Proof.
  intros Hs ->. destruct (proj2 (proj1 (C112_which_suites ty sid)) (ex_intro _ _ Hs)) as [ c Hc ]. apply (proj1 (C112_suites _ _ _ Hs)) in Hc. destruct Hc.
Qed.
Lemma put_tables_single {A} (path : A -> string) (file : A -> csv_file) (l : list A) (t : tables) : NoDup (map path l) ->
  (forall a, In a l -> put_tables t (flat_map (fun a => [(path a, file a)]) l) (path a) = Some (file a)) /\
  (forall q, (forall a, In a l -> q <> path a) -> put_tables t (flat_map (fun a => [(path a, file a)]) l) q = t q).
Proof.
  intros Hnd. assert (E : flat_map (fun a => [(path a, file a)]) l = map (fun a => (path a, file a)) l) by (induction l as [ | a l IH ]; cbn; [ reflexivity | rewrite IH; [ reflexivity | inversion_clear Hnd; assumption ] ]).
  rewrite E. split.
  - intros a Ha. apply put_tables_in; [ rewrite map_map; cbn; exact Hnd | ]. apply (in_map (fun a => (path a, file a))), Ha.
  - intros q Hq. apply put_tables_other. rewrite map_map. cbn. intros H. apply in_map_iff in H. destruct H as (a & Ea & Ha). apply (Hq a Ha). congruence.
Qed.

Section Suite.
Context {M : Type} (choice : Z -> nat -> Z -> res (list Z)) (env : denv) (create_instance : rmeta -> res (stregion fnum)) (format_coverage : Q -> string).
Context (region : string) (r : rmeta) (d : arr3 fnum) (sc : option (arr2 fnum * arr2 fnum)) (D : mat) (dist : point -> point -> fnum).
Context (Hready : ready env create_instance region r d sc D dist).
Local Notation spt := (qregion d sc).
Local Notation loaded := (DObj PlainDTW (Some D) false).
Local Notation run use := (each_clustering (with_partition (M := M) choice env format_coverage r spt use)).

Lemma suite_prefix use (files : cmeta -> crisp -> list point -> list (string * csv_file)) (w : world M) t ty sid before results rest :
  w_distance w = loaded -> get_suite ty sid = Ok (before ++ rest)%list -> outcomes choice env (w_pickles w) r d sc D before results ->
  each before results (fun c p ms => use c p ms loaded = (files c p ms, None)) ->
  exists w', run use w t (before ++ rest)%list =
             run use w' (put_tables t (flat_map (fun it => files (it_c it) (it_p it) (it_ms it)) (map itemize (combine before results)))) rest /\
    w_distance w' = loaded /\ partitions_left format_coverage w w' region before results.
Proof.
  intros Ew Hs Ho Hu. pose proof Hready as (Hr & Hi & Hq & Hsp & Hl & HD & _). destruct (predefined_facts _ _ Hr) as (En & Hn & _).
  destruct (suite_clean _ _ _ Hs) as (_ & Nd & Cm). pose proof (forall2_length _ _ _ Ho) as Hlen.
  set (items := map itemize (combine before results)).
  assert (Ei : map it_c items = before). { unfold items. rewrite map_map. cbn. apply combine_fst, Hlen. }
  assert (Hin : forall it, In it items -> In (it_c it, (it_p it, it_ms it)) (combine before results)).
  { intros it H. unfold items in H. apply in_map_iff in H. destruct H as ([ c [ p ms ] ] & <- & H). exact H. }
  assert (Hit : forall c p ms, In (c, (p, ms)) (combine before results) -> In (c, p, ms) items).
  { intros c p ms H. unfold items. apply (in_map itemize) in H. exact H. }
  destruct (partition_loop choice env format_coverage r d sc D Hn Hsp Hl HD use (fun it => files (it_c it) (it_p it) (it_ms it)) items w t rest Ew) as (w' & E & D' & A & T & P).
  - rewrite <- (map_map it_c c_repr), Ei. rewrite map_app in Nd. apply nodup_app_l in Nd. exact Nd.
  - intros it H. pose proof (Hin it H) as H'. destruct (Forall2_in _ _ _ Ho _ H') as [ HU HW ]. cbn [fst snd] in HU, HW.
    split; [ apply Cm; apply in_or_app; left; apply in_combine_l in H'; exact H' | ]. split; [ exact HU | ]. split; [ exact HW | ].
    rewrite (each_in _ _ _ Hlen) in Hu. apply Hu, H'.
  - exists w'. rewrite Ei in E. split; [ exact E | ]. split; [ exact D' | ]. rewrite En in *. split; [ | split ].
    + apply each_in; [ exact Hlen | ]. intros c p ms H. pose proof (Forall2_in _ _ _ Ho _ H) as [ _ HW ]. cbn [fst snd] in HW. destruct HW as (V & K & _).
      destruct (A _ (Hit c p ms H)) as [ A1 A2 ]. cbn [it_c it_p it_ms fst snd] in A1, A2. split; [ exact A1 | ].
      destruct (C80_report_reads_back format_coverage (c_k c) p _ _ V ltac:(lia)) as (lines & rows & Er & _). exists lines. split; [ exact Er | ].
      rewrite A2. unfold AnalysisFacts.report. rewrite Er. reflexivity.
    + intros q Hq'. rewrite (each_in _ _ _ Hlen) in Hq'. apply T. intros it H. apply (Hq' _ _ _ (Hin it H)).
    + intros q Hq'. rewrite (each_in _ _ _ Hlen) in Hq'. apply P. intros it H. apply (Hq' _ _ _ (Hin it H)).
Qed.

Lemma not_before ty sid before c after results : get_suite ty sid = Ok (before ++ c :: after)%list ->
  each before results (fun c' _ _ => saved_at region c <> saved_at region c').
Proof.
  intros Hs i c' p ms Hb _ E. destruct (suite_clean _ _ _ Hs) as (_ & Nd & Cm). pose proof Hready as (Hr & _). destruct (predefined_facts _ _ Hr) as (En & Hn & _).
  apply nth_error_In in Hb. rewrite <- En, <- !saved_at_path in E.
  - apply pickle_path_inj in E; auto.
    + rewrite map_app in Nd. cbn [map] in Nd. apply NoDup_remove_2 in Nd. apply Nd, in_or_app. left. rewrite E. apply in_map, Hb.
    + apply Cm, in_or_app; right; left; reflexivity.
    + apply Cm, in_or_app; left; exact Hb.
  - exact Hn.
  - apply Cm, in_or_app; left; exact Hb.
  - exact Hn.
  - apply Cm, in_or_app; right; left; reflexivity.
Qed.

Lemma suite_fails_partition use files (w : world M) t ty sid before results c after e :
  w_distance w = loaded -> get_suite ty sid = Ok (before ++ c :: after)%list -> outcomes choice env (w_pickles w) r d sc D before results ->
  each before results (fun c p ms => use c p ms loaded = (files c p ms, None)) ->
  (forall q, w_pickles w (saved_at region c) <> Some (FPartition q)) ->
  algorithm_partition_impl choice env c (Some (dmeta_of r)) spt true loaded = Raise e ->
  exists w', run use w t (before ++ c :: after)%list =
             (w', put_tables t (flat_map (fun it => files (it_c it) (it_p it) (it_ms it)) (map itemize (combine before results))), Some e) /\
    partitions_left format_coverage w w' region before results.
Proof.
  intros Ew Hs Ho Hu Hn Ea. destruct (suite_prefix use files w t ty sid before results (c :: after) Ew Hs Ho Hu) as (w1 & E & D1 & (L1 & L2 & L3)).
  pose proof Hready as (Hr & Hi & Hq & Hsp & Hl & HD & _). destruct (predefined_facts _ _ Hr) as (En & Hnm & _). destruct (suite_clean _ _ _ Hs) as (_ & _ & Cm).
  destruct (partition_fails choice env format_coverage r d sc D Hnm Hsp Hl HD w1 c e) as (w' & Ef & T & P); auto.
  - apply Cm, in_or_app; right; left; reflexivity.
  - rewrite En. intros q. rewrite L3; [ apply Hn | ]. apply (not_before ty sid before c after results Hs).
  - exists w'. rewrite E. cbn [each_clustering]. unfold with_partition at 1. rewrite Ef. split; [ reflexivity | ]. unfold partitions_left. rewrite T, P. auto.
Qed.

Lemma suite_fails_use use files (w : world M) t ty sid before results c after p ms fs e :
  w_distance w = loaded -> get_suite ty sid = Ok (before ++ c :: after)%list -> outcomes choice env (w_pickles w) r d sc D (before ++ [c]) (results ++ [(p, ms)]) ->
  length before = length results ->
  each before results (fun c p ms => use c p ms loaded = (files c p ms, None)) ->
  use c p ms loaded = (fs, Some e) ->
  exists w', run use w t (before ++ c :: after)%list =
             (w', put_tables (put_tables t (flat_map (fun it => files (it_c it) (it_p it) (it_ms it)) (map itemize (combine before results)))) fs, Some e) /\
    partitions_left format_coverage w w' region (before ++ [c]) (results ++ [(p, ms)]).
Proof.
  intros Ew Hs Ho Hlen Hu Ef.
  apply Forall2_app_inv_l in Ho. destruct Ho as (l1 & l2 & Ho1 & Ho2 & El). inversion Ho2 as [ | c0 pm0 l0 l0' [ HU HW ] Hnil ]; subst. inversion Hnil; subst.
  assert (El' : results = l1 /\ (p, ms) = pm0). { apply app_inj_tail in El. destruct El as [ -> <- ]. auto. }
  destruct El' as [ -> <- ]. cbn [fst snd] in HU, HW.
  destruct (suite_prefix use files w t ty sid before l1 (c :: after) Ew Hs Ho1 Hu) as (w1 & E & D1 & (L1 & L2 & L3)).
  pose proof Hready as (Hr & Hi & Hq & Hsp & Hl & HD & _). destruct (predefined_facts _ _ Hr) as (En & Hnm & _). destruct (suite_clean _ _ _ Hs) as (_ & Nd & Cm).
  assert (Hmc : has_char "/" (mode_of c) = false) by (apply Cm, in_or_app; right; left; reflexivity).
  pose proof (not_before ty sid before c after l1 Hs) as Hnb.
  destruct (partition_step choice env format_coverage r d sc D Hnm Hsp Hl HD w1 c p ms) as (w' & Ep & D' & T & P); auto.
  { unfold used in *. rewrite En in *. rewrite L3 by exact Hnb. exact HU. }
  rewrite (report_at_path _ r Hnm Hmc), En in T. rewrite (saved_at_path _ r Hnm Hmc), En in P.
  exists w'. rewrite E. cbn [each_clustering]. unfold with_partition at 1. rewrite Ep, D', Ef. split; [ reflexivity | ].
  assert (Hnr : each before l1 (fun c' _ _ => report_at region c <> report_at region c')).
  { intros i c' p' ms' Hb _ Ec. apply nth_error_In in Hb. assert (Hb' : In c' (before ++ c :: after)) by (apply in_or_app; left; exact Hb).
    rewrite <- En, <- !report_at_path in Ec by (try assumption; apply Cm; exact Hb'). apply report_path_inj in Ec; auto; [ | apply Cm, Hb' ].
    rewrite map_app in Nd. cbn [map] in Nd. apply NoDup_remove_2 in Nd. apply Nd, in_or_app. left. rewrite Ec. apply in_map, Hb. }
  assert (Split : forall Q : cmeta -> crisp -> list point -> Prop, each (before ++ [c]) (l1 ++ [(p, ms)]) Q <-> each before l1 Q /\ Q c p ms).
  { intros Q. split.
    - intros H. split.
      + intros i c' p' ms' A B. apply (H i c' p' ms'); rewrite nth_error_app1; auto; apply nth_error_Some; congruence.
      + apply (H (length before) c p ms); [ | rewrite Hlen ]; rewrite nth_error_app2, Nat.sub_diag by lia; reflexivity.
    - intros [ H1 H2 ] i c' p' ms' A B. destruct (Nat.lt_ge_cases i (length before)) as [ Hi' | Hi' ].
      + rewrite nth_error_app1 in A by exact Hi'. rewrite nth_error_app1 in B by (rewrite <- Hlen; exact Hi'). apply (H1 i c' p' ms' A B).
      + rewrite nth_error_app2 in A by exact Hi'. rewrite nth_error_app2 in B by (rewrite <- Hlen; exact Hi'). rewrite <- Hlen in B.
        destruct (i - length before) as [ | j ]; [ | destruct j; discriminate ]. cbn in A, B. injection A as <-. injection B as <- <-. exact H2. }
  destruct HW as (V & K & _).
  split; [ | split ].
  - apply Split. split.
    + intros i c' p' ms' A B. destruct (L1 i c' p' ms' A B) as (B1 & lines & B2 & B3). split.
      * rewrite P. destruct (String.eqb_spec (saved_at region c') (saved_at region c)) as [ Ec | ]; [ | exact B1 ]. exfalso. apply (Hnb i c' p' ms' A B). congruence.
      * exists lines. split; [ exact B2 | ]. rewrite T. destruct (String.eqb_spec (report_at region c') (report_at region c)) as [ Ec | ]; [ | exact B3 ]. exfalso. apply (Hnr i c' p' ms' A B). congruence.
    + rewrite P, String.eqb_refl. split; [ reflexivity | ].
      destruct (C80_report_reads_back format_coverage (c_k c) p _ _ V ltac:(lia)) as (lines & rows & Er & _). exists lines. split; [ exact Er | ].
      rewrite T, String.eqb_refl. unfold AnalysisFacts.report. rewrite Er. reflexivity.
  - intros q Hq'. apply Split in Hq'. destruct Hq' as [ Q1 Q2 ]. rewrite T, (proj2 (String.eqb_neq _ _) Q2). apply L2, Q1.
  - intros q Hq'. apply Split in Hq'. destruct Hq' as [ Q1 Q2 ]. rewrite P, (proj2 (String.eqb_neq _ _) Q2). apply L3, Q1.
Qed.

(** programs that write one table for each clustering *)
Lemma single_tables (at_ : cmeta -> string) (file : cmeta -> crisp -> list point -> csv_file) t ty sid before rest results :
  get_suite ty sid = Ok (before ++ rest)%list -> length before = length results ->
  (forall c c', In c (before ++ rest) -> In c' (before ++ rest) -> at_ c = at_ c' -> c_repr c = c_repr c') ->
  forall P, each before results (fun c p ms => P c p ms (file c p ms)) ->
  tables_left t (put_tables t (flat_map (fun it => [(at_ (it_c it), file (it_c it) (it_p it) (it_ms it))]) (map itemize (combine before results)))) at_ before results P.
Proof.
  intros Hs Hlen Hinj P HP. destruct (suite_clean _ _ _ Hs) as (_ & Nd & _).
  set (items := map itemize (combine before results)).
  assert (Ei : map it_c items = before). { unfold items. rewrite map_map. cbn. apply combine_fst, Hlen. }
  assert (Nd' : NoDup (map (fun it => at_ (it_c it)) items)).
  { rewrite <- (map_map it_c at_), Ei. rewrite map_app in Nd. apply nodup_app_l in Nd. clear - Nd Hinj.
    induction before as [ | c before IH ]; cbn [map] in *; constructor; inversion_clear Nd as [ | ? ? Hni Hnd ].
    - intros H. apply Hni. apply in_map_iff in H. destruct H as (c' & E & Hin). apply in_map_iff. exists c'. split; [ | exact Hin ].
      apply Hinj; [ right; apply in_or_app; left; exact Hin | left; reflexivity | exact E ].
    - apply IH; [ | exact Hnd ]. intros a b Ha Hb. apply Hinj; right; assumption. }
  destruct (put_tables_single (fun it => at_ (it_c it)) (fun it => file (it_c it) (it_p it) (it_ms it)) items t Nd') as [ A B ].
  split.
  - apply each_in; [ exact Hlen | ]. intros c p ms H. exists (file c p ms). split.
    + apply (A (c, p, ms)). unfold items. apply (in_map itemize) in H. exact H.
    + rewrite (each_in _ _ _ Hlen) in HP. apply HP, H.
  - intros q Hq. rewrite (each_in _ _ _ Hlen) in Hq. apply B. intros it H. unfold items in H. apply in_map_iff in H. destruct H as ([ c [ p ms ] ] & <- & H). apply (Hq _ _ _ H).
Qed.
End Suite.
