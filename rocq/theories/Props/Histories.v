(** C130: what holds after any sequence of runs of the programs in the same directory. *)
From Coq Require Import String Lia Lqa Relations.
From Verif Require Import Base.Py Base.PyFacts Base.Str Base.StrFacts Base.Arr Base.ArrFacts Base.Dict Base.Float Base.FloatFacts Model.Region Model.Arrays Model.Series Model.Distance
  Model.KMedoids Model.Clustering Model.Variance Model.Solver Model.SolverFiles Model.Results Model.Reports Model.Algorithms Model.Programs Model.Dnn Model.PartitionAnalysis Model.SuitePrograms
  Model.Histories Spec.Grid Spec.Partition Spec.Distance Spec.Solver Spec.SolverFiles Spec.Programs Spec.Algorithms Spec.PartitionAnalysis Spec.SuitePrograms Spec.Histories
  Proofs.RegionFacts Proofs.PartitionFacts Proofs.ProperFacts Proofs.SolverFacts Proofs.ArraysFacts Proofs.DistanceFacts Proofs.DistanceObjFacts Proofs.VarianceFacts
  Proofs.ReportFacts Proofs.ClusteringFacts Proofs.NameFacts Proofs.ProgramFacts Proofs.FilesFacts Proofs.AlgorithmFacts Proofs.AnalysisFacts Proofs.SuiteFacts Proofs.HistoryFacts
  Props.Basics Props.Clustering Props.SolverFiles Props.Programs Props.Algorithms Props.PartitionAnalysis Props.SuitePrograms.
From Coq Require Import ZifyBool ZifyNat.
Local Notation length := List.length.
Local Open Scope nat_scope.

Section Runs.
Context {M : Type} (format_coverage : Q -> string) (format_float : nat -> fnum -> string).
Local Notation run_job := (@run_job M format_coverage format_float).
Local Notation run_jobs := (@run_jobs M format_coverage format_float).
Local Notation small := (@small M format_coverage).

Lemma steps_inv tl (j : job M) (I : fsys M * (string -> option (list string)) -> Prop) : (forall f f', small tl j f f' -> I f -> I f') ->
  forall s, I (files_of (fst s)) -> I (files_of (fst (run_job s (tl, j)))).
Proof.
  intros Hs s H. destruct (job_steps format_coverage format_float tl j s) as [ C _ ]. cbv zeta in C. unfold steps in C.
  induction C as [ f f' C | | f f' f'' _ IH _ IH' ]; eauto.
Qed.
Lemma history_inv (I : fsys M * (string -> option (list string)) -> Prop) h :
  (forall tl j f f', In (tl, j) h -> small tl j f f' -> I f -> I f') -> forall s, I (files_of (fst s)) -> I (files_of (fst (run_jobs s h))).
Proof.
  induction h as [ | [ tl j ] h IH ]; intros Hs s H; [ exact H | ]. unfold run_jobs. cbn [fold_left]. apply IH; [ intros; eapply Hs; eauto; right; assumption | ].
  apply (steps_inv tl j I); [ | exact H ]. intros f f'. apply Hs. left. reflexivity.
Qed.

Lemma key_clean pg a r c : metadata_from_args a = Ok (r, c) -> has_char "/" (a_error a) = false -> clean_key (key_of (M := M) pg a r c).
Proof. intros H He. split; [ apply (place_clean _ _ _ H) | exact He ]. Qed.
Lemma small_stays tl j region r c q f f' : region_by_name region = Ok r -> asked c -> small tl j f f' ->
  fst f (saved_at region c) = Some (FPartition q) -> fst f' (saved_at region c) = Some (FPartition q).
Proof.
  intros Hr Hc Hs H. destruct Hs as [ fs ts region' r' c' q' ts' Hr' Hp' Hl _ _ | | | | fs ts pg a r' c' s Hm _ He ]; cbn [fst] in *; try exact H.
  - pose proof (partitions_asked _ _ _ Hp') as Hc'. rewrite (asked_saved_path region' r' c' Hr' Hc'). destruct (string_dec (saved_at region c) (saved_at region' c')) as [ E | Hne ].
    + exfalso. rewrite E, <- (asked_saved_path region' r' c' Hr' Hc') in H. rewrite (try_load_ok _ _ _ _ "pickle" _ H) in Hl. discriminate.
    + rewrite put_other by exact Hne. exact H.
  - pose proof (key_clean pg a r' c' Hm He) as Hk. pose proof (asked_place _ _ _ Hr Hc) as Hpl. rewrite <- (asked_saved_path region r c Hr Hc) in *.
    rewrite saved_other; [ exact H | apply partition_training | apply partition_whole | apply partition_errors ]; assumption.
Qed.
End Runs.

(** C130: a saved partition is never changed again: whatever programs are run afterwards, with whatever options, random choices, data and
    distance files, completed or failed, the partition of a clustering stays the one that was saved first. *)
Theorem C130_partitions_stay : forall M format_coverage format_float (s : world M * tables) h region r c q,
  region_by_name region = Ok r -> asked c -> w_pickles (fst s) (saved_at region c) = Some (FPartition q) ->
  w_pickles (fst (run_jobs format_coverage format_float s h)) (saved_at region c) = Some (FPartition q).
Proof.
  intros M fc ff s h region r c q Hr Hc H. apply (history_inv fc ff (fun f => fst f (saved_at region c) = Some (FPartition q)) h); [ | exact H ].
  intros tl j f f' _ Hs. apply (small_stays fc tl j region r c q f f' Hr Hc Hs).
Qed.
Print Assumptions C130_partitions_stay.

(** C130: so once the partitions of a suite are saved, every later run uses them, whatever is drawn at random *)
Theorem C130_same_results : forall M format_coverage format_float (s : world M * tables) h region r ty sid suite results choice env d sc D,
  region_by_name region = Ok r -> get_suite ty sid = Ok suite -> length suite = length results ->
  each suite results (fun c p ms => w_pickles (fst s) (saved_at region c) = Some (FPartition (p, Some ms)) /\ with_medoids (a3x d) (a3y d) (c_k c) p ms) ->
  outcomes choice env (w_pickles (fst (run_jobs format_coverage format_float s h))) r d sc D suite results.
Proof.
  intros M fc ff s h region r ty sid suite results choice env d sc D Hr Hs Hlen He. destruct (predefined_facts _ _ Hr) as (En & _).
  assert (Ha : forall c, In c suite -> asked c) by (intros c Hc; eapply belongs_asked, (suite_belongs _ _ _ _ Hs Hc)). clear Hs.
  unfold outcomes. revert results Hlen He. induction suite as [ | c suite IH ]; intros [ | [ p ms ] results ] Hlen He; try discriminate; constructor.
  - cbn [fst snd]. destruct (He 0 c p ms eq_refl eq_refl) as [ A B ]. split; [ | exact B ]. unfold used. rewrite En.
    rewrite (C130_partitions_stay _ fc ff s h region r c _ Hr (Ha c (or_introl eq_refl)) A). reflexivity.
  - apply IH; [ intros c' H; apply Ha; right; exact H | cbn in Hlen; lia | ]. intros i c' p' ms' A B. apply (He (S i) c' p' ms' A B).
Qed.
Print Assumptions C130_same_results.

(* ---------- partitions ---------- *)
Lemma ready_size {env create region r d sc D dist} : ready env create region r d sc D dist -> width r = a3x d /\ height r = a3y d.
Proof. intros (_ & _ & _ & [ Sx Sy ] & _). unfold width, height. rewrite Sx, Sy. lia. Qed.
Lemma impl_plain choice env c r spt o D x y : plain o -> spans (rm_region r) x y -> np_load env (distances_filename r) = Ok D -> square (x * y) D ->
  fst (clustering_impl choice env c (Some (dmeta_of r)) spt true o) = algorithm_partition_impl choice env c (Some (dmeta_of r)) spt true (DObj PlainDTW (Some D) false).
Proof.
  intros [ K W ] Hsp Hl HD. unfold clustering_impl. cbn [try_load_distance_matrix load_distance_matrix_md dmeta_of md_filename md_region].
  unfold load_distance_matrix_2d. rewrite K, (base_load_ok env _ _ x y _ D Hsp Hl HD), K, W. reflexivity.
Qed.
Lemma algorithm_total dist tl region r d sc D c : distances dist -> draws (tl_choice tl) -> ready (tl_env tl) (tl_create tl) region r d sc D (fun q pt => Fin (dist region q pt)) ->
  asked c -> (1 <= c_k c)%Z -> possible (tl_choice tl) (width r) (height r) c ->
  exists p ms, algorithm_partition_impl (tl_choice tl) (tl_env tl) c (Some (dmeta_of r)) (qregion d sc) true (DObj PlainDTW (Some D) false) = Ok (p, Some ms) /\
    good (dist region) (width r) (height r) c p ms.
Proof.
  intros Hdist Hdr Hready Hc Hk Hpos. pose proof Hready as (Hr & Hi & Hq & Hsp & Hl & HD & Hent). destruct (predefined_facts _ _ Hr) as (En & Hn & _ & _ & Hx & Hy & _).
  destruct (ready_size Hready) as [ Wx Hy' ]. unfold distances in Hdist. specialize (Hdist region r). rewrite Wx, Hy' in *.
  assert (Hxy : 0 < a3x d * a3y d) by (destruct Hsp; nia).
  destruct Hc as [ k | k seed ]; cbn [c_k km_k kmeta_default] in Hk; cbn [possible km_k km_seed kmeta_default] in Hpos.
  - destruct Hpos as [ p Ep ]. assert (Hpr : provides (tl_env tl) (Some (dmeta_of r)) (DObj PlainDTW (Some D) false) D) by (left; reflexivity).
    destruct (C116_regular_medoids (tl_choice tl) (tl_env tl) (Some (dmeta_of r)) _ D d sc _ _ (dist region) k p Hq eq_refl eq_refl Hk Ep HD Hpr Hent) as (ms & E' & L & Hms).
    exists p, ms. split; [ exact E' | ].
    destruct (regular_partition_valid (a3x d) (a3y d) k Hk) as (p' & Ep' & Kp & Vp & _).
    { unfold with_regular_partition in Ep. destruct (regular_partitioning (a3x d) (a3y d) k); [ eauto | discriminate ]. }
    rewrite Ep in Ep'. injection Ep' as <-. split; [ split; [ exact Vp | split; [ exact Kp | split; [ exact L | ] ] ] | split ].
    + apply Forall_forall. intros m Hm. apply In_nth_error in Hm. destruct Hm as [ i Hm ]. apply (Hms i m Hm).
    + intros i m Hm. apply (Hms i m Hm).
    + split; [ exact Ep | ]. intros i m Hm. destruct (Hms i m Hm) as (_ & _ & B). exact B.
  - destruct Hpos as [ l El ]. destruct (Hdr _ _ _ _ El) as (Ll & Nl & Fl).
    assert (Hmeas : measured (tl_env tl) (DObj PlainDTW (Some D) false) d (fun q pt => Fin (dist region q pt))) by (split; [ exact HD | exact Hent ]).
    destruct (C116_kmedoids_distinct (tl_choice tl) (tl_env tl) _ d sc _ _ _ (Z.to_nat k) (kmeta_default k seed "lite") l Hq eq_refl eq_refl Hxy Hmeas) as (p & ms & E' & _ & Hcl & Kp & Hown).
    + reflexivity.
    + intros q0 Hq0. destruct (Hdist q0 q0 Hr Hq0 Hq0) as [ A _ ]. cbn. apply Qeq_bool_iff. exact A.
    + intros q0 pt Hq0 Hpt Hne. destruct (Hdist q0 pt Hr Hq0 Hpt) as [ _ A ]. specialize (A Hne). cbn. destruct (Qlt_le_dec 0 (dist region q0 pt)) as [ B | B ]; [ | lra ].
      unfold flt. apply Bool.negb_true_iff. apply Bool.not_true_is_false. intros F. apply Qle_bool_iff in F. lra.
    + unfold can_start. cbn [km_k km_tol km_mode km_init km_seed kmeta_default]. rewrite Z2Nat.id by lia. split; [ reflexivity | ]. split; [ lia | ]. split; [ reflexivity | ]. split; [ left; reflexivity | ].
      split; [ exact El | ]. split; [ lia | ]. split; [ exact Nl | ]. apply Forall_forall. exact Fl.
    + exists p, ms. split; [ exact E' | ]. pose proof Hcl as (V & _ & L & _ & G & _). split; [ | split ].
      * split; [ exact V | ]. split; [ rewrite Kp; cbn [c_k km_k kmeta_default]; lia | ]. split; [ rewrite L; cbn [c_k km_k kmeta_default]; lia | exact G ].
      * exact Hown.
      * exact Hcl.
Qed.
Lemma algorithm_good dist tl region r d sc D c q : distances dist -> draws (tl_choice tl) -> ready (tl_env tl) (tl_create tl) region r d sc D (fun q pt => Fin (dist region q pt)) ->
  asked c -> (1 <= c_k c)%Z -> algorithm_partition_impl (tl_choice tl) (tl_env tl) c (Some (dmeta_of r)) (qregion d sc) true (DObj PlainDTW (Some D) false) = Ok q ->
  exists p ms, q = (p, Some ms) /\ good (dist region) (width r) (height r) c p ms.
Proof.
  intros Hdist Hdr Hready Hc Hk E. destruct (algorithm_total dist tl region r d sc D c Hdist Hdr Hready Hc Hk) as (p & ms & E' & G).
  - pose proof Hready as (Hr & Hi & Hq & Hsp & Hl & HD & Hent). destruct (predefined_facts _ _ Hr) as (En & Hn & _ & _ & Hx & Hy & _).
    destruct (ready_size Hready) as [ Wx Hy' ]. rewrite Wx, Hy'. assert (Hxy : 0 < a3x d * a3y d) by (destruct Hsp; nia).
    destruct Hc as [ k | k seed ]; cbn [algorithm_partition_impl possible km_k km_seed kmeta_default] in *.
    + unfold regular_partition_impl in E. rewrite q_x, q_y in E. destruct (with_regular_partition k (a3x d) (a3y d)); cbn [bind] in E; [ eauto | discriminate ].
    + unfold kmedoids_partition_impl in E. rewrite (q_as_list d sc Hq) in E. cbn [bind] in E. rewrite (samples d sc) in E.
      replace (a3x d * a3y d =? 0) with false in E by lia. cbn [bind km_init km_k km_seed kmeta_default] in E. unfold run_kmedoids, choose_initial_medoids in E. rewrite (samples d sc) in E.
      destruct (tl_choice tl seed (a3x d * a3y d) k); cbn [bind] in E; [ eauto | discriminate ].
  - rewrite E' in E. injection E as <-. eauto.
Qed.
Lemma computes_good dist tl region r c q : distances dist -> prepared dist tl -> region_by_name region = Ok r -> asked c -> (1 <= c_k c)%Z -> computes tl r c q ->
  exists p ms, q = (p, Some ms) /\ good (dist region) (width r) (height r) c p ms.
Proof.
  intros Hdist [ Hdr Hpr ] Hr Hc Hk (spt & o & Es & Hpl & E). destruct (Hpr region r Hr) as (d & sc & D & Hready). pose proof Hready as (_ & Hi & _ & Hsp & Hl & HD & _).
  rewrite Hi in Es. injection Es as <-. rewrite (impl_plain _ _ _ _ _ _ D _ _ Hpl Hsp Hl HD) in E. eapply algorithm_good; eauto.
Qed.
Definition all_good {M} (dist : string -> point -> point -> Q) (fs : fsys M) : Prop :=
  forall region r c q, region_by_name region = Ok r -> asked c -> (1 <= c_k c)%Z -> fs (saved_at region c) = Some (FPartition q) ->
  exists p ms, q = (p, Some ms) /\ good (dist region) (width r) (height r) c p ms.
Lemma small_good M fc dist tl (j : job M) f f' : distances dist -> prepared dist tl -> small fc tl j f f' -> all_good dist (fst f) -> all_good dist (fst f').
Proof.
  intros Hdist Hpr Hs H. destruct Hs as [ fs ts region' r' c' q' ts' Hr' Hp' Hl Hcp _ | | | | fs ts pg a r' c' s Hm _ He ]; cbn [fst] in *; try exact H; intros region r c q Hr Hc Hk E.
  - pose proof (partitions_asked _ _ _ Hp') as Hc'. rewrite (asked_saved_path region' r' c' Hr' Hc') in E. destruct (string_dec (saved_at region c) (saved_at region' c')) as [ Ep | Hne ].
    + destruct (saved_at_inj _ _ _ _ _ _ Hr Hc Hr' Hc' Ep) as [ -> -> ]. rewrite Hr' in Hr. injection Hr as <-. rewrite put_same in E. injection E as <-.
      eapply computes_good; eauto.
    + rewrite put_other in E by exact Hne. eapply H; eauto.
  - pose proof (key_clean pg a r' c' Hm He) as Hk'. pose proof (asked_place _ _ _ Hr Hc) as Hpl. eapply H; eauto. rewrite <- E. rewrite <- (asked_saved_path region r c Hr Hc).
    symmetry. apply saved_other; [ apply partition_training | apply partition_whole | apply partition_errors ]; assumption.
Qed.
Lemma history_good M fc ff dist (s : world M * tables) h : distances dist -> Forall (fun e => prepared dist (fst e)) h -> all_good dist (w_pickles (fst s)) ->
  all_good dist (w_pickles (fst (run_jobs fc ff s h))).
Proof.
  intros Hdist Hh H. apply (history_inv fc ff (fun f => all_good dist (fst f)) h); [ | exact H ]. intros tl j f f' Hin. rewrite Forall_forall in Hh. apply small_good; [ exact Hdist | apply (Hh _ Hin) ].
Qed.
Lemma empty_good M dist (s : world M * tables) : empty_directories s -> all_good dist (w_pickles (fst s)).
Proof. intros (H & _) region r c q _ _ _ E. rewrite H in E. discriminate. Qed.

(** C130: whatever has been run since the directories were empty, every saved partition is a good one for its region and clustering. *)
Theorem C130_saved_partitions : forall M format_coverage format_float dist (s : world M * tables) h region r c q,
  distances dist -> Forall (fun e => prepared dist (fst e)) h -> empty_directories s -> region_by_name region = Ok r -> asked c -> (1 <= c_k c)%Z ->
  w_pickles (fst (run_jobs format_coverage format_float s h)) (saved_at region c) = Some (FPartition q) ->
  exists p ms, q = (p, Some ms) /\ good (dist region) (width r) (height r) c p ms.
Proof. intros M fc ff dist s h region r c q Hdist Hh He. apply (history_good M fc ff dist s h Hdist Hh (empty_good M dist s He)). Qed.
Print Assumptions C130_saved_partitions.

(* ---------- what a run leaves alone ---------- *)

(** C130: whatever the state of the directories and the outcome of a run, also a failing one, it changes no file but those it is about: the
    partitions of its region and clusterings and, in training, the files of that solver; the reports of these partitions and, in an
    analysis, the table of the suite; and the tables with its results. *)
Theorem C130_other_files : forall M format_coverage format_float (s : world M * tables) tl j path,
  let s' := run_job format_coverage format_float s (tl, j) in
  ((forall region c, partitions j region c -> path <> saved_at region c) -> (forall k, trains j k -> ~ solver_file k path) ->
   w_pickles (fst s') path = w_pickles (fst s) path) /\
  ((forall region c, partitions j region c -> reports j -> path <> report_at region c) -> ~ tabulates j path ->
   w_texts (fst s') path = w_texts (fst s) path) /\
  (~ may_write j path -> snd s' path = snd s path).
Proof.
  intros M fc ff s tl j path s'. split; [ | split ].
  - intros Hp Ht. apply (steps_inv fc ff tl j (fun f => fst f path = w_pickles (fst s) path)); [ | reflexivity ].
    intros f f' Hs <-. destruct Hs as [ fs ts region r c q ts' Hr Hpt _ _ _ | | | | fs ts pg a r c sv Hm Hj He ]; cbn [fst]; try reflexivity.
    + rewrite (asked_saved_path region r c Hr (partitions_asked _ _ _ Hpt)). apply put_other. apply Hp, Hpt.
    + destruct (metadata_inv _ _ _ Hm) as [ Hr Hc ]. assert (Hn : ~ solver_file (key_of pg a r c) path).
      { apply Ht. rewrite Hj. exists r, c. split; [ exact Hr | ]. split; [ split; [ reflexivity | exact Hc ] | reflexivity ]. }
      apply saved_other; intros ->; apply Hn; unfold solver_file; auto.
  - intros Hp Ht. apply (steps_inv fc ff tl j (fun f => snd f path = w_texts (fst s) path)); [ | reflexivity ].
    assert (Hput : forall ts region r c lines, region_by_name region = Ok r -> partitions j region c -> reports j -> put_text ts (report_path c r "dtw" "outputs") lines path = ts path).
    { intros ts region r c lines Hr Hpt Hrep. unfold put_text. rewrite (asked_report_path region r c Hr (partitions_asked _ _ _ Hpt)).
      rewrite (proj2 (String.eqb_neq _ _)); [ reflexivity | ]. first [ apply (Hp region c Hpt Hrep) | apply not_eq_sym, (Hp region c Hpt Hrep) ]. }
    intros f f' Hs <-. destruct Hs as [ fs ts region r c q ts' Hr Hpt _ _ Hts | fs ts region r c q lines Hr Hpt Hrep _ _ | fs ts region r c q e Hr Hpt Hrep _ _
      | fs ts region r ty sid suite lines Hr Hj _ | fs ts pg a r c sv Hm Hj He ]; cbn [snd]; try reflexivity.
    + destruct Hts as [ -> | (Hrep & lines & _ & ->) ]; [ reflexivity | eapply Hput; eauto ].
    + eapply Hput; eauto.
    + eapply Hput; eauto.
    + unfold put_text. rewrite (proj2 (String.eqb_neq _ _)); [ reflexivity | ]. intros E. apply Ht. rewrite Hj. cbn [tabulates]. congruence.
  - apply (job_steps fc ff tl j s).
Qed.
Print Assumptions C130_other_files.

(* ---------- reports ---------- *)
Lemma failing_report fc k p e : clustering_report fc k p = Raise e -> (1 <= k)%Z.
Proof.
  unfold clustering_report, clustering_report_rows. intros E. destruct (Z.leb_spec 1 k); [ assumption | ]. exfalso.
  unfold zrange in E. replace (Z.to_nat (k - 0)) with 0 in E by lia. discriminate E.
Qed.
Lemma good_reports fc dist x y c p ms : good dist x y c p ms -> exists lines, clustering_report fc (c_k c) p = Ok lines.
Proof.
  intros ((V & Kp & _) & _). destruct (C80_report_reads_back fc (c_k c) p x y V) as (lines & _ & E & _); [ rewrite Kp; lia | eauto ].
Qed.
Lemma suite_named ty sid suite : get_suite ty sid = Ok suite -> exists c, belongs ty sid c.
Proof. intros H. apply (proj1 (C112_which_suites ty sid)). eauto. Qed.
Lemma split_table region r ty sid suite : region_by_name region = Ok r -> get_suite ty sid = Ok suite ->
  split "/" (table_at region ty sid) = ["outputs"; region; "dtw"; "clustering__" ++ ty ++ "-" ++ sid ++ ".csv"]%string.
Proof.
  intros Hr Hs. destruct (region_no_slash _ _ Hr) as [ Ns _ ]. destruct (suite_named _ _ _ Hs) as [ c Hc ].
  replace (table_at region ty sid) with (join "/" ["outputs"; region; "dtw"; "clustering__" ++ ty ++ "-" ++ sid ++ ".csv"]%string) by (unfold table_at; cbn [join]; rewrite ?sapp_assoc; reflexivity).
  apply split_join; [ discriminate | ]. intros s [ <- | [ <- | [ <- | [ <- | [] ] ] ] ]; auto. destruct Hc; reflexivity.
Qed.
Lemma split_report region r c : region_by_name region = Ok r -> asked c ->
  split "/" (report_at region c) = ["outputs"; region; "dtw"; c_repr c; "clustering__" ++ c_repr c ++ ".csv"]%string.
Proof.
  intros Hr Hc. destruct (region_no_slash _ _ Hr) as [ Ns _ ]. pose proof (c_repr_no_slash c (asked_mode _ Hc)) as Cs.
  replace (report_at region c) with (join "/" ["outputs"; region; "dtw"; c_repr c; "clustering__" ++ c_repr c ++ ".csv"]%string) by (unfold report_at; cbn [join]; rewrite ?sapp_assoc; reflexivity).
  apply split_join; [ discriminate | ]. intros s [ <- | [ <- | [ <- | [ <- | [ <- | [] ] ] ] ] ]; auto. rewrite !has_char_app, Cs. reflexivity.
Qed.
Lemma table_not_report region r ty sid suite region' r' c : region_by_name region = Ok r -> get_suite ty sid = Ok suite -> region_by_name region' = Ok r' -> asked c ->
  table_at region ty sid <> report_at region' c.
Proof.
  intros Hr Hs Hr' Hc E. assert (S : split "/" (table_at region ty sid) = split "/" (report_at region' c)) by congruence.
  rewrite (split_table region r ty sid suite Hr Hs), (split_report region' r' c Hr' Hc) in S. discriminate.
Qed.
Definition all_reported {M} (fc : Q -> string) (f : fsys M * (string -> option (list string))) : Prop :=
  forall region r c lines, region_by_name region = Ok r -> asked c -> snd f (report_at region c) = Some lines ->
  exists q, fst f (saved_at region c) = Some (FPartition q) /\ clustering_report fc (c_k c) (fst q) = Ok lines.
Lemma small_reported M fc dist tl (j : job M) f f' : distances dist -> prepared dist tl -> small fc tl j f f' -> all_good dist (fst f) -> all_reported fc f -> all_reported fc f'.
Proof.
  intros Hdist Hpr Hs Hg H region r c lines Hr Hc E.
  assert (Hstay : forall q, fst f (saved_at region c) = Some (FPartition q) -> fst f' (saved_at region c) = Some (FPartition q)) by (intros q; apply (small_stays fc tl j region r c q f f' Hr Hc Hs)).
  assert (Hkeep : snd f (report_at region c) = Some lines -> exists q, fst f' (saved_at region c) = Some (FPartition q) /\ clustering_report fc (c_k c) (fst q) = Ok lines).
  { intros E0. destruct (H region r c lines Hr Hc E0) as (q & A & B). eauto. }
  assert (Hput : forall ts region' r' c' lines', region_by_name region' = Ok r' -> partitions j region' c' -> put_text ts (report_path c' r' "dtw" "outputs") lines' (report_at region c) = Some lines ->
    (region' = region /\ r' = r /\ c' = c /\ lines' = lines) \/ ts (report_at region c) = Some lines).
  { intros ts region' r' c' lines' Hr' Hp' Eq'. pose proof (partitions_asked _ _ _ Hp') as Hc'. unfold put_text in Eq'. rewrite (asked_report_path region' r' c' Hr' Hc') in Eq'.
    destruct (string_dec (report_at region' c') (report_at region c)) as [ Ep | Hne ].
    - destruct (report_at_inj _ _ _ _ _ _ Hr' Hc' Hr Hc Ep) as [ -> -> ]. rewrite String.eqb_refl in Eq'. left. repeat split; congruence.
    - first [ rewrite (proj2 (String.eqb_neq _ _) Hne) in Eq' | rewrite (proj2 (String.eqb_neq _ _) (not_eq_sym Hne)) in Eq' ]. right. exact Eq'. }
  destruct Hs as [ fs ts region' r' c' q ts' Hr' Hp' _ _ Hts | fs ts region' r' c' q lines' Hr' Hp' Hrep Hl El | fs ts region' r' c' q e Hr' Hp' Hrep Hq El
      | fs ts region' r' ty sid suite lines' Hr' Hj Hsu | fs ts pg a r' c' sv Hm Hj He ]; cbn [fst snd] in *.
  - destruct Hts as [ -> | (Hrep & lines' & El & ->) ]; [ apply Hkeep, E | ]. destruct (Hput _ _ _ _ _ Hr' Hp' E) as [ (-> & -> & -> & ->) | E0 ]; [ | apply Hkeep, E0 ].
    exists q. split; [ | exact El ]. rewrite (asked_saved_path region r c Hr Hc). apply put_same.
  - destruct (Hput _ _ _ _ _ Hr' Hp' E) as [ (-> & -> & -> & ->) | E0 ]; [ | apply Hkeep, E0 ]. exists q. split; [ | exact El ].
    rewrite <- (asked_saved_path region r c Hr Hc). apply (try_load_inv _ _ _ _ _ _ Hl).
  - exfalso. assert (Hk : (1 <= c_k c')%Z) by (apply (failing_report fc _ _ _ El)). pose proof (partitions_asked _ _ _ Hp') as Hc'. assert (exists p ms, q = (p, Some ms) /\ good (dist region') (width r') (height r') c' p ms) as (p & ms & -> & G).
    { destruct Hq as [ Hl | Hcp ]; [ | eapply computes_good; eauto ]. apply try_load_inv in Hl. rewrite (asked_saved_path region' r' c' Hr' Hc') in Hl. eapply Hg; eauto. }
    destruct (good_reports fc _ _ _ _ _ _ G) as [ l' El' ]. cbn [fst] in El. congruence.
  - apply Hkeep. unfold put_text in E. rewrite (proj2 (String.eqb_neq _ _)) in E; [ exact E | ].
    pose proof (table_not_report region' r' ty sid suite region r c Hr' Hsu Hr Hc) as Hne. first [ exact Hne | exact (not_eq_sym Hne) ].
  - apply Hkeep, E.
Qed.

(** C130: every report found after any history is the report of the partition that is saved for the clustering. *)
Theorem C130_reports : forall M format_coverage format_float dist (s : world M * tables) h region r c lines,
  distances dist -> Forall (fun e => prepared dist (fst e)) h -> empty_directories s -> region_by_name region = Ok r -> asked c ->
  w_texts (fst (run_jobs format_coverage format_float s h)) (report_at region c) = Some lines ->
  exists q, w_pickles (fst (run_jobs format_coverage format_float s h)) (saved_at region c) = Some (FPartition q) /\ clustering_report format_coverage (c_k c) (fst q) = Ok lines.
Proof.
  intros M fc ff dist s h region r c lines Hdist Hh He Hr Hc E.
  assert (H : (fun f => all_good dist (fst f) /\ all_reported fc f) (files_of (fst (run_jobs fc ff s h)))); [ | destruct H as [ _ H ]; apply (H region r c lines Hr Hc E) ].
  apply history_inv.
  - intros tl j f f' Hin Hs [ A B ]. rewrite Forall_forall in Hh. pose proof (Hh _ Hin) as Hpr. cbn [fst] in Hpr. split; [ eapply small_good; eauto | eapply small_reported; eauto ].
  - split; [ apply empty_good, He | ]. destruct He as (_ & He & _). intros region' r' c' lines' _ _ E'. cbn [files_of snd] in E'. rewrite He in E'. discriminate.
Qed.
Print Assumptions C130_reports.

(* ---------- the table of a suite ---------- *)
Lemma good_with_medoids dist x y c p ms : good dist x y c p ms -> with_medoids x y (c_k c) p ms.
Proof. intros [ H _ ]. exact H. Qed.
(** the clusterings are done, or there is a first one that fails *)
Lemma analysis_cases M dist tl region r d sc D (fs : fsys M) suite : distances dist -> draws (tl_choice tl) ->
  ready (tl_env tl) (tl_create tl) region r d sc D (fun q pt => Fin (dist region q pt)) -> all_good dist fs -> (forall c, In c suite -> asked c /\ (1 <= c_k c)%Z) ->
  exists before rest results, suite = before ++ rest /\ outcomes (tl_choice tl) (tl_env tl) fs r d sc D before results /\
    Forall2 (fun c pm => good (dist region) (width r) (height r) c (fst pm) (snd pm)) before results /\
    (rest = [] \/ exists c after e, rest = c :: after /\ ~ possible (tl_choice tl) (width r) (height r) c /\ (forall q, fs (saved_at region c) <> Some (FPartition q)) /\
       algorithm_partition_impl (tl_choice tl) (tl_env tl) c (Some (dmeta_of r)) (qregion d sc) true (DObj PlainDTW (Some D) false) = Raise e).
Proof.
  intros Hdist Hdr Hready Hg. pose proof Hready as (Hr & _). destruct (predefined_facts _ _ Hr) as (En & _). destruct (ready_size Hready) as [ Wx Hy ].
  induction suite as [ | c suite IH ]; intros Hin; [ exists [], [], []; repeat split; try constructor; reflexivity | ].
  destruct (Hin c (or_introl eq_refl)) as [ Hc Hk ].
  assert (Hcase : (exists p ms, used (tl_choice tl) (tl_env tl) fs r (dmeta_of r) (qregion d sc) (DObj PlainDTW (Some D) false) c p ms /\ good (dist region) (width r) (height r) c p ms) \/
    (exists e, ~ possible (tl_choice tl) (width r) (height r) c /\ (forall q, fs (saved_at region c) <> Some (FPartition q)) /\
       algorithm_partition_impl (tl_choice tl) (tl_env tl) c (Some (dmeta_of r)) (qregion d sc) true (DObj PlainDTW (Some D) false) = Raise e)).
  { unfold used. rewrite En.
    assert (Ha : (exists p ms, algorithm_partition_impl (tl_choice tl) (tl_env tl) c (Some (dmeta_of r)) (qregion d sc) true (DObj PlainDTW (Some D) false) = Ok (p, Some ms) /\ good (dist region) (width r) (height r) c p ms) \/
      exists e, ~ possible (tl_choice tl) (width r) (height r) c /\ algorithm_partition_impl (tl_choice tl) (tl_env tl) c (Some (dmeta_of r)) (qregion d sc) true (DObj PlainDTW (Some D) false) = Raise e).
    { destruct (algorithm_partition_impl (tl_choice tl) (tl_env tl) c (Some (dmeta_of r)) (qregion d sc) true (DObj PlainDTW (Some D) false)) as [ q | e ] eqn:E.
      - left. destruct (algorithm_good dist tl region r d sc D c q Hdist Hdr Hready Hc Hk E) as (p & ms & -> & G). eauto.
      - right. exists e. split; [ | reflexivity ]. intros Hp. destruct (algorithm_total dist tl region r d sc D c Hdist Hdr Hready Hc Hk Hp) as (p & ms & E' & _). congruence. }
    destruct (fs (saved_at region c)) as [ f | ] eqn:Ef; [ destruct f as [ q | | | ] | ].
    - left. destruct (Hg region r c q Hr Hc Hk Ef) as (p & ms & -> & G). exists p, ms. split; [ reflexivity | exact G ].
    - destruct Ha as [ Ha | (e & A & B) ]; [ left; exact Ha | right; exists e; split; [ exact A | split; [ discriminate | exact B ] ] ].
    - destruct Ha as [ Ha | (e & A & B) ]; [ left; exact Ha | right; exists e; split; [ exact A | split; [ discriminate | exact B ] ] ].
    - destruct Ha as [ Ha | (e & A & B) ]; [ left; exact Ha | right; exists e; split; [ exact A | split; [ discriminate | exact B ] ] ].
    - destruct Ha as [ Ha | (e & A & B) ]; [ left; exact Ha | right; exists e; split; [ exact A | split; [ discriminate | exact B ] ] ]. }
  destruct Hcase as [ (p & ms & U & G) | (e & A & B & C) ].
  - destruct IH as (before & rest & results & E & O & F & R); [ intros c' H; apply Hin; right; exact H | ].
    exists (c :: before), rest, ((p, ms) :: results). split; [ cbn; congruence | ]. split; [ | split; [ | exact R ] ].
    + constructor; [ | exact O ]. cbn [fst snd]. split; [ exact U | ]. rewrite <- Wx, <- Hy. apply good_with_medoids with (1 := G).
    + constructor; [ exact G | exact F ].
  - exists [], (c :: suite), []. split; [ reflexivity | ]. split; [ constructor | ]. split; [ constructor | ]. right. exists c, suite, e. auto.
Qed.
Lemma suite_asked ty sid suite : get_suite ty sid = Ok suite -> forall c, In c suite -> asked c /\ (1 <= c_k c)%Z.
Proof. intros Hs c Hc. pose proof (suite_belongs _ _ _ _ Hs Hc) as Hb. split; [ apply (belongs_asked _ _ _ Hb) | destruct Hb; cbn; lia ]. Qed.

(** C130: whatever has been run since the directories were empty, the analysis of a suite completes when all of its clusterings are possible. *)
Theorem C130_runs_succeed : forall M format_coverage format_float dist (s : world M * tables) h tl region r ty sid suite,
  distances dist -> Forall (fun e => prepared dist (fst e)) h -> empty_directories s -> prepared dist tl -> region_by_name region = Ok r -> get_suite ty sid = Ok suite ->
  (forall c, In c suite -> possible (tl_choice tl) (width r) (height r) c) ->
  snd (analyze_suite (tl_choice tl) (tl_env tl) (tl_create tl) format_coverage format_float (fst (run_jobs format_coverage format_float s h)) region ty sid) = Ok tt.
Proof.
  intros M fc ff dist s h tl region r ty sid suite Hdist Hh He [ Hdr Hpr ] Hr Hs Hpos. destruct (Hpr region r Hr) as (d & sc & D & Hready).
  destruct (analysis_cases M dist tl region r d sc D (w_pickles (fst (run_jobs fc ff s h))) suite Hdist Hdr Hready) as (before & rest & results & E & O & _ & [ -> | (c & after & e & -> & Hn & _) ]).
  - apply history_good; [ exact Hdist | exact Hh | apply empty_good, He ].
  - apply (suite_asked _ _ _ Hs).
  - rewrite app_nil_r in E. subst before. destruct (C117_written M _ _ _ fc ff _ _ _ _ _ _ _ _ _ _ _ Hready Hs O) as (w' & rows & Ew & _). rewrite Ew. reflexivity.
  - exfalso. apply Hn, Hpos. rewrite E. apply in_or_app. right. left. reflexivity.
Qed.
Print Assumptions C130_runs_succeed.
Lemma table_at_inj region r ty sid suite region' r' ty' sid' suite' : region_by_name region = Ok r -> get_suite ty sid = Ok suite -> region_by_name region' = Ok r' -> get_suite ty' sid' = Ok suite' ->
  table_at region ty sid = table_at region' ty' sid' -> region = region' /\ ty = ty' /\ sid = sid'.
Proof.
  intros Hr Hs Hr' Hs' E. assert (S : split "/" (table_at region ty sid) = split "/" (table_at region' ty' sid')) by congruence.
  rewrite (split_table _ _ _ _ _ Hr Hs), (split_table _ _ _ _ _ Hr' Hs') in S. injection S as E1 E2. split; [ exact E1 | ].
  destruct (suite_named _ _ _ Hs) as [ c Hc ]. destruct (suite_named _ _ _ Hs') as [ c' Hc' ]. clear - E2 Hc Hc'. destruct Hc, Hc'; try (split; reflexivity); discriminate E2.
Qed.
Lemma agrees_stays M ff dist (w w' : world M) region r ty sid suite lines : region_by_name region = Ok r -> get_suite ty sid = Ok suite ->
  (forall c q, asked c -> w_pickles w (saved_at region c) = Some (FPartition q) -> w_pickles w' (saved_at region c) = Some (FPartition q)) ->
  agrees ff dist w region r suite lines -> agrees ff dist w' region r suite lines.
Proof.
  intros Hr Hs Hst (before & rest & rows & E & El & F). exists before, rest, rows. split; [ exact E | ]. split; [ exact El | ].
  assert (Ha : forall c, In c before -> asked c) by (intros c Hc; apply (suite_asked _ _ _ Hs); rewrite E; apply in_or_app; left; exact Hc). clear - F Ha Hst.
  induction F as [ | c row before rows (p & ms & A & B) F IH ]; constructor.
  - exists p, ms. split; [ apply Hst; [ apply Ha; left; reflexivity | exact A ] | exact B ].
  - apply IH. intros c' H. apply Ha. right. exact H.
Qed.
Lemma left_agrees M fc ff dist (w w' : world M) region r d ty sid before rest results rows suite : width r = a3x d -> height r = a3y d -> length before = length results ->
  left_behind fc ff w w' region r d (fun q pt => Fin (dist q pt)) ty sid before results rows -> suite = before ++ rest -> agrees ff dist w' region r suite (suite_csv rows).
Proof.
  intros Wx Hy L (_ & Lr & H & _) ->. exists before, rest, rows. split; [ reflexivity | ]. split; [ reflexivity | ]. rewrite Wx, Hy. clear Wx Hy.
  assert (H' : forall i c p ms, nth_error before i = Some c -> nth_error results i = Some (p, ms) -> exists row, nth_error rows i = Some row /\
     row_of ff (fun q pt => Fin (dist q pt)) (a3x d) (a3y d) (rm_region r) c p ms row /\ w_pickles w' (saved_at region c) = Some (FPartition (p, Some ms))).
  { intros i c p ms A B. destruct (H i c p ms A B) as ((row & X & Y) & Z & _). eauto. }
  clear H. revert results rows L Lr H'. induction before as [ | c before IH ]; intros [ | [ p ms ] results ] [ | row rows ] L Lr H; try discriminate; constructor.
  - destruct (H 0 c p ms eq_refl eq_refl) as (row' & A & B & C). injection A as <-. eauto.
  - apply (IH results rows); [ cbn in L; lia | cbn in Lr; lia | ]. intros i c' p' ms' A B. apply (H (S i) c' p' ms' A B).
Qed.
Definition all_agree {M} (ff : nat -> fnum -> string) (dist : string -> point -> point -> Q) (w : world M) : Prop :=
  forall region r ty sid suite lines, region_by_name region = Ok r -> get_suite ty sid = Ok suite -> w_texts w (table_at region ty sid) = Some lines -> agrees ff (dist region) w region r suite lines.
Lemma run_agrees M fc ff dist (s : world M * tables) tl j : distances dist -> prepared dist tl -> all_good dist (w_pickles (fst s)) -> all_agree ff dist (fst s) ->
  all_agree ff dist (fst (run_job fc ff s (tl, j))).
Proof.
  intros Hdist [ Hdr Hpr ] Hg H region r ty sid suite lines Hr Hs E.
  assert (Hstay : forall c q, asked c -> w_pickles (fst s) (saved_at region c) = Some (FPartition q) -> w_pickles (fst (run_job fc ff s (tl, j))) (saved_at region c) = Some (FPartition q)).
  { intros c q Hc. apply (C130_partitions_stay M fc ff s [(tl, j)] region r c q Hr Hc). }
  assert (Hkeep : w_texts (fst s) (table_at region ty sid) = Some lines -> agrees ff (dist region) (fst (run_job fc ff s (tl, j))) region r suite lines).
  { intros E0. eapply agrees_stays; [ exact Hr | exact Hs | exact Hstay | ]. eapply H; eauto. }
  assert (Hdec : j = JAnalysis region ty sid \/ w_texts (fst (run_job fc ff s (tl, j))) (table_at region ty sid) = w_texts (fst s) (table_at region ty sid)).
  { assert (Hd2 : j = JAnalysis region ty sid \/ j <> JAnalysis region ty sid).
    { destruct j as [ rg ty' sid' | | | | | | | ]; try (right; discriminate). destruct (string_dec rg region), (string_dec ty' ty), (string_dec sid' sid); subst; auto; right; congruence. }
    destruct Hd2 as [ Hd2 | Hd2 ]; [ left; exact Hd2 | right ].
    apply (steps_inv fc ff tl j (fun f => snd f (table_at region ty sid) = w_texts (fst s) (table_at region ty sid))); [ | reflexivity ].
    assert (Hput : forall ts region' r' c lines', region_by_name region' = Ok r' -> partitions j region' c -> put_text ts (report_path c r' "dtw" "outputs") lines' (table_at region ty sid) = ts (table_at region ty sid)).
    { intros ts region' r' c lines' Hr' Hpt. unfold put_text. rewrite (asked_report_path region' r' c Hr' (partitions_asked _ _ _ Hpt)).
      pose proof (table_not_report region r ty sid suite region' r' c Hr Hs Hr' (partitions_asked _ _ _ Hpt)) as Hne.
      rewrite (proj2 (String.eqb_neq _ _)); [ reflexivity | ]. first [ exact Hne | exact (not_eq_sym Hne) ]. }
    intros f f' Hsm <-. destruct Hsm as [ fs ts region' r' c q ts' Hr' Hpt _ _ Hts | fs ts region' r' c q lines' Hr' Hpt Hrep _ _ | fs ts region' r' c q e Hr' Hpt Hrep _ _
      | fs ts region' r' ty' sid' suite' lines' Hr' Hj Hs' | fs ts pg a r' c sv Hm Hj He ]; cbn [snd]; try reflexivity.
    + destruct Hts as [ -> | (Hrep & lines' & _ & ->) ]; [ reflexivity | eapply Hput; eauto ].
    + eapply Hput; eauto.
    + eapply Hput; eauto.
    + unfold put_text. rewrite (proj2 (String.eqb_neq _ _)); [ reflexivity | ]. intros Ep. apply Hd2. rewrite Hj.
      destruct (table_at_inj region' r' ty' sid' suite' region r ty sid suite Hr' Hs' Hr Hs) as (-> & -> & ->); [ congruence | reflexivity ]. }
  destruct Hdec as [ -> | Hd ]; [ | apply Hkeep; congruence ].
  destruct (Hpr region r Hr) as (d & sc & D & Hready). destruct (ready_size Hready) as [ Wx Hy ]. clear Hstay Hkeep.
  destruct s as [ w t ]. cbn [fst snd] in *. unfold run_job in *. cbn [fst snd] in *.
  destruct (analysis_cases M dist tl region r d sc D (w_pickles w) suite Hdist Hdr Hready Hg (suite_asked _ _ _ Hs)) as (before & rest & results & Eb & O & _ & [ -> | (c & after & e & -> & _ & Hn & Ea) ]).
  - rewrite app_nil_r in Eb. subst before. destruct (C117_written M _ _ _ fc ff w _ _ _ _ _ _ _ _ _ _ Hready Hs O) as (w' & rows & Ew & HL & _). rewrite Ew in *. cbn [fst] in *.
    pose proof HL as (Et & _). rewrite Et in E. injection E as <-. eapply left_agrees; [ exact Wx | exact Hy | apply (forall2_length _ _ _ O) | exact HL | symmetry; apply app_nil_r ].
  - subst suite. destruct (C117_failure_keeps_rows M _ _ _ fc ff w _ _ _ _ _ _ _ _ _ _ _ _ _ Hready Hs O Hn Ea) as (w' & rows & Ew & HL). rewrite Ew in *. cbn [fst] in *.
    pose proof HL as (Et & _). rewrite Et in E. injection E as <-. eapply left_agrees; [ exact Wx | exact Hy | apply (forall2_length _ _ _ O) | exact HL | reflexivity ].
Qed.

(** C130: the table of a suite, if there is one, has a row for each clustering in a first part of the suite, and each row gives the medoids and
    the cost of the partition that is saved for the clustering. *)
Theorem C130_table_of_costs : forall M format_coverage format_float dist (s : world M * tables) h region r ty sid suite lines,
  distances dist -> Forall (fun e => prepared dist (fst e)) h -> empty_directories s -> region_by_name region = Ok r -> get_suite ty sid = Ok suite ->
  w_texts (fst (run_jobs format_coverage format_float s h)) (table_at region ty sid) = Some lines ->
  agrees format_float (dist region) (fst (run_jobs format_coverage format_float s h)) region r suite lines.
Proof.
  intros M fc ff dist s h region r ty sid suite lines Hdist Hh He Hr Hs E.
  assert (H : forall (h : list (tools * job M)) (s : world M * tables), Forall (fun e => prepared dist (fst e)) h -> all_good dist (w_pickles (fst s)) -> all_agree ff dist (fst s) -> all_agree ff dist (fst (run_jobs fc ff s h))).
  { clear - Hdist. intros h. induction h as [ | [ tl j ] h IH ]; intros s Hh Hg Ha; [ exact Ha | ]. unfold run_jobs. cbn [fold_left]. apply IH.
    - inversion Hh; assumption.
    - apply (history_good M fc ff dist s [(tl, j)] Hdist); [ inversion Hh; subst; constructor; [ assumption | constructor ] | exact Hg ].
    - apply run_agrees; [ exact Hdist | inversion Hh; subst; assumption | exact Hg | exact Ha ]. }
  eapply (H h s Hh); [ apply empty_good, He | | exact Hr | exact Hs | exact E ].
  intros region' r' ty' sid' suite' lines' _ _ E'. destruct He as (_ & He & _). rewrite He in E'. discriminate.
Qed.
Print Assumptions C130_table_of_costs.

(* ---------- training ---------- *)
(** C130: training as it is run in a history saves what the model of the solver programs says (C113, C114), so a prediction made
    later answers from these models: the report makes no difference. *)
Theorem C130_training : forall M format_coverage tl (w w' : world M) pg a,
  train_and_report format_coverage tl w pg a = (w', Ok tt) ->
  train_request (tl_create tl) (load_distances tl) (fun r => impl_with tl (snd (loaded_measure tl r)) r) (w_pickles w) pg a = (w_pickles w', Ok tt).
Proof.
  intros M fc tl w w' pg a. unfold train_and_report, train_request. destruct (metadata_from_args a) as [ [ r c ] | e ]; [ | discriminate ]. unfold load_distances.
  destruct (loaded_measure tl r) as [ loaded o ] eqn:Elm. cbn [fst snd]. destruct loaded as [ D | e ]; cbn [bind]; [ | discriminate ]. destruct (tl_create tl r) as [ spt | e ]; [ | discriminate ].
  unfold partition_and_report, partition_call, impl_with. cbn [w_pickles w_texts w_distance].
  destruct (try_load_previous_partition (w_pickles w) c "dtw" r "pickle") as [ q | ].
  - unfold save_to_csv. cbn [w_pickles w_texts w_distance]. destruct (clustering_report fc (c_k c) (fst q)); cbn [write_text w_pickles]; [ | discriminate ]. destruct q as [ p [ ms | ] ]; [ | discriminate ].
    destruct (solver_train _ _ _ _ _ _ _); [ | discriminate ]. intros [= <-]. reflexivity.
  - destruct (clustering_impl (tl_choice tl) (tl_env tl) c (Some (dmeta_of r)) spt true o) as [ [ q | e ] o' ]; [ | discriminate ]. cbn [fst].
    unfold save_to_csv. cbn [w_pickles w_texts w_distance]. destruct (clustering_report fc (c_k c) (fst q)); cbn [write_text w_pickles w_texts w_distance]; [ | discriminate ]. destruct q as [ p [ ms | ] ]; [ | discriminate ].
    unfold save_partition. cbn [bind]. destruct (solver_train _ _ _ _ _ _ _); [ | discriminate ]. intros [= <-]. reflexivity.
Qed.
Print Assumptions C130_training.

(* ---------- the hypotheses are met ---------- *)
Definition exh_index (r : rmeta) (q : point) : nat := index_of (height r) q.
Definition exh_dist (region : string) (q pt : point) : Q :=
  match region_by_name region with Ok r => inject_Z (Z.abs (Z.of_nat (exh_index r q) - Z.of_nat (exh_index r pt))) | Raise _ => 0 end.
Definition exh_matrix (r : rmeta) : mat :=
  let n := (width r * height r)%nat in Mat n (map (fun i => map (fun j => Fin (inject_Z (Z.abs (Z.of_nat i - Z.of_nat j)))) (seq 0 n)) (seq 0 n)).
Definition exh_load (f : string) : res mat :=
  match find (fun e => String.eqb (distances_filename (snd e)) f) predefined_regions with Some e => Ok (exh_matrix (snd e)) | None => Raise IOError end.
Definition exh_data (r : rmeta) : arr3 fnum := mk3 1 (width r) (height r) (repeat (Fin 1) (1 * width r * height r)).
Definition exh_choice (seed : Z) (n : nat) (k : Z) : res (list Z) := if ((0 <=? k) && (k <=? Z.of_nat n))%bool%Z then Ok (zrange 0 k) else Raise ValueError.
Definition exh_tools : tools := Tools exh_choice (DEnv exh_load (fun _ _ => NaN) (fun _ _ => NaN) NaN) (fun r => Ok (qregion (exh_data r) None)).

Lemma exh_found region r : region_by_name region = Ok r -> exh_load (distances_filename r) = Ok (exh_matrix r).
Proof.
  intros Hr. unfold exh_load. assert (F : find (fun e => String.eqb (distances_filename (snd e)) (distances_filename r)) predefined_regions = Some (region, r)); [ | rewrite F; reflexivity ].
  apply dict_get_in in Hr. cbn [predefined_regions In] in Hr.
  repeat match type of Hr with _ \/ _ => destruct Hr as [ Hr | Hr ]; [ injection Hr as <- <-; vm_compute; reflexivity | ] end. exfalso. exact Hr.
Qed.
Lemma exh_distances : distances exh_dist.
Proof.
  intros region r q pt Hr Hq Hp. unfold exh_dist. rewrite Hr. split.
  - rewrite Z.sub_diag. reflexivity.
  - intros Hne. destruct Hq as [ A B ], Hp as [ C E ]. unfold exh_index, index_of. destruct q as [ a b ], pt as [ a' b' ]. cbn [fst snd] in *.
    change 0%Q with (inject_Z 0). rewrite <- Zlt_Qlt. assert (a <> a' \/ b <> b') by (destruct (Z.eq_dec a a'), (Z.eq_dec b b'); subst; auto).
    rewrite !Nat2Z.inj_add, !Nat2Z.inj_mul, !Z2Nat.id by lia. set (g := Z.of_nat (height r)) in *. assert (a < a' \/ a = a' \/ a' < a)%Z as [ L | [ -> | L ] ] by lia; nia.
Qed.
Lemma exh_ready region r : region_by_name region = Ok r ->
  ready (tl_env exh_tools) (tl_create exh_tools) region r (exh_data r) None (exh_matrix r) (fun q pt => Fin (exh_dist region q pt)).
Proof.
  intros Hr. destruct (predefined_facts _ _ Hr) as (_ & _ & _ & _ & Hx & Hy & _). cbn [tl_env tl_create exh_tools np_load]. unfold ready.
  change (a3x (exh_data r)) with (width r). change (a3y (exh_data r)) with (height r).
  split; [ exact Hr | ]. split; [ reflexivity | ]. split; [ split; [ | exact I ] | ].
  - unfold wf3, exh_data. cbn [a3d a3t a3x a3y]. rewrite repeat_length. reflexivity.
  - split; [ unfold spans, width, height; lia | ]. split; [ apply (exh_found _ _ Hr) | ]. split.
    + split; [ reflexivity | ]. cbn [m_rows exh_matrix]. split; [ unfold exh_matrix; cbn [m_rows]; rewrite map_length, seq_length; reflexivity | ].
      intros row Hrow. unfold exh_matrix in Hrow. cbn [m_rows] in Hrow. apply in_map_iff in Hrow. destruct Hrow as (i & <- & _). rewrite map_length, seq_length. reflexivity.
    + intros q pt Hq Hp. destruct (index_of_encode _ _ _ Hq) as [ _ Lq ]. destruct (index_of_encode _ _ _ Hp) as [ _ Lp ]. unfold entry, exh_matrix. cbn [m_rows]. unfold exh_dist. rewrite Hr.
      rewrite nth_error_map, (nth_error_nth' _ 0) by (rewrite seq_length; lia). rewrite seq_nth by lia. cbn [option_map Nat.add].
      rewrite nth_error_map, (nth_error_nth' _ 0) by (rewrite seq_length; lia). rewrite seq_nth by lia. reflexivity.
Qed.
Lemma exh_prepared : prepared exh_dist exh_tools.
Proof.
  split.
  - intros seed n k l. cbn [tl_choice exh_tools]. unfold exh_choice. destruct (Z.leb_spec 0 k); [ | discriminate ]. destruct (Z.leb_spec k (Z.of_nat n)); [ | discriminate ].
    cbn [andb]. intros [= <-]. split; [ rewrite zrange_length; lia | ]. split; [ apply zrange_nodup | ]. apply Forall_forall. intros i Hi. apply in_zrange in Hi. lia.
  - intros region r Hr. exists (exh_data r), None, (exh_matrix r). apply (exh_ready _ _ Hr).
Qed.
Definition exh_region : string := "nordeste_small_2015_2015_1spd".
Definition exh_jobs : list (tools * job unit) :=
  [(exh_tools, JAnalysis exh_region "regular" "quick"); (exh_tools, JMedoidDistances exh_region "kmedoids" "quick"); (exh_tools, JAnalysis "no_such_region" "kmedoids" "quick")].
Definition exh_start : world unit * tables := (World (fun _ => None) (fun _ => None) (fresh PlainDTW), fun _ => None).
(** The hypotheses are met by a history of four runs, two of which fail; it leaves partitions, reports and a table. *)
Example C130_ex : let h := (exh_jobs ++ [(exh_tools, JAnalysis exh_region "kmedoids" "quick")])%list in
  distances exh_dist /\ Forall (fun e => prepared exh_dist (fst e)) h /\ empty_directories exh_start /\
  exists r suite q lines table, region_by_name exh_region = Ok r /\ get_suite "kmedoids" "quick" = Ok suite /\ In (CKmedoids (kmeta_default 2 0 "lite")) suite /\
    (forall c, In c suite -> possible exh_choice (width r) (height r) c) /\
    let w := fst (run_jobs (fun _ => "v"%string) (fun _ _ => "c"%string) exh_start h) in
    w_pickles w (saved_at exh_region (CKmedoids (kmeta_default 2 0 "lite"))) = Some (FPartition q) /\
    w_texts w (report_at exh_region (CKmedoids (kmeta_default 2 0 "lite"))) = Some lines /\ w_texts w (table_at exh_region "kmedoids" "quick") = Some table.
Proof.
  intros h. split; [ apply exh_distances | ]. split; [ repeat (constructor; [ apply exh_prepared | ]); constructor | ]. split; [ repeat split | ].
  destruct (region_by_name exh_region) as [ r | ] eqn:Hr; [ | discriminate ]. destruct (get_suite "kmedoids" "quick") as [ suite | ] eqn:Hs; [ | discriminate ].
  assert (Hpos : forall c, In c suite -> possible exh_choice (width r) (height r) c).
  { intros c Hc. pose proof (suite_belongs _ _ _ _ Hs Hc) as Hb. assert (W : width r = 7 /\ height r = 10) by (injection Hr as <-; split; reflexivity). destruct W as [ -> -> ].
    inversion Hb as [ k seed Hk Hse | | | | | ]; subst; cbn [possible km_seed km_k kmeta_default]; unfold exh_choice. replace ((0 <=? k) && (k <=? Z.of_nat (7 * 10)))%bool%Z with true by lia. eauto. }
  destruct exh_prepared as [ Hdr _ ]. pose proof (exh_ready _ _ Hr) as Hready. unfold run_jobs, h. rewrite fold_left_app. cbn [fold_left].
  destruct (fold_left (run_job (fun _ => "v"%string) (fun _ _ => "c"%string)) exh_jobs exh_start) as [ w0 t0 ] eqn:E0.
  assert (Hg : all_good exh_dist (w_pickles w0)).
  { pose proof (history_good unit (fun _ => "v"%string) (fun _ _ => "c"%string) exh_dist exh_start exh_jobs exh_distances) as X. unfold run_jobs in X. rewrite E0 in X. apply X.
    - repeat (constructor; [ apply exh_prepared | ]); constructor.
    - intros region' r' c q _ _ _ Y. discriminate Y. }
  destruct (analysis_cases unit exh_dist exh_tools exh_region r (exh_data r) None (exh_matrix r) (w_pickles w0) suite exh_distances Hdr Hready Hg (suite_asked _ _ _ Hs))
    as (before & rest & results & E & O & _ & [ -> | (c & after & e & -> & Hn & _) ]).
  2: { exfalso. apply Hn, Hpos. rewrite E. apply in_or_app. right. left. reflexivity. }
  rewrite app_nil_r in E. subst before.
  destruct (C117_written unit _ _ _ (fun _ => "v"%string) (fun _ _ => "c"%string) w0 _ _ _ _ _ _ _ _ _ _ Hready Hs O) as (w' & rows & Ew & HL & _).
  pose proof HL as (Ht & _ & Hall & _).
  assert (Hin : In (CKmedoids (kmeta_default 2 0 "lite")) suite) by (apply (proj1 (C112_suites _ _ _ Hs)); constructor; lia).
  apply In_nth_error in Hin as Hi. destruct Hi as [ i Hi ]. destruct (nth_error results i) as [ [ p ms ] | ] eqn:Hres.
  2: { exfalso. apply nth_error_None in Hres. pose proof (forall2_length _ _ _ O) as L. assert (i < length suite) by (apply nth_error_Some; congruence). lia. }
  destruct (Hall i _ p ms Hi Hres) as (_ & Hsaved & lines & _ & Hrep). cbn [run_job fst]. rewrite Ew. cbn [fst].
  exists r, suite, (p, Some ms), lines. eexists. split; [ reflexivity | ]. split; [ reflexivity | ]. split; [ exact Hin | ]. split; [ exact Hpos | ]. cbv zeta. split; [ exact Hsaved | ]. split; [ exact Hrep | exact Ht ].
Qed.
