(** Facts about sequences of runs of the programs. *)
From Coq Require Import String Lia Relations.
From Verif Require Import Base.Py Base.PyFacts Base.Str Base.StrFacts Base.Arr Base.ArrFacts Base.Dict Base.Float Base.FloatFacts Model.Region Model.Arrays Model.Series Model.Models Model.Distance
  Model.KMedoids Model.Clustering Model.Variance Model.Solver Model.SolverFiles Model.Results Model.Reports Model.Algorithms Model.Programs Model.Dnn Model.PartitionAnalysis Model.SuitePrograms
  Model.Histories Spec.Grid Spec.Partition Spec.Distance Spec.Solver Spec.SolverFiles Spec.Programs Spec.Algorithms Spec.PartitionAnalysis Spec.SuitePrograms Spec.Histories
  Proofs.RegionFacts Proofs.PartitionFacts Proofs.ProperFacts Proofs.SolverFacts Proofs.DistanceFacts Proofs.DistanceObjFacts Proofs.VarianceFacts
  Proofs.ReportFacts Proofs.ClusteringFacts Proofs.NameFacts Proofs.ProgramFacts Proofs.FilesFacts Proofs.AnalysisFacts Proofs.SuiteFacts
  Props.Clustering Props.SolverFiles Props.Programs Props.Algorithms Props.PartitionAnalysis Props.SuitePrograms Props.TrainingErrors.
From Coq Require Import ZifyBool ZifyNat.
Local Notation length := List.length.
Local Open Scope nat_scope.

(* ---------- the distance measure of a process ---------- *)
Definition plain (o : dobj) : Prop := d_kind o = PlainDTW /\ d_weighted o = false.
Lemma plain_new : plain (DObj PlainDTW None false).
Proof. split; reflexivity. Qed.
Lemma plain_load env f g o : plain o -> plain (snd (load_distance_matrix_2d env f g o)).
Proof.
  intros [ K W ]. unfold load_distance_matrix_2d. rewrite K. unfold base_load. destruct (np_load env f) as [ D | [] ]; try (split; assumption).
  destruct (_ && _); split; assumption.
Qed.
Lemma plain_impl choice env c md spt wm o : plain o -> plain (snd (clustering_impl choice env c (Some md) spt wm o)).
Proof.
  intros H. unfold clustering_impl. cbn [try_load_distance_matrix load_distance_matrix_md]. pose proof (plain_load env (md_filename md) (md_region md) o H) as P.
  destruct (load_distance_matrix_2d _ _ _ _) as [ [ D | e ] o' ]; exact P.
Qed.
Lemma plain_distances env r md pt idx o : plain o -> plain (snd (distances_to_point env r (Some md) pt idx true true o)).
Proof.
  intros H. unfold distances_to_point. cbn [negb]. destruct (d_matrix o); [ exact H | ]. cbn [load_distance_matrix_md].
  pose proof (plain_load env (md_filename md) (md_region md) o H) as P. destruct (load_distance_matrix_2d _ _ _ _) as [ [ D | e ] o' ]; exact P.
Qed.
Lemma plain_cluster env r clusters st i : plain (snd st) -> plain (snd (analyze_cluster env r clusters st i)).
Proof.
  intros H. destruct st as [ [ [ s cs ] | e ] o ]; cbn [snd] in H; [ | exact H ]. unfold analyze_cluster.
  destruct (cluster <- getitem clusters i ;; _) as [ [ [ cl ce ] idx ] | e ]; [ | exact H ].
  pose proof (plain_distances env (h_region cl) (dmeta_of r) ce idx o H) as P. destruct (distances_to_point _ _ _ _ _ _ _ _) as [ [ ds | e ] o' ]; exact P.
Qed.
Lemma plain_clusters env r clusters l : forall st, plain (snd st) -> plain (snd (fold_left (analyze_cluster env r clusters) l st)).
Proof. induction l as [ | i l IH ]; intros st H; [ exact H | ]. cbn [fold_left]. apply IH, plain_cluster, H. Qed.

(* ---------- the clusterings that can be asked for ---------- *)
Lemma belongs_asked ty sid c : belongs ty sid c -> asked c.
Proof. intros H. inversion H; constructor. Qed.
Lemma partitions_asked {M} (j : job M) region c : partitions j region c -> asked c.
Proof.
  destruct j; cbn [partitions]; try (intros []; fail).
  - intros [ _ H ]. eapply belongs_asked; exact H.
  - intros (_ & ty & sid & _ & H). eapply belongs_asked; exact H.
  - intros (_ & ty & sid & _ & H). eapply belongs_asked; exact H.
  - intros (_ & o & ty & sid & _ & H). eapply belongs_asked; exact H.
  - intros (_ & ty & sid & _ & H). eapply belongs_asked; exact H.
  - intros (_ & [ [ _ -> ] | [ _ -> ] ]); constructor.
  - intros (_ & [ [ _ -> ] | [ _ -> ] ]); constructor.
Qed.
Lemma asked_mode c : asked c -> has_char "/" (mode_of c) = false.
Proof. intros []; reflexivity. Qed.
Lemma asked_place region r c : region_by_name region = Ok r -> asked c -> clean_place c r "dtw".
Proof.
  intros Hr Hc. destruct (predefined_facts _ _ Hr) as (_ & Hn & _). destruct Hc; (split; [ split; reflexivity | ]); (split; [ exact Hn | ]); split; try reflexivity; discriminate.
Qed.
Lemma asked_saved_path region r c : region_by_name region = Ok r -> asked c -> pickle_full_path c r "dtw" = saved_at region c.
Proof. intros Hr Hc. destruct (predefined_facts _ _ Hr) as (En & Hn & _). rewrite <- En. apply saved_at_path; [ exact Hn | apply asked_mode, Hc ]. Qed.
Lemma asked_report_path region r c : region_by_name region = Ok r -> asked c -> report_path c r "dtw" "outputs" = report_at region c.
Proof. intros Hr Hc. destruct (predefined_facts _ _ Hr) as (En & Hn & _). rewrite <- En. apply report_at_path; [ exact Hn | apply asked_mode, Hc ]. Qed.
Lemma saved_at_inj region r c region' r' c' : region_by_name region = Ok r -> asked c -> region_by_name region' = Ok r' -> asked c' ->
  saved_at region c = saved_at region' c' -> region = region' /\ c = c'.
Proof.
  intros Hr Hc Hr' Hc' E. rewrite <- (asked_saved_path region r c), <- (asked_saved_path region' r' c') in E by assumption.
  apply (partition_iff c r "dtw" c' r' "dtw" (asked_place _ _ _ Hr Hc) (asked_place _ _ _ Hr' Hc')) in E. destruct E as (Sr & _ & Sc).
  destruct (region_by_name_inj _ _ _ _ Hr Hr' (repr_same_region _ _ Sr)) as [ En _ ]. split; [ exact En | ].
  destruct Hc, Hc'; cbn in Sc; try contradiction; [ congruence | destruct Sc as (A & B & _); congruence ].
Qed.
Lemma asked_repr_inj c c' : asked c -> asked c' -> c_repr c = c_repr c' -> c = c'.
Proof.
  intros Hc Hc' E. pose (region := "nordeste_small_2015_2015_1spd"%string). assert (exists r, region_by_name region = Ok r) as [ r Hr ] by (eexists; reflexivity).
  apply (fun H => proj2 (saved_at_inj region r c region r c' Hr Hc Hr Hc' H)). unfold saved_at. rewrite E. reflexivity.
Qed.
Lemma region_no_slash region r : region_by_name region = Ok r -> has_char "/" region = false /\ region <> ""%string.
Proof. intros Hr. destruct (predefined_facts _ _ Hr) as (<- & Hn & _). split; [ apply rmeta_repr_no_slash, Hn | apply rmeta_repr_nonempty ]. Qed.
Lemma report_at_inj region r c region' r' c' : region_by_name region = Ok r -> asked c -> region_by_name region' = Ok r' -> asked c' ->
  report_at region c = report_at region' c' -> region = region' /\ c = c'.
Proof.
  intros Hr Hc Hr' Hc' E. destruct (region_no_slash _ _ Hr) as [ Ns _ ]. destruct (region_no_slash _ _ Hr') as [ Ns' _ ].
  pose proof (c_repr_no_slash c (asked_mode _ Hc)) as Cs. pose proof (c_repr_no_slash c' (asked_mode _ Hc')) as Cs'.
  assert (S : split "/" (report_at region c) = split "/" (report_at region' c')) by congruence.
  assert (Sp : forall rg c, has_char "/" rg = false -> has_char "/" (c_repr c) = false ->
            split "/" (report_at rg c) = ["outputs"; rg; "dtw"; c_repr c; "clustering__" ++ c_repr c ++ ".csv"]%string).
  { intros rg c0 H1 H2. replace (report_at rg c0) with (join "/" ["outputs"; rg; "dtw"; c_repr c0; "clustering__" ++ c_repr c0 ++ ".csv"]%string) by (unfold report_at; cbn [join]; rewrite ?sapp_assoc; reflexivity).
    apply split_join; [ discriminate | ]. intros s [ <- | [ <- | [ <- | [ <- | [ <- | [] ] ] ] ] ]; auto. rewrite !has_char_app, H2. reflexivity. }
  rewrite !Sp in S by assumption. injection S as E1 E2. split; [ exact E1 | apply asked_repr_inj; assumption ].
Qed.
(* ---------- small steps ---------- *)
Section Steps.
Context {M : Type} (format_coverage : Q -> string) (format_float : nat -> fnum -> string).
Local Notation files := (fsys M * (string -> option (list string)))%type.
Definition files_of (w : world M) : files := (w_pickles w, w_texts w).
Definition put_text (t : string -> option (list string)) (path : string) (lines : list string) : string -> option (list string) :=
  fun q => if (q =? path)%string then Some lines else t q.

Definition computes (tl : tools) (r : rmeta) (c : cmeta) (q : part) : Prop :=
  exists spt o, tl_create tl r = Ok spt /\ plain o /\ fst (clustering_impl (tl_choice tl) (tl_env tl) c (Some (dmeta_of r)) spt true o) = Ok q.

Inductive small (tl : tools) (j : job M) : files -> files -> Prop :=
| small_save fs ts region r c q ts' : region_by_name region = Ok r -> partitions j region c ->
    try_load_previous_partition fs c "dtw" r "pickle" = None -> computes tl r c q ->
    (ts' = ts \/ (reports j /\ exists lines, clustering_report format_coverage (c_k c) (fst q) = Ok lines /\ ts' = put_text ts (report_path c r "dtw" "outputs") lines)) ->
    small tl j (fs, ts) (fs_put fs (pickle_full_path c r "dtw") (FPartition q), ts')
| small_report fs ts region r c q lines : region_by_name region = Ok r -> partitions j region c -> reports j ->
    try_load_previous_partition fs c "dtw" r "pickle" = Some q -> clustering_report format_coverage (c_k c) (fst q) = Ok lines ->
    small tl j (fs, ts) (fs, put_text ts (report_path c r "dtw" "outputs") lines)
| small_bad fs ts region r c q e : region_by_name region = Ok r -> partitions j region c -> reports j ->
    (try_load_previous_partition fs c "dtw" r "pickle" = Some q \/ computes tl r c q) -> clustering_report format_coverage (c_k c) (fst q) = Raise e ->
    small tl j (fs, ts) (fs, put_text ts (report_path c r "dtw" "outputs") [csv_line ["cluster"; "points"; "coverage"]%string])
| small_table fs ts region r ty sid suite lines : region_by_name region = Ok r -> j = JAnalysis region ty sid -> get_suite ty sid = Ok suite ->
    small tl j (fs, ts) (fs, put_text ts (table_at region ty sid) lines)
| small_solver fs ts pg a r c s : metadata_from_args a = Ok (r, c) -> j = JTrain pg a -> has_char "/" (a_error a) = false ->
    small tl j (fs, ts) (save_solver fs (key_of pg a r c) s, ts).
Definition steps (tl : tools) (j : job M) : files -> files -> Prop := clos_refl_trans _ (small tl j).

Section One.
Context (tl : tools) (j : job M).
Local Notation choice := (tl_choice tl).
Local Notation env := (tl_env tl).
Local Notation create := (tl_create tl).
Local Notation chain := (steps tl j).
Lemma chain_one f f' : small tl j f f' -> chain f f'.
Proof. apply rt_step. Qed.
Lemma chain_app f f' f'' : chain f f' -> chain f' f'' -> chain f f''.
Proof. apply rt_trans. Qed.
Lemma chain_refl f : chain f f.
Proof. apply rt_refl. Qed.

Lemma partition_steps (w : world M) region r c spt : region_by_name region = Ok r -> partitions j region c -> reports j -> create r = Ok spt -> plain (w_distance w) ->
  chain (files_of w) (files_of (fst (partition_and_report choice env format_coverage w c r spt))) /\
  plain (w_distance (fst (partition_and_report choice env format_coverage w c r spt))).
Proof.
  intros Hr Hp Hrep Hspt Hpl. unfold partition_and_report, save_to_csv.
  destruct (try_load_previous_partition (w_pickles w) c "dtw" r "pickle") as [ q | ] eqn:El.
  - destruct (clustering_report format_coverage (c_k c) (fst q)) as [ lines | e ] eqn:Er; (split; [ | exact Hpl ]); apply chain_one.
    + eapply small_report; eassumption.
    + eapply small_bad; eauto.
  - pose proof (plain_impl choice env c (dmeta_of r) spt true (w_distance w) Hpl) as P.
    destruct (clustering_impl choice env c (Some (dmeta_of r)) spt true (w_distance w)) as [ [ q | e ] o ] eqn:Ei; cbn [snd] in P; [ | split; [ apply chain_refl | exact P ] ].
    assert (Hc : computes tl r c q) by (exists spt, (w_distance w); rewrite Ei; auto).
    destruct (clustering_report format_coverage (c_k c) (fst q)) as [ lines | e ] eqn:Er; (split; [ | exact P ]); apply chain_one.
    + refine (small_save tl j (w_pickles w) (w_texts w) region r c q _ Hr Hp El Hc _). right. split; [ exact Hrep | ]. exists lines. split; [ exact Er | reflexivity ].
    + eapply small_bad; eauto.
Qed.

Lemma analyze_partition_steps (w : world M) region r c : region_by_name region = Ok r -> partitions j region c -> reports j -> plain (w_distance w) ->
  chain (files_of w) (files_of (fst (analyze_partition choice env create format_coverage format_float w c r))) /\
  plain (w_distance (fst (analyze_partition choice env create format_coverage format_float w c r))).
Proof.
  intros Hr Hp Hrep Hpl. unfold analyze_partition. destruct (create r) as [ spt | e ] eqn:Ec; [ | split; [ apply chain_refl | exact Hpl ] ].
  pose proof (partition_steps w region r c spt Hr Hp Hrep Ec Hpl) as [ A B ].
  destruct (partition_and_report _ _ _ _ _ _ _) as [ w' [ [ p [ ms | ] ] | e ] ]; cbn [fst] in A, B; try (split; assumption).
  destruct (clusters_with_centroids p spt None None (Some ms)) as [ cls | e ]; [ | split; assumption ].
  pose proof (plain_clusters env r cls (zrange 0 (c_k c)) (Ok (""%string, []), w_distance w') B) as P.
  destruct (fold_left _ _ _) as [ res o ]. split; [ exact A | exact P ].
Qed.
Lemma analyze_clusterings_steps region r ty sid suite0 : region_by_name region = Ok r -> j = JAnalysis region ty sid -> get_suite ty sid = Ok suite0 ->
  forall suite (w : world M), incl suite suite0 -> plain (w_distance w) ->
  chain (files_of w) (files_of (fst (analyze_clusterings choice env create format_coverage format_float w (table_at region ty sid) r suite))).
Proof.
  intros Hr Hj Hs. induction suite as [ | c suite IH ]; intros w Hi Hpl; [ apply chain_refl | ]. cbn [analyze_clusterings].
  assert (Hp : partitions j region c). { rewrite Hj. split; [ reflexivity | ]. apply (proj1 (C112_suites _ _ _ Hs)), Hi. left. reflexivity. }
  assert (Hrep : reports j) by (rewrite Hj; exact I).
  pose proof (analyze_partition_steps w region r c Hr Hp Hrep Hpl) as [ A B ]. destruct (analyze_partition _ _ _ _ _ _ _ _) as [ w' [ row | e ] ]; cbn [fst] in *; [ | exact A ].
  eapply chain_app; [ exact A | ]. eapply chain_app; [ apply chain_one; apply (small_table tl j (w_pickles w') (w_texts w') region r ty sid suite0
     ((match w_texts w' (table_at region ty sid) with Some l => l | None => [] end) ++ [csv_line row])%list Hr Hj Hs) | ].
  apply (IH (append_text w' (table_at region ty sid) (csv_line row))); [ intros c' H; apply Hi; right; exact H | exact B ].
Qed.
Lemma analysis_steps (w : world M) region ty sid : j = JAnalysis region ty sid ->
  chain (files_of w) (files_of (fst (analyze_suite choice env create format_coverage format_float w region ty sid))).
Proof.
  intros Hj. unfold analyze_suite. destruct (region_by_name region) as [ r | e ] eqn:Hr; cbn [bind]; [ | apply chain_refl ].
  destruct (get_suite ty sid) as [ suite | e ] eqn:Hs; cbn [bind]; [ | apply chain_refl ].
  pose proof (plain_load env (distances_filename r) (rm_region r) _ plain_new) as P.
  destruct (load_distance_matrix_2d _ _ _ _) as [ [ D | e ] o ]; cbn [snd] in P; [ | apply chain_refl ].
  destruct (predefined_facts _ _ Hr) as (En & Hn & _). rewrite (table_at_path ty sid r Hn), En. cbv zeta.
  eapply chain_app; [ apply chain_one; apply (small_table tl j (w_pickles w) (w_texts w) region r ty sid suite [csv_line ["clustering"; "total_cost"; "medoids"]%string] Hr Hj Hs) | ].
  apply (analyze_clusterings_steps region r ty sid suite Hr Hj Hs suite (write_text (World (w_pickles w) (w_texts w) o) (table_at region ty sid) _)); [ intros c H; exact H | exact P ].
Qed.

(* ---------- the loops over a suite ---------- *)
Lemma each_steps (P : world M -> Prop) step suite0 : (forall w c, In c suite0 -> P w ->
     chain (files_of w) (files_of (fst (step w c))) /\ P (fst (step w c)) /\ forall q f, In (q, f) (fst (snd (step w c))) -> may_write j q) ->
  forall suite w t, incl suite suite0 -> P w ->
  chain (files_of w) (files_of (fst (fst (each_clustering step w t suite)))) /\
  forall q, ~ may_write j q -> snd (fst (each_clustering step w t suite)) q = t q.
Proof.
  intros Hstep. induction suite as [ | c suite IH ]; intros w t Hi Hw; [ split; [ apply chain_refl | reflexivity ] | ]. cbn [each_clustering].
  destruct (Hstep w c (Hi c (or_introl eq_refl)) Hw) as (A & B & C). destruct (step w c) as [ w' [ fs e ] ]. cbn [fst snd] in A, B, C.
  assert (Hput : forall q, ~ may_write j q -> put_tables t fs q = t q).
  { intros q Hq. apply put_tables_other. intros Hin. apply in_map_iff in Hin. destruct Hin as ([ q' f ] & <- & Hin). apply Hq, (C _ _ Hin). }
  destruct e as [ e | ]; [ split; [ exact A | exact Hput ] | ].
  destruct (IH w' (put_tables t fs)) as [ A' T' ]; [ intros c' H; apply Hi; right; exact H | exact B | ].
  split; [ eapply chain_app; [ exact A | exact A' ] | ]. intros q Hq. rewrite (T' q Hq). apply Hput, Hq.
Qed.
Lemma with_partition_steps region r spt use (w : world M) c : region_by_name region = Ok r -> create r = Ok spt -> partitions j region c -> reports j -> plain (w_distance w) ->
  (forall p ms o q f, In (q, f) (fst (use c p ms o)) -> may_write j q) ->
  let s := with_partition choice env format_coverage r spt use w c in
  chain (files_of w) (files_of (fst s)) /\ plain (w_distance (fst s)) /\ forall q f, In (q, f) (fst (snd s)) -> may_write j q.
Proof.
  intros Hr Hspt Hp Hrep Hpl Hu. pose proof (partition_steps w region r c spt Hr Hp Hrep Hspt Hpl) as [ A B ]. cbv zeta. unfold with_partition.
  destruct (partition_and_report _ _ _ _ _ _ _) as [ w' [ [ p [ ms | ] ] | e ] ]; cbn [fst snd] in *; (split; [ exact A | ]); (split; [ exact B | ]); try (intros q f []).
  intros q f H. eapply Hu. exact H.
Qed.
Lemma with_prepared_steps region r spt use (w : world M) c : region_by_name region = Ok r -> create r = Ok spt -> partitions j region c -> reports j ->
  (forall p ms o q f, In (q, f) (fst (use c p ms o)) -> may_write j q) ->
  let s := with_prepared_partition choice env format_coverage r spt use w c in
  chain (files_of w) (files_of (fst s)) /\ True /\ forall q f, In (q, f) (fst (snd s)) -> may_write j q.
Proof.
  intros Hr Hspt Hp Hrep Hu. cbv zeta. unfold with_prepared_partition. pose proof (plain_load env (distances_filename r) (rm_region r) _ plain_new) as P.
  destruct (load_distance_matrix_2d _ _ _ _) as [ [ D | e ] o ]; cbn [snd] in P.
  - destruct (with_partition_steps region r spt use (World (w_pickles w) (w_texts w) o) c Hr Hspt Hp Hrep P Hu) as (A & _ & C). auto.
  - split; [ apply chain_refl | ]. split; [ exact I | intros q f [] ].
Qed.

(* ---------- where the tables are ---------- *)
Lemma auto_metadata_inv region experiment r suite params d : auto_arima_metadata region experiment = Ok (r, suite, params, d) ->
  region_by_name region = Ok r /\ exists ty sid, searched experiment ty sid /\ get_suite ty sid = Ok suite /\ params = PAutoArima 1 1 3 3 None true.
Proof.
  intros H. pose proof H as H0. unfold auto_arima_metadata in H0. destruct (region_by_name region) as [ r0 | e ] eqn:Hr; cbn [bind] in H0; [ | discriminate ].
  destruct (dict_get String.eqb experiment auto_arima_clustering_experiments) as [ ex | e ] eqn:Ex; cbn [bind] in H0; [ | discriminate ].
  pose proof (searched_experiment _ _ Ex) as Hx. rewrite (searched_metadata region r0 experiment _ _ Hx Hr) in H. clear H0.
  destruct (get_suite (ce_clustering_type ex) (ce_suite_id ex)) as [ s | e ] eqn:Hs; cbn [bind] in H; [ | discriminate ]. injection H as <- <- <- <-.
  split; [ reflexivity | ]. exists (ce_clustering_type ex), (ce_suite_id ex). split; [ exact Hx | ]. split; [ exact Hs | reflexivity ].
Qed.
Lemma orders_inv experiment e suite orders : dict_get String.eqb experiment arima_clusters_experiments = Ok e -> get_suite (ce_clustering_type e) (ce_suite_id e) = Ok suite ->
  arima_suite_by_name (ce_models e) = Ok orders -> with_orders experiment (ce_models e) (ce_clustering_type e) (ce_suite_id e).
Proof.
  intros H Hs Ho. apply dict_get_in in H. unfold arima_clusters_experiments in H. cbn [In] in H.
  repeat (destruct H as [ E | H ]; [ injection E as <- <-; cbn [ce_models ce_clustering_type ce_suite_id] in *;
    first [ discriminate Hs | discriminate Ho | (split; [ reflexivity | ]; split; [ cbn [In]; tauto | split; reflexivity ]) ] | ]). destruct H.
Qed.
Lemma distance_errors_loop_paths {P} (kind : model_kind P M) pdq_of env md params smd c n et home : forall clusters o q f,
  In (q, f) (fst (distance_errors_loop kind pdq_of env md params smd c clusters n et home o)) ->
  exists i cl ce order, In (i, cl, ce) clusters /\ q = path_join (solver_output_dir smd home) (distance_errors_filename c et ("cluster" ++ str_int i) order).
Proof.
  induction clusters as [ | [ [ i cl ] ce ] clusters IH ]; intros o q f; cbn [distance_errors_loop]; [ intros [] | ].
  destruct (distance_vs_errors_for_cluster _ _ _ _ _ _ _ _ _ _ _ _ _ _) as [ [ [ q0 f0 ] | e ] o' ] eqn:E; [ | intros [] ].
  specialize (IH o' q f). destruct (distance_errors_loop _ _ _ _ _ _ _ _ _ _ _ _) as [ fl e ]. cbn [fst] in *. intros [ H | H ].
  - injection H as -> ->. unfold distance_vs_errors_for_cluster in E. destruct (split_training_and_test_last _ _) as [ tr te ].
    destruct (all_point_indices cl) as [ idx | e0 ]; [ | discriminate ]. destruct (distances_to_point _ _ _ _ _ _ _ _) as [ ds o1 ]. injection E as E _.
    repeat match type of E with context [ bind ?x _ ] => destruct x; cbn [bind] in E; [ | discriminate ] end. injection E as <- _. do 4 eexists. split; [ left; reflexivity | reflexivity ].
  - destruct (IH H) as (i' & cl' & ce' & order & Hin & ->). exists i', cl', ce', order. split; [ right; exact Hin | reflexivity ].
Qed.

Lemma suite_belongs ty sid suite c : get_suite ty sid = Ok suite -> In c suite -> belongs ty sid c.
Proof. intros Hs. apply (proj1 (C112_suites _ _ _ Hs)). Qed.
End One.

Theorem job_steps tl (j : job M) s : let s' := run_job format_coverage format_float s (tl, j) in
  steps tl j (files_of (fst s)) (files_of (fst s')) /\ forall q, ~ may_write j q -> snd s' q = snd s q.
Proof.
  destruct s as [ w t ]. destruct j as [ region ty sid | region ty sid | fit forecast search region ex n et | fit order_of forecast search region ex n et | ran region ex et
    | fit order_of aic_of forecast search ran region ex et | pg a | dtw sq show pg a l1 l2 g1 g2 tf ]; cbv zeta; cbn [run_job fst snd].
  - split; [ apply analysis_steps; reflexivity | reflexivity ].
  - unfold medoid_distances. destruct (region_by_name region) as [ r | e ] eqn:Hr; cbn [bind]; [ | split; [ apply chain_refl | reflexivity ] ].
    destruct (get_suite ty sid) as [ suite | e ] eqn:Hs; cbn [bind]; [ | split; [ apply chain_refl | reflexivity ] ].
    destruct (tl_create tl r) as [ spt | e ] eqn:Hc; cbn [bind]; [ | split; [ apply chain_refl | reflexivity ] ].
    destruct (load_distance_matrix_2d _ _ _ _) as [ [ D | e ] o ]; [ | split; [ apply chain_refl | reflexivity ] ].
    destruct (predefined_facts _ _ Hr) as (En & Hn & _).
    change (files_of w) with (files_of (World (w_pickles w) (w_texts w) o)). apply (each_steps tl _ (fun _ => True) (medoid_distances_step (tl_choice tl) (tl_env tl) r spt) suite); [ | intros c H; exact H | exact I ].
    intros w' c Hin _. unfold medoid_distances_step. destruct (clustering_impl _ _ _ _ _ _ _) as [ res o' ]. split; [ apply chain_refl | ]. split; [ exact I | ].
    intros q f. destruct res as [ [ p [ ms | ] ] | e ]; try (intros []; fail). destruct (save_medoid_distances _ _ _ _); [ | intros [] ]. intros [ E | [] ]. injection E as <- <-.
    exists c. split; [ apply (suite_belongs _ _ _ _ Hs Hin) | ]. rewrite <- En. apply medoid_distances_path_at; [ exact Hn | ]. apply (asked_mode c), (belongs_asked ty sid), (suite_belongs _ _ _ _ Hs Hin).
  - unfold errors_between_medoids. destruct (auto_arima_metadata region ex) as [ [ [ [ r suite ] params ] d ] | e ] eqn:Em; cbn [bind]; [ | split; [ apply chain_refl | reflexivity ] ].
    destruct (auto_metadata_inv _ _ _ _ _ _ Em) as (Hr & ty & sid & Hx & Hs & ->). destruct (predefined_facts _ _ Hr) as (En & Hn & _).
    destruct (tl_create tl r) as [ spt | e ] eqn:Hc; cbn [bind]; [ | split; [ apply chain_refl | reflexivity ] ].
    apply (each_steps tl _ (fun _ => True) (with_prepared_partition (tl_choice tl) (tl_env tl) format_coverage r spt _) suite); [ | intros c H; exact H | exact I ].
    intros w' c Hin _. pose proof (suite_belongs _ _ _ _ Hs Hin) as Hb. apply (with_prepared_steps tl _ region r spt _ w' c Hr Hc); [ split; [ reflexivity | exists ty, sid; auto ] | exact I | ].
    intros p ms o q f. unfold use_errors_between. destruct (error_between_medoids _ _ _ _ _ _ _) as [ [ file | ] e ]; cbn [fst]; [ | intros [] ]. intros [ E | [] ]. injection E as <- <-.
    exists ty, sid, c. split; [ exact Hx | ]. split; [ exact Hb | ]. rewrite <- En. apply between_medoids_path_at; [ exact Hn | apply (asked_mode c), (belongs_asked ty sid), Hb ].
  - unfold auto_arima_distance_errors. destruct (auto_arima_metadata region ex) as [ [ [ [ r suite ] params ] d ] | e ] eqn:Em; cbn [bind]; [ | split; [ apply chain_refl | reflexivity ] ].
    destruct (auto_metadata_inv _ _ _ _ _ _ Em) as (Hr & ty & sid & Hx & Hs & ->). destruct (predefined_facts _ _ Hr) as (En & Hn & _).
    destruct (tl_create tl r) as [ spt | e ] eqn:Hc; cbn [bind]; [ | split; [ apply chain_refl | reflexivity ] ].
    apply (each_steps tl _ (fun _ => True) (with_prepared_partition (tl_choice tl) (tl_env tl) format_coverage r spt _) suite); [ | intros c H; exact H | exact I ].
    intros w' c Hin _. pose proof (suite_belongs _ _ _ _ Hs Hin) as Hb. apply (with_prepared_steps tl _ region r spt _ w' c Hr Hc); [ split; [ reflexivity | exists ty, sid; auto ] | exact I | ].
    intros p ms o q f. unfold use_distance_errors, distance_errors. destruct (mapM _ _) as [ clusters | e ] eqn:Ecl; [ | intros [] ]. intros H.
    destruct (distance_errors_loop_paths _ _ _ _ _ _ _ _ _ _ clusters o q f H) as (i & cl & ce & order & Hcl & ->).
    assert (Hi : exists n0, i = Z.of_nat n0).
    { destruct (mapM_each _ _ _ Ecl _ Hcl) as (i0 & Hi0 & E0). apply in_map_iff in Hi0. destruct Hi0 as (n0 & <- & _).
      destruct (create_spt_cluster _ _ _); cbn [bind] in E0; [ | discriminate ]. destruct (getitem ms _); cbn [bind] in E0; [ | discriminate ]. injection E0 as <- _ _. eauto. }
    destruct Hi as [ n0 -> ]. exists ty, sid, c, n0, order. split; [ exact Hx | ]. split; [ exact Hb | ]. rewrite <- En. apply distance_errors_path_at; [ exact Hn | apply (asked_mode c), (belongs_asked ty sid), Hb ].
  - unfold arima_error_analysis. destruct (region_by_name region) as [ r | e ] eqn:Hr; cbn [bind]; [ | split; [ apply chain_refl | reflexivity ] ].
    destruct (dict_get String.eqb ex arima_clusters_experiments) as [ e0 | e ] eqn:Ex; cbn [bind]; [ | split; [ apply chain_refl | reflexivity ] ].
    destruct (get_suite (ce_clustering_type e0) (ce_suite_id e0)) as [ suite | e ] eqn:Hs; cbn [bind]; [ | split; [ apply chain_refl | reflexivity ] ].
    destruct (arima_suite_by_name (ce_models e0)) as [ orders | e ] eqn:Ho; cbn [bind]; [ | split; [ apply chain_refl | reflexivity ] ].
    destruct (tl_create tl r) as [ spt | e ] eqn:Hc; cbn [bind]; [ | split; [ apply chain_refl | reflexivity ] ].
    destruct (py_assert _); cbn [bind]; [ | split; [ apply chain_refl | reflexivity ] ].
    pose proof (orders_inv _ _ _ _ Ex Hs Ho) as Hx. destruct (predefined_facts _ _ Hr) as (En & Hn & _).
    pose proof (plain_load (tl_env tl) (distances_filename r) (rm_region r) _ plain_new) as P.
    destruct (load_distance_matrix_2d _ _ _ _) as [ [ D | e ] o ]; cbn [snd] in P; [ | split; [ apply chain_refl | reflexivity ] ].
    change (files_of w) with (files_of (World (w_pickles w) (w_texts w) o)). apply (each_steps tl _ (fun w => plain (w_distance w)) (with_partition (tl_choice tl) (tl_env tl) format_coverage r spt _) suite); [ | intros c H; exact H | exact P ].
    intros w' c Hin Hpl. pose proof (suite_belongs _ _ _ _ Hs Hin) as Hb.
    apply (with_partition_steps tl _ region r spt _ w' c Hr Hc); [ split; [ reflexivity | exists (ce_models e0), (ce_clustering_type e0), (ce_suite_id e0); auto ] | exact I | exact Hpl | ].
    intros p ms o' q f. unfold use_arima_errors. destruct (clusters_with_centroids _ _ _ _ _) as [ cls | e ]; [ | intros [] ]. destruct (training_error_analysis _ _ _ _) as [ file e ].
    intros [ E | [] ]. injection E as <- <-. exists (ce_models e0), (ce_clustering_type e0), (ce_suite_id e0), c. split; [ exact Hx | ]. split; [ exact Hb | ]. rewrite <- En.
    apply arima_errors_path_at; [ exact Hn | apply (asked_mode c), (belongs_asked _ _ _ Hb) | eapply orders_no_slash; exact Hx ].
  - unfold auto_arima_error_analysis. destruct (auto_arima_metadata region ex) as [ [ [ [ r suite ] params ] d ] | e ] eqn:Em; cbn [bind]; [ | split; [ apply chain_refl | reflexivity ] ].
    destruct (auto_metadata_inv _ _ _ _ _ _ Em) as (Hr & ty & sid & Hx & Hs & ->). destruct (predefined_facts _ _ Hr) as (En & Hn & _).
    destruct (tl_create tl r) as [ spt | e ] eqn:Hc; cbn [bind]; [ | split; [ apply chain_refl | reflexivity ] ].
    destruct (py_assert _); cbn [bind]; [ | split; [ apply chain_refl | reflexivity ] ].
    pose proof (plain_load (tl_env tl) (distances_filename r) (rm_region r) _ plain_new) as P.
    destruct (load_distance_matrix_2d _ _ _ _) as [ [ D | e ] o ]; cbn [snd] in P; [ | split; [ apply chain_refl | reflexivity ] ].
    change (files_of w) with (files_of (World (w_pickles w) (w_texts w) o)). apply (each_steps tl _ (fun w => plain (w_distance w)) (with_partition (tl_choice tl) (tl_env tl) format_coverage r spt _) suite); [ | intros c H; exact H | exact P ].
    intros w' c Hin Hpl. pose proof (suite_belongs _ _ _ _ Hs Hin) as Hb.
    apply (with_partition_steps tl _ region r spt _ w' c Hr Hc); [ split; [ reflexivity | exists ty, sid; auto ] | exact I | exact Hpl | ].
    intros p ms o' q f. unfold use_auto_arima_errors. destruct (clusters_with_centroids _ _ _ _ _) as [ cls | e ]; [ | intros [] ]. destruct (append_rows _ _) as [ file e ].
    intros [ E | [] ]. injection E as <- <-. exists ty, sid, c. split; [ exact Hx | ]. split; [ exact Hb | ]. rewrite <- En.
    apply auto_arima_errors_path_at; [ exact Hn | apply (asked_mode c), (belongs_asked _ _ _ Hb) ].
  - split; [ | reflexivity ]. unfold train_and_report. destruct (metadata_from_args a) as [ [ r c ] | e ] eqn:Em; [ | apply chain_refl ].
    destruct (metadata_inv _ _ _ Em) as [ Hr Hc ]. unfold loaded_measure.
    pose proof (plain_load (tl_env tl) (distances_filename r) (rm_region r) _ plain_new) as P. destruct (load_distance_matrix_2d _ _ _ _) as [ D o ] eqn:Eld. cbn [fst snd] in *.
    destruct D as [ D | e ]; cbn [bind]; [ | apply chain_refl ]. destruct (tl_create tl r) as [ spt | e ] eqn:Ec; [ | apply chain_refl ].
    assert (Hp : partitions (JTrain pg a) (a_region a) c) by (split; [ reflexivity | exact Hc ]).
    destruct (partition_steps tl (JTrain pg a) (World (w_pickles w) (w_texts w) o) (a_region a) r c spt Hr Hp I Ec P) as [ Hch _ ]. change (files_of (World (w_pickles w) (w_texts w) o)) with (files_of w) in Hch.
    destruct (partition_and_report _ _ _ _ _ _ _) as [ w' [ [ p [ ms | ] ] | e ] ] eqn:Epr; cbn [fst] in Hch |- *; try exact Hch.
    destruct (solver_train _ _ _ _ _ _ _) as [ s | e ] eqn:Es; [ | exact Hch ].
    eapply chain_app; [ exact Hch | ]. apply chain_one. apply small_solver; [ exact Em | reflexivity | eapply train_known_error; exact Es ].
  - split; [ | reflexivity ]. unfold predict_request. destruct (metadata_from_args a) as [ [ r c ] | e ] eqn:Em; [ | apply chain_refl ].
    destruct (metadata_inv _ _ _ Em) as [ Hr Hc ]. destruct (prediction_region l1 l2 g1 g2) as [ g | e ]; [ | apply chain_refl ].
    assert (Hp : partitions (JPredict dtw sq show pg a l1 l2 g1 g2 tf) (a_region a) c) by (split; [ reflexivity | exact Hc ]).
    pose proof (load_solver_fs (w_pickles w) (key_of pg a r c) (fun wm => spt <- tl_create tl r ;; impl_with tl (DObj PlainDTW None false) r c spt wm)) as Ef.
    destruct (load_solver _ _ _) as [ fs' l ]. cbn [fst] in Ef |- *. rewrite Ef. clear Ef. unfold load_partition, partition_call, save_partition, key_of. cbn [k_clustering k_dist k_region].
    destruct (try_load_previous_partition (w_pickles w) c "dtw" r "pickle") as [ q | ] eqn:El; [ apply chain_refl | ].
    destruct (tl_create tl r) as [ spt | e ] eqn:Ec; cbn [bind]; [ | apply chain_refl ]. unfold impl_with.
    destruct (fst (clustering_impl _ _ _ _ _ _ _)) as [ q | e ] eqn:Ei; [ | apply chain_refl ]. cbn [bind fst]. apply chain_one.
    apply (small_save tl _ (w_pickles w) (w_texts w) (a_region a) r c q (w_texts w) Hr Hp El); [ | left; reflexivity ]. exists spt, (DObj PlainDTW None false). split; [ exact Ec | ]. split; [ apply plain_new | exact Ei ].
Qed.
End Steps.
