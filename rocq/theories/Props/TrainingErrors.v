(** C127-C129: complete error analyses of regions and clusters, and the programs that write their tables. *)
From Coq Require Import String Lia QArith.
From Verif Require Import Base.Py Base.PyFacts Base.Str Base.StrFacts Base.Arr Base.ArrFacts Base.Float Base.FloatFacts Base.Dict Model.Region Model.Series Model.Arrays Model.Errors Model.Models Model.Distance
  Model.KMedoids Model.Clustering Model.Variance Model.Solver Model.SolverFiles Model.Forecast Model.Results Model.Reports Model.Algorithms Model.Programs Model.Dnn Model.PartitionAnalysis
  Model.SuitePrograms
  Spec.Grid Spec.Partition Spec.Distance Spec.Solver Spec.SolverFiles Spec.Algorithms Spec.Programs Spec.PartitionAnalysis Spec.Reports Spec.SuitePrograms Spec.TrainingErrors
  Proofs.RegionFacts Proofs.PartitionFacts Proofs.ProperFacts Proofs.SolverFacts Proofs.DistanceFacts Proofs.DistanceObjFacts Proofs.VarianceFacts
  Proofs.ReportFacts Proofs.ClusteringFacts Proofs.NameFacts Proofs.ProgramFacts Proofs.FilesFacts Proofs.AnalysisFacts Proofs.SuiteFacts Proofs.AnalysisRunFacts
  Props.Clustering Props.SolverFiles Props.Programs Props.Reports Props.PartitionAnalysis Props.SuitePrograms.
From Coq Require Import ZifyBool ZifyNat.
Close Scope Q_scope.
Local Notation length := List.length.
Local Open Scope nat_scope.

(* ---------------------------------------------------------------- C127 *)
Lemma cluster_members p x y i members : valid_partition p x y -> cluster_points p x y i members -> members = filter (has_lab p i) (grid x y).
Proof.
  intros Hv (keep & -> & H). apply filter_ext_in. intros pt Hin. apply in_grid_iff in Hin. pose proof (H pt Hin) as A. pose proof (has_lab_iff p x y i pt Hv Hin) as B.
  destruct (keep pt), (has_lab p i pt); intuition congruence.
Qed.
Lemma cluster_members_ok p x y i : valid_partition p x y -> cluster_points p x y i (filter (has_lab p i) (grid x y)).
Proof. intros Hv. exists (has_lab p i). split; [ reflexivity | ]. intros pt Hg. apply (has_lab_iff p x y i pt Hv Hg). Qed.
Lemma filter_all {A} (l : list A) : filter (fun _ => true) l = l.
Proof. induction l as [ | a l IH ]; [ reflexivity | ]. cbn [filter]. rewrite IH. reflexivity. Qed.

(** C127: the error analysis of a cluster: whatever the kind of model, the number of workers and their schedule, it ends, and with one
    result: the errors of the forecasts of all members of the cluster, trained on all but the last [n] samples. *)
Theorem C127_cluster : forall P M (kind : model_kind P M) sqrt workers junk (d : arr3 fnum) sc p i members ap n et func mo fo err med,
  qwf d sc -> valid_partition p (a3x d) (a3y d) -> cluster_points p (a3x d) (a3y d) i members -> n <= a3t d -> workers_ok workers -> get_error_func et = Ok func ->
  forecasts kind ap func d sc n members mo fo err -> In med members ->
  exists fe, error_summary sqrt members fo err med fe /\
    let run := analyze_errors kind sqrt (train kind (full2 (a3x d) (a3y d) (Some ap))) workers junk (TCluster (qregion d sc) p i) (Some med) et n new_analysis in
    (exists a', run (Ok fe) a') /\ (forall result a', run result a' -> result = Ok fe).
Proof.
  intros P M kind sqrt workers junk d sc p i members ap n et func mo fo err med Hq Hv Hc Hn Hw Hf [ H1 H2 ] Hmed. pose proof (cluster_members _ _ _ _ _ Hv Hc) as ->.
  exists (summary sqrt d (Some (p, i)) fo err med). split; [ apply (summary_spec sqrt d (Some (p, i)) fo err med) | ]. cbn zeta.
  pose proof (fun result a' => analysis_run kind sqrt workers junk d sc (Some (p, i)) ap n Hq Hv Hn et func Hf mo fo err H1 H2 med result a' Hw Hmed) as H.
  split; [ apply (H (Raise ValueError) new_analysis) | ]. intros result a' Hr. apply (H result a'), Hr.
Qed.
Print Assumptions C127_cluster.

(** C127: the same for a whole region. *)
Theorem C127_region : forall P M (kind : model_kind P M) sqrt workers junk (d : arr3 fnum) sc ap n et func mo fo err med,
  qwf d sc -> n <= a3t d -> workers_ok workers -> get_error_func et = Ok func ->
  forecasts kind ap func d sc n (grid (a3x d) (a3y d)) mo fo err -> in_grid (a3x d) (a3y d) med ->
  exists fe, error_summary sqrt (grid (a3x d) (a3y d)) fo err med fe /\
    let run := analyze_errors kind sqrt (train kind (full2 (a3x d) (a3y d) (Some ap))) workers junk (qregion d sc) (Some med) et n new_analysis in
    (exists a', run (Ok fe) a') /\ (forall result a', run result a' -> result = Ok fe).
Proof.
  intros P M kind sqrt workers junk d sc ap n et func mo fo err med Hq Hn Hw Hf [ H1 H2 ] Hmed. apply in_grid_iff in Hmed. rewrite <- (filter_all (grid _ _)) in *.
  exists (summary sqrt d None fo err med). split; [ apply (summary_spec sqrt d None fo err med) | ]. cbn zeta.
  pose proof (fun result a' => analysis_run kind sqrt workers junk d sc None ap n Hq I Hn et func Hf mo fo err H1 H2 med result a' Hw Hmed) as H.
  split; [ apply (H (Raise ValueError) new_analysis) | ]. intros result a' Hr. apply (H result a'), Hr.
Qed.
Print Assumptions C127_region.

(** C127: the trainer counts the members without a model. *)
Theorem C127_failed_models : forall P M (kind : model_kind P M) (d : arr3 fnum) sc p i members ap n et func mo fo err,
  qwf d sc -> valid_partition p (a3x d) (a3y d) -> cluster_points p (a3x d) (a3y d) i members -> n <= a3t d -> get_error_func et = Ok func ->
  forecasts kind ap func d sc n members mo fo err -> members <> [] ->
  exists models, train kind (full2 (a3x d) (a3y d) (Some ap)) (fst (split_training_and_test_last (Z.of_nat n) (TCluster (qregion d sc) p i))) = Ok (models, without_model mo members) /\
    forall pt, In pt members -> get2 models (fst pt) (snd pt) = Ok (match mo pt with Some m => Trained m | None => NoModel end).
Proof.
  intros P M kind d sc p i members ap n et func mo fo err Hq Hv Hc Hn Hf [ H1 H2 ] Hne. pose proof (cluster_members _ _ _ _ _ Hv Hc) as ->.
  assert (Hmed : exists med, In med (filter (has_lab p i) (grid (a3x d) (a3y d)))) by (destruct (filter _ _) as [ | med rest ]; [ congruence | exists med; left; reflexivity ]).
  destruct Hmed as [ med Hmed ].
  destruct (analysis_run kind (fun x => x) None NaN d sc (Some (p, i)) ap n Hq Hv Hn et func Hf mo fo err H1 H2 med (Raise ValueError) new_analysis I Hmed) as (_ & _ & models & E & G).
  exists models. split; [ exact E | ]. exact G.
Qed.
Print Assumptions C127_failed_models.

Lemma first_least_bound items q v it : Extrema.first_least items (q, v) -> In it items -> is_nan (snd it) = false -> fle v (snd it) = true.
Proof.
  unfold Extrema.first_least. cbn [fst snd]. destruct q as [ q | ].
  - intros (pre & post & -> & Hlt & A & B) Hin Hnn. apply in_app_iff in Hin. destruct Hin as [ Hin | [ <- | Hin ] ].
    + destruct (A it Hin) as [ H | H ]; [ | congruence ]. apply flt_fle, H.
    + cbn [snd] in *. apply fle_refl, Hnn.
    + destruct (B it Hin) as [ H | H ]; [ exact H | congruence ].
  - intros [ -> H ] Hin Hnn. specialize (H it Hin). destruct (snd it); try discriminate; reflexivity.
Qed.
Lemma first_greatest_bound items q v it : Extrema.first_greatest items (q, v) -> In it items -> is_nan (snd it) = false -> fle (snd it) v = true.
Proof.
  unfold Extrema.first_greatest. cbn [fst snd]. destruct q as [ q | ].
  - intros (pre & post & -> & Hlt & A & B) Hin Hnn. apply in_app_iff in Hin. destruct Hin as [ Hin | [ <- | Hin ] ].
    + destruct (A it Hin) as [ H | H ]; [ | congruence ]. apply flt_fle, H.
    + cbn [snd] in *. apply fle_refl, Hnn.
    + destruct (B it Hin) as [ H | H ]; [ exact H | congruence ].
  - intros [ -> H ] Hin Hnn. specialize (H it Hin). destruct (snd it); try discriminate; reflexivity.
Qed.
(** C127: the reported least and greatest errors bound the error of the centroid's forecast. *)
Theorem C127_bounds : forall sqrt members fo err med fe, error_summary sqrt members fo err med fe -> In med members -> is_nan (fe_centroid fe) = false ->
  fle (fe_minimum fe) (fe_centroid fe) = true /\ fle (fe_centroid fe) (fe_maximum fe) = true.
Proof.
  intros sqrt members fo err med fe (_ & (q1 & H1) & _ & Ec & (q2 & H2)) Hin Hnn. rewrite Ec in *.
  assert (Hit : In (med, overall sqrt members fo err med) (map (fun q => (q, overall sqrt members fo err q)) members)) by (apply in_map_iff; eauto).
  split; [ apply (first_least_bound _ _ _ _ H1 Hit Hnn) | apply (first_greatest_bound _ _ _ _ H2 Hit Hnn) ].
Qed.
Print Assumptions C127_bounds.

(* ---------------------------------------------------------------- C128 *)
(** the analysis with times *)
Lemma analyzed_result {P M} (kind : model_kind P M) sqrt workers junk (d : arr3 fnum) sc p i members ap et func mo fo err med :
  qwf d sc -> valid_partition p (a3x d) (a3y d) -> cluster_points p (a3x d) (a3y d) i members -> 8 <= a3t d -> workers_ok workers -> get_error_func et = Ok func ->
  forecasts kind ap func d sc 8 members mo fo err -> In med members ->
  exists fe models, error_summary sqrt members fo err med fe /\
    train kind (full2 (a3x d) (a3y d) (Some ap)) (fst (split_training_and_test_last 8 (TCluster (qregion d sc) p i))) = Ok (models, without_model mo members) /\
    (forall pt, In pt members -> get2 models (fst pt) (snd pt) = Ok (cell_of (mo pt))) /\
    (forall result, analyzed kind sqrt (full2 (a3x d) (a3y d) (Some ap)) workers junk (TCluster (qregion d sc) p i) med et result <->
       exists tf tc, result = Ok (Experiment fe (without_model mo members) tf tc)).
Proof.
  intros Hq Hv Hc Hn Hw Hf Hfo Hmed. destruct (C127_cluster P M kind sqrt workers junk d sc p i members ap 8 et func mo fo err med Hq Hv Hc Hn Hw Hf Hfo Hmed) as (fe & Hfe & (a' & Ha) & Hd).
  destruct (C127_failed_models P M kind d sc p i members ap 8 et func mo fo err Hq Hv Hc Hn Hf Hfo) as (models & E & G); [ intros ->; destruct Hmed | ].
  exists fe, models. split; [ exact Hfe | ]. split; [ exact E | ]. split; [ intros pt Hp; rewrite (G pt Hp); destruct (mo pt); reflexivity | ]. intros result. unfold analyzed. split.
  - intros (errors & a & tf & tc & Hr & ->). rewrite (Hd errors a Hr). cbn [bind]. change (Z.of_nat DEFAULT_FORECAST_LENGTH) with (Z.of_nat 8). rewrite E. cbn [bind snd]. eauto.
  - intros (tf & tc & ->). exists (Ok fe), a', tf, tc. split; [ exact Ha | ]. cbn [bind]. change (Z.of_nat DEFAULT_FORECAST_LENGTH) with (Z.of_nat 8). rewrite E. reflexivity.
Qed.

Lemma orders_metadata experiment orders ty sid : with_orders experiment orders ty sid ->
  exists e, dict_get String.eqb experiment arima_clusters_experiments = Ok e /\ ce_models e = orders /\ ce_clustering_type e = ty /\ ce_suite_id e = sid /\ ce_distance e = "dtw"%string.
Proof. intros (-> & H & -> & ->). cbn [In] in H. destruct H as [ <- | [ <- | [] ] ]; eexists; repeat split; reflexivity. Qed.
Lemma orders_no_slash experiment orders ty sid : with_orders experiment orders ty sid -> has_char "/" orders = false.
Proof. intros (_ & H & _). cbn [In] in H. destruct H as [ <- | [ <- | [] ] ]; reflexivity. Qed.

Section Loaded.
Context {M : Type} (choice : Z -> nat -> Z -> res (list Z)) (env : denv) (create_instance : rmeta -> res (stregion fnum)) (format_coverage : Q -> string).
Context (region : string) (r : rmeta) (d : arr3 fnum) (sc : option (arr2 fnum * arr2 fnum)) (D : mat) (dist : point -> point -> fnum).
Context (Hready : ready env create_instance region r d sc D dist).
Local Notation loaded := (DObj PlainDTW (Some D) false).
Local Notation spt := (qregion d sc).

Lemma load_ready : load_distance_matrix_2d env (distances_filename r) (rm_region r) (DObj PlainDTW None false) = (Ok (Some D), loaded).
Proof. pose proof Hready as (Hr & Hi & Hq & Hsp & Hl & HD & He). unfold load_distance_matrix_2d. cbn [d_kind]. rewrite (base_load_ok env _ _ (a3x d) (a3y d) _ D Hsp Hl HD). reflexivity. Qed.
Lemma loaded_all use (w : world M) t ty sid suite results : get_suite ty sid = Ok suite -> outcomes choice env (w_pickles w) r d sc D suite results ->
  each suite results (fun c p ms => snd (use c p ms loaded) = None) ->
  exists w', each_clustering (with_partition choice env format_coverage r spt use) (World (w_pickles w) (w_texts w) loaded) t suite = (w', put_tables t (all_files D use suite results), None) /\
    partitions_left format_coverage w w' region suite results.
Proof.
  intros Hs Ho Hu. destruct (suite_prefix choice env create_instance format_coverage region r d sc D dist Hready use _ (World (w_pickles w) (w_texts w) loaded) t ty sid suite results [] eq_refl
     ltac:(rewrite app_nil_r; exact Hs) Ho (use_files D use suite results Hu)) as (w' & E & _ & L). rewrite app_nil_r in E. exists w'. split; [ exact E | exact L ].
Qed.
Lemma loaded_partition_fails use (w : world M) t ty sid before results c after e : get_suite ty sid = Ok (before ++ c :: after)%list ->
  outcomes choice env (w_pickles w) r d sc D before results -> each before results (fun c p ms => snd (use c p ms loaded) = None) ->
  (forall q, w_pickles w (saved_at region c) <> Some (FPartition q)) ->
  algorithm_partition_impl choice env c (Some (dmeta_of r)) spt true loaded = Raise e ->
  exists w', each_clustering (with_partition choice env format_coverage r spt use) (World (w_pickles w) (w_texts w) loaded) t (before ++ c :: after)%list =
      (w', put_tables t (all_files D use before results), Some e) /\
    partitions_left format_coverage w w' region before results.
Proof.
  intros Hs Ho Hu Hn Ea.
  apply (suite_fails_partition choice env create_instance format_coverage region r d sc D dist Hready use _ (World (w_pickles w) (w_texts w) loaded) t ty sid before results c after e eq_refl Hs Ho
    (use_files D use before results Hu) Hn Ea).
Qed.
Lemma loaded_use_fails use (w : world M) t ty sid before results c after p ms e : get_suite ty sid = Ok (before ++ c :: after)%list -> length before = length results ->
  outcomes choice env (w_pickles w) r d sc D (before ++ [c]) (results ++ [(p, ms)]) -> each before results (fun c p ms => snd (use c p ms loaded) = None) ->
  snd (use c p ms loaded) = Some e ->
  exists w', each_clustering (with_partition choice env format_coverage r spt use) (World (w_pickles w) (w_texts w) loaded) t (before ++ c :: after)%list =
     (w', put_tables (put_tables t (all_files D use before results)) (fst (use c p ms loaded)), Some e) /\
    partitions_left format_coverage w w' region (before ++ [c]) (results ++ [(p, ms)]).
Proof.
  intros Hs Hlen Ho Hu Ef.
  apply (suite_fails_use choice env create_instance format_coverage region r d sc D dist Hready use _ (World (w_pickles w) (w_texts w) loaded) t ty sid before results c after p ms _ e eq_refl Hs Ho Hlen
    (use_files D use before results Hu)).
  destruct (use c p ms loaded) as [ f e' ]. cbn in *. subst e'. reflexivity.
Qed.
End Loaded.

Lemma same_length {A} (l l' : list A) : NoDup l -> NoDup l' -> (forall a, In a l <-> In a l') -> length l = length l'.
Proof. intros H H' E. apply Nat.le_antisymm; apply NoDup_incl_length; auto; intros a Ha; apply E; exact Ha. Qed.

Section Orders.
Context {M : Type} (fit : pdq -> list fnum -> res M) (forecast : M -> nat -> res (list fnum)).
Local Notation kind := (arima_kind fit forecast).
Context (sqrt : fnum -> fnum) (workers : option Z) (junk : fnum) (ran : cmeta -> Z -> stregion fnum -> point -> pdq -> res experiment).
Context (env : denv) (create_instance : rmeta -> res (stregion fnum)) (region : string) (r : rmeta) (d : arr3 fnum) (sc : option (arr2 fnum * arr2 fnum)) (D : mat) (dist : point -> point -> fnum).
Context (Hready : ready env create_instance region r d sc D dist).
Context (et : string) (func : list fnum -> list fnum -> option (list fnum) -> res fnum) (Hn : 8 <= a3t d) (Hw : workers_ok workers) (Hf : get_error_func et = Ok func).
Context (oid : string) (Hoid : has_char "/" oid = false) (orders : list pdq).
Context (mo : pdq -> point -> option M) (fo : pdq -> point -> list fnum) (err : pdq -> point -> point -> fnum).
Local Notation x := (a3x d).
Local Notation y := (a3y d).
Local Notation spt := (qregion d sc).
Local Notation loaded := (DObj PlainDTW (Some D) false).
Local Notation use := (use_arima_errors r spt oid orders et ran).

(** what is used for cluster i and an order *)
Lemma orders_use c p ms : has_char "/" (mode_of c) = false -> with_medoids x y (c_k c) p ms -> ms <> [] ->
  use c p ms loaded = (let '(file, e) := training_error_analysis p (c_k c) orders (fun i order => med <- getitem ms i ;; ran c i (TCluster spt p i) med order) in
                       ([(arima_errors_at region c oid et, file)], e)).
Proof.
  intros Hc (V & K & L & G) Hne. pose proof Hready as (Hr & Hi & Hq & Hsp & Hl & HD & He). destruct (predefined_facts _ _ Hr) as (En & Hnm & _).
  unfold use_arima_errors. rewrite (clusters_ok (fun _ _ _ => Raise ValueError) (fun _ _ => ""%string) r d sc D dist Hnm He p ms) by (try assumption; (split; [ exact V | split; [ congruence | auto ] ])).
  rewrite (arima_errors_path_at c r oid et Hnm Hc Hoid), En.
  replace (training_error_analysis p (c_k c) orders _) with (training_error_analysis p (c_k c) orders (fun i order => med <- getitem ms i ;; ran c i (TCluster spt p i) med order)); [ reflexivity | ].
  unfold training_error_analysis. f_equal. rewrite !flat_map_concat_map. f_equal. apply map_ext_in. intros i Hi'. apply in_zrange in Hi'.
  destruct (i <? pk p)%Z; [ | reflexivity ]. apply map_ext. intros order.
  assert (Hlt : Z.to_nat i < length ms) by lia. destruct (nth_error ms (Z.to_nat i)) as [ med | ] eqn:Em; [ | apply nth_error_None in Em; lia ].
  replace i with (Z.of_nat (Z.to_nat i)) by lia. rewrite (getitem_in _ _ _ Em).
  rewrite (getitem_in _ (Z.to_nat i) (HRegion ("cluster" ++ str_int (Z.of_nat (Z.to_nat i))) (TCluster spt p (Z.of_nat (Z.to_nat i))) (nth_error ms (Z.to_nat i)) None))
    by (rewrite nth_error_map, nth_error_seq, (proj2 (Nat.ltb_lt _ _) Hlt); reflexivity).
  cbn [bind h_own h_region]. rewrite Em. reflexivity.
Qed.

(** the analyses of a clustering before number [n] are made *)
Definition orders_analyzed (c : cmeta) (p : crisp) (ms : list point) (n : nat) : Prop :=
  forall i j med order, nth_error ms i = Some med -> nth_error orders j = Some order -> i * length orders + j < n ->
    label_at p med (Z.of_nat i) /\
    (forall members, cluster_points p x y (Z.of_nat i) members -> forecasts kind (Some order) func d sc 8 members (mo order) (fo order) (err order)) /\
    analyzed kind sqrt (full2 x y (Some (Some order))) workers junk (TCluster spt p (Z.of_nat i)) med et (ran c (Z.of_nat i) (TCluster spt p (Z.of_nat i)) med order).
Lemma orders_ran c p ms n i j med order members : with_medoids x y (c_k c) p ms -> orders_analyzed c p ms n -> nth_error ms i = Some med -> nth_error orders j = Some order ->
  i * length orders + j < n -> cluster_points p x y (Z.of_nat i) members ->
  exists fe tf tc, error_summary sqrt members (fo order) (err order) med fe /\
    ran c (Z.of_nat i) (TCluster spt p (Z.of_nat i)) med order = Ok (Experiment fe (without_model (mo order) members) tf tc).
Proof.
  intros (V & K & L & G) H Hi Hj Hlt Hm. destruct (H i j med order Hi Hj Hlt) as (Hl & Hfo & Ha). specialize (Hfo members Hm). pose proof Hready as (_ & _ & Hq & _).
  assert (Hmed : In med members).
  { rewrite (cluster_members _ _ _ _ _ V Hm). apply members_iff; [ exact V | ]. split; [ | exact Hl ]. rewrite Forall_forall in G. apply G, (nth_error_In _ _ Hi). }
  destruct (analyzed_result kind sqrt workers junk d sc p (Z.of_nat i) members (Some order) et func (mo order) (fo order) (err order) med Hq V Hm Hn Hw Hf Hfo Hmed) as (fe & models & Hfe & _ & _ & Hr).
  apply Hr in Ha. destruct Ha as (tf & tc & E). exists fe, tf, tc. split; [ exact Hfe | exact E ].
Qed.
(** [stop]: the analysis that fails *)
Lemma orders_done c p ms n (stop : option exn) : has_char "/" (mode_of c) = false -> with_medoids x y (c_k c) p ms -> ms <> [] -> orders_analyzed c p ms n ->
  match stop with
  | None => n = length ms * length orders
  | Some e => exists i j med order, nth_error ms i = Some med /\ nth_error orders j = Some order /\ n = i * length orders + j /\
      ran c (Z.of_nat i) (TCluster spt p (Z.of_nat i)) med order = Raise e
  end ->
  exists file, use c p ms loaded = ([(arima_errors_at region c oid et, file)], stop) /\ orders_rows sqrt x y p ms orders mo fo err n file.
Proof.
  intros Hc HW Hne H Hstop. rewrite (orders_use c p ms Hc HW Hne). pose proof HW as (V & K & L & G).
  destruct (C111_training_error_table p x y (c_k c) orders (fun i order => med <- getitem ms i ;; ran c i (TCluster spt p i) med order) V ltac:(lia)) as (rows & outcome & E & Hrows & Hout).
  rewrite E. set (s := @List.length pdq orders) in *.
  assert (Div : forall i j, j < s -> (i * s + j) / s = i) by (intros i j Hj; rewrite Nat.add_comm, Nat.div_add, Nat.div_small by lia; lia).
  assert (Mod : forall i j, j < s -> (i * s + j) mod s = j) by (intros i j Hj; rewrite Nat.add_comm, Nat.mod_add, Nat.mod_small by lia; lia).
  assert (Split : forall a, a < length ms * s -> exists i j med order, nth_error ms i = Some med /\ nth_error orders j = Some order /\ a = i * s + j /\ a / s = i /\ a mod s = j).
  { intros a Ha. assert (s <> 0) by lia. assert (Hi : a / s < length ms) by (apply Nat.div_lt_upper_bound; lia). pose proof (Nat.mod_upper_bound a s H0) as Hj.
    destruct (nth_error ms (a / s)) as [ med | ] eqn:Em; [ | apply nth_error_None in Em; lia ]. destruct (nth_error orders (a mod s)) as [ order | ] eqn:Eo; [ | apply nth_error_None in Eo; fold s in Eo; lia ].
    exists (a / s), (a mod s), med, order. repeat split; try assumption. rewrite Nat.mul_comm. apply Nat.div_mod, H0. }
  assert (Hle : n <= length ms * s).
  { destruct stop as [ e | ]; [ | lia ]. destruct Hstop as (i & j & med & order & Hi & Hj & -> & _).
    assert (i < length ms) by (apply nth_error_Some; congruence). assert (j < s) by (unfold s; apply nth_error_Some; rewrite Hj; discriminate). nia. }
  assert (Hlen : length rows <= length ms * s). { destruct outcome; [ destruct Hout as [ Hlt _ ] | ]; lia. }
  assert (Hat : forall a, a < length rows -> exists i j med order result, nth_error ms i = Some med /\ nth_error orders j = Some order /\ a = i * s + j /\
             ran c (Z.of_nat i) (TCluster spt p (Z.of_nat i)) med order = Ok result).
  { intros a Ha. destruct (Split a ltac:(lia)) as (i & j & med & order & Hi & Hj & Ea & Ed & Em). destruct (nth_error rows a) as [ row | ] eqn:Er; [ | apply nth_error_None in Er; lia ].
    destruct (Hrows _ _ Er) as (pp' & dd' & qq' & result & members' & Eo & Er' & _). rewrite Ed, Em in *. rewrite Hj in Eo. injection Eo as ->. rewrite (getitem_in _ _ _ Hi) in Er'. cbn [bind] in Er'.
    exists i, j, med, (pp', dd', qq'), result. auto. }
  assert (Hn' : length rows = n /\ outcome = stop).
  { assert (Hcase : length rows < n \/ n <= length rows) by lia. destruct Hcase as [ Hlt | Hge ].
    - exfalso. destruct outcome as [ e | ]; [ | rewrite Hout in *; lia ]. destruct Hout as (_ & order & Ho & Ea).
      destruct (Split (length rows) ltac:(lia)) as (i & j & med & order' & Hi & Hj & Er & Ed & Em). rewrite Ed, Em in *. rewrite Hj in Ho. injection Ho as ->. rewrite (getitem_in _ _ _ Hi) in Ea. cbn [bind] in Ea.
      destruct (orders_ran c p ms n i j med order _ HW H Hi Hj ltac:(fold s; lia) (cluster_members_ok p x y _ V)) as (fe & tf & tc & _ & Er'). rewrite Er' in Ea. discriminate.
    - destruct stop as [ e | ].
      + destruct Hstop as (i & j & med & order & Hi & Hj & En & Er). assert (Hjs : j < s) by (unfold s; apply nth_error_Some; rewrite Hj; discriminate).
        assert (Hik : i < length ms) by (apply nth_error_Some; congruence).
        destruct (Nat.eq_dec (length rows) n) as [ El | ].
        * split; [ exact El | ]. destruct outcome as [ e' | ]; [ | exfalso; rewrite El in Hout; nia ]. destruct Hout as (_ & order' & Ho & Ea). rewrite El, En in *. rewrite (Div i j Hjs), (Mod i j Hjs) in *.
          rewrite Hj in Ho. injection Ho as <-. rewrite (getitem_in _ _ _ Hi) in Ea. cbn [bind] in Ea. congruence.
        * exfalso. destruct (Hat n ltac:(lia)) as (i' & j' & med' & order' & result & Hi' & Hj' & En' & Er').
          assert (Hjs' : j' < s) by (unfold s; apply nth_error_Some; rewrite Hj'; discriminate).
          assert (i' = i) by (rewrite <- (Div i' j' Hjs'), <- En', En; apply Div, Hjs). assert (j' = j) by (rewrite <- (Mod i' j' Hjs'), <- En', En; apply Mod, Hjs). subst i' j'.
          rewrite Hi in Hi'. injection Hi' as <-. rewrite Hj in Hj'. injection Hj' as <-. congruence.
      + split; [ lia | ]. destruct outcome as [ e | ]; [ | reflexivity ]. exfalso. destruct Hout as [ Hlt _ ]. lia. }
  destruct Hn' as [ Er -> ]. eexists. split; [ reflexivity | ]. exists rows. split; [ reflexivity | ]. split; [ exact Er | ].
  intros i j med pp dd qq members Hi Hj Hm Hlt. change (@nth_error pdq orders j = Some (pp, dd, qq)) in Hj. change (@List.length (Z * Z * Z) orders) with s in *.
  assert (Hjs : j < s) by (unfold s; apply nth_error_Some; rewrite Hj; discriminate).
  destruct (nth_error rows (i * s + j)) as [ row | ] eqn:Erow; [ | apply nth_error_None in Erow; lia ].
  destruct (Hrows _ _ Erow) as (pp' & dd' & qq' & result & members' & Eo & Ea & Nd & Hin & ->).
  rewrite (Div i j Hjs), (Mod i j Hjs) in *. rewrite Hj in Eo. injection Eo as <- <- <-. rewrite (getitem_in _ _ _ Hi) in Ea. cbn [bind] in Ea.
  destruct (orders_ran c p ms n i j med (pp, dd, qq) members HW H Hi Hj Hlt Hm) as (fe & tf & tc & Hfe & Eran). rewrite Eran in Ea. injection Ea as <-.
  exists fe, tf, tc. split; [ exact Hfe | ]. cbn [ex_failed ex_forecast_time ex_compute_time ex_errors].
  replace (length members) with (length members'); [ reflexivity | ]. apply same_length; [ exact Nd | | ].
  - rewrite (cluster_members _ _ _ _ _ V Hm). apply NoDup_filter, grid_nodup.
  - intros pt. rewrite Hin, (cluster_members _ _ _ _ _ V Hm). symmetry. apply members_iff, V.
Qed.
End Orders.

Lemma medoids_nonempty {M} choice env (fs : fsys M) r d sc D ty sid suite results rest i c p ms : get_suite ty sid = Ok (suite ++ rest)%list ->
  outcomes choice env fs r d sc D suite results -> nth_error suite i = Some c -> nth_error results i = Some (p, ms) ->
  has_char "/" (mode_of c) = false /\ with_medoids (a3x d) (a3y d) (c_k c) p ms /\ ms <> [].
Proof.
  intros Hs Ho A B. pose proof (outcomes_medoids _ _ _ _ _ _ _ _ _ _ _ _ _ Ho A B) as HW. destruct (suite_clean _ _ _ Hs) as (_ & _ & Cm).
  destruct (Cm c) as [ C1 C2 ]; [ apply in_or_app; left; apply (nth_error_In _ _ A) | ]. split; [ exact C1 | ]. split; [ exact HW | ]. destruct HW as (_ & _ & L & _). intros ->. cbn in L. lia.
Qed.
Lemma use_each_single (use : cmeta -> crisp -> list point -> dobj -> list (string * csv_file) * option exn) D at_ suite results (P : cmeta -> crisp -> list point -> csv_file -> Prop) :
  each suite results (fun c p ms => exists file, use c p ms (DObj PlainDTW (Some D) false) = ([(at_ c, file)], None) /\ P c p ms file) ->
  each suite results (fun c p ms => snd (use c p ms (DObj PlainDTW (Some D) false)) = None) /\
  each suite results (fun c p ms => let file := hd [] (map snd (fst (use c p ms (DObj PlainDTW (Some D) false)))) in
     fst (use c p ms (DObj PlainDTW (Some D) false)) = [(at_ c, file)] /\ P c p ms file).
Proof. intros H. split; intros i c p ms A B; destruct (H i c p ms A B) as (file & E & HP); cbn beta; rewrite E; cbn; auto. Qed.

(** C128: arima/training_error_analysis.py writes one table for each clustering of the suite of the experiment: for each cluster and each
    order of the experiment the size of the cluster, the order, how many members have no model, and the errors of the forecasts of the
    last eight samples, for any number of workers and any schedule.  The partitions are saved and reported, saved ones are used again, and
    no other file changes. *)
Theorem C128_written : forall M choice env create_instance format_coverage fit forecast sqrt workers junk ran (w : world M) t region r d sc D dist experiment oid ty sid suite results
    orders et func (mo : pdq -> point -> option M) fo err,
  let kind := arima_kind fit forecast in
  ready env create_instance region r d sc D dist -> with_orders experiment oid ty sid -> get_suite ty sid = Ok suite -> arima_suite_by_name oid = Ok orders ->
  outcomes choice env (w_pickles w) r d sc D suite results ->
  8 <= a3t d -> workers_ok workers -> get_error_func et = Ok func ->
  each suite results (fun c p ms => forall i med order, nth_error ms i = Some med -> In order orders ->
    label_at p med (Z.of_nat i) /\
    (forall members, cluster_points p (a3x d) (a3y d) (Z.of_nat i) members -> forecasts kind (Some order) func d sc 8 members (mo order) (fo order) (err order)) /\
    analyzed kind sqrt (full2 (a3x d) (a3y d) (Some (Some order))) workers junk (TCluster (qregion d sc) p (Z.of_nat i)) med et
      (ran c (Z.of_nat i) (TCluster (qregion d sc) p (Z.of_nat i)) med order)) ->
  exists w' t', arima_error_analysis choice env create_instance format_coverage ran w t region experiment et = (w', t', None) /\
    tables_left t t' (fun c => arima_errors_at region c oid et) suite results (fun _ p ms file => orders_table sqrt (a3x d) (a3y d) p ms orders mo fo err file) /\
    partitions_left format_coverage w w' region suite results.
Proof.
  intros M choice env create fc fit forecast sqrt workers junk ran w t region r d sc D dist experiment oid ty sid suite results orders et func mo fo err kind Hready Hx Hs Ho Hout Hn Hw Hf Hall.
  pose proof Hready as (Hr & Hi & _). destruct (orders_metadata _ _ _ _ Hx) as (e & Ee & E1 & E2 & E3 & E4).
  unfold arima_error_analysis. rewrite Hr. cbn [bind]. rewrite Ee. cbn [bind]. rewrite E1, E2, E3, E4, Hs, Ho. cbn [bind]. rewrite Hi. cbn [bind py_assert String.eqb Ascii.eqb Bool.eqb].
  rewrite (load_ready env create region r d sc D dist Hready).
  destruct (suite_clean _ _ _ Hs) as (_ & _ & Cm). pose proof (forall2_length _ _ _ Hout) as Hlen.
  destruct (use_each_single (use_arima_errors r (qregion d sc) oid orders et ran) D (fun c => arima_errors_at region c oid et) suite results
     (fun _ p ms file => orders_table sqrt (a3x d) (a3y d) p ms orders mo fo err file)) as [ U1 U2 ].
  { intros i c p ms A B. destruct (medoids_nonempty _ _ _ _ _ _ _ ty sid suite results [] i c p ms ltac:(rewrite app_nil_r; exact Hs) Hout A B) as (Hc & HW & Hne).
    apply (orders_done fit forecast sqrt workers junk ran env create region r d sc D dist Hready et func Hn Hw Hf oid (orders_no_slash _ _ _ _ Hx) orders mo fo err c p ms _ None Hc HW Hne ltac:(intros i' j' med' order' Hi' Hj' _; apply (Hall i c p ms A B i' med' order' Hi' (nth_error_In _ _ Hj'))) eq_refl). }
  destruct (loaded_all choice env create fc region r d sc D dist Hready _ w t ty sid suite results Hs Hout U1) as (w' & E & L).
  exists w'. eexists. split; [ exact E | ]. split; [ | exact L ].
  eapply (all_files_single D _ _ _ t ty sid suite []); [ rewrite app_nil_r; exact Hs | exact Hlen | | exact U2 ].
  rewrite app_nil_r. intros c c' A B Ec. apply (clustering_at_inj region c c' _ _ (proj1 (Cm c A)) (proj1 (Cm c' B)) Ec).
Qed.
Print Assumptions C128_written.

(** C128: when the partition of a clustering cannot be computed, the tables and the partitions of the clusterings before it stay. *)
Theorem C128_failure_keeps_tables : forall M choice env create_instance format_coverage fit forecast sqrt workers junk ran (w : world M) t region r d sc D dist experiment oid ty sid
    before results c after orders et func (mo : pdq -> point -> option M) fo err e,
  let kind := arima_kind fit forecast in
  ready env create_instance region r d sc D dist -> with_orders experiment oid ty sid -> get_suite ty sid = Ok (before ++ c :: after)%list -> arima_suite_by_name oid = Ok orders ->
  outcomes choice env (w_pickles w) r d sc D before results ->
  8 <= a3t d -> workers_ok workers -> get_error_func et = Ok func ->
  each before results (fun c p ms => forall i med order, nth_error ms i = Some med -> In order orders ->
    label_at p med (Z.of_nat i) /\
    (forall members, cluster_points p (a3x d) (a3y d) (Z.of_nat i) members -> forecasts kind (Some order) func d sc 8 members (mo order) (fo order) (err order)) /\
    analyzed kind sqrt (full2 (a3x d) (a3y d) (Some (Some order))) workers junk (TCluster (qregion d sc) p (Z.of_nat i)) med et
      (ran c (Z.of_nat i) (TCluster (qregion d sc) p (Z.of_nat i)) med order)) ->
  (forall q, w_pickles w (saved_at region c) <> Some (FPartition q)) ->
  algorithm_partition_impl choice env c (Some (dmeta_of r)) (qregion d sc) true (DObj PlainDTW (Some D) false) = Raise e ->
  exists w' t', arima_error_analysis choice env create_instance format_coverage ran w t region experiment et = (w', t', Some e) /\
    tables_left t t' (fun c => arima_errors_at region c oid et) before results (fun _ p ms file => orders_table sqrt (a3x d) (a3y d) p ms orders mo fo err file) /\
    partitions_left format_coverage w w' region before results.
Proof.
  intros M choice env create fc fit forecast sqrt workers junk ran w t region r d sc D dist experiment oid ty sid before results c after orders et func mo fo err e kind Hready Hx Hs Ho Hout Hn Hw Hf Hall Hfresh Ea.
  pose proof Hready as (Hr & Hi & _). destruct (orders_metadata _ _ _ _ Hx) as (e' & Ee & E1 & E2 & E3 & E4).
  unfold arima_error_analysis. rewrite Hr. cbn [bind]. rewrite Ee. cbn [bind]. rewrite E1, E2, E3, E4, Hs, Ho. cbn [bind]. rewrite Hi. cbn [bind py_assert String.eqb Ascii.eqb Bool.eqb].
  rewrite (load_ready env create region r d sc D dist Hready).
  destruct (suite_clean _ _ _ Hs) as (_ & _ & Cm). pose proof (forall2_length _ _ _ Hout) as Hlen.
  destruct (use_each_single (use_arima_errors r (qregion d sc) oid orders et ran) D (fun c => arima_errors_at region c oid et) before results
     (fun _ p ms file => orders_table sqrt (a3x d) (a3y d) p ms orders mo fo err file)) as [ U1 U2 ].
  { intros i c' p ms A B. destruct (medoids_nonempty _ _ _ _ _ _ _ ty sid before results _ i c' p ms Hs Hout A B) as (Hc & HW & Hne).
    apply (orders_done fit forecast sqrt workers junk ran env create region r d sc D dist Hready et func Hn Hw Hf oid (orders_no_slash _ _ _ _ Hx) orders mo fo err c' p ms _ None Hc HW Hne ltac:(intros i' j' med' order' Hi' Hj' _; apply (Hall i c' p ms A B i' med' order' Hi' (nth_error_In _ _ Hj'))) eq_refl). }
  destruct (loaded_partition_fails choice env create fc region r d sc D dist Hready _ w t ty sid before results c after e Hs Hout U1 Hfresh Ea) as (w' & E & L).
  exists w'. eexists. split; [ exact E | ]. split; [ | exact L ].
  eapply (all_files_single D _ _ _ t ty sid before (c :: after)); [ exact Hs | exact Hlen | | exact U2 ].
  intros c1 c2 A B Ec. apply (clustering_at_inj region c1 c2 _ _ (proj1 (Cm c1 A)) (proj1 (Cm c2 B)) Ec).
Qed.
Print Assumptions C128_failure_keeps_tables.

(** one more table, after those of the clusterings before, when the program fails *)
Lemma fails_single {M} (choice : Z -> nat -> Z -> res (list Z)) (env : denv) (create_instance : rmeta -> res (stregion fnum)) (format_coverage : Q -> string)
    (region : string) (r : rmeta) (d : arr3 fnum) (sc : option (arr2 fnum * arr2 fnum)) (D : mat) (dist : point -> point -> fnum)
    use (suffix : cmeta -> string) (P : cmeta -> crisp -> list point -> csv_file -> Prop) (w : world M) t ty sid before results c after p ms file e :
  let at_ c := (clustering_at region c ++ suffix c)%string in
  ready env create_instance region r d sc D dist -> get_suite ty sid = Ok (before ++ c :: after)%list -> length before = length results ->
  outcomes choice env (w_pickles w) r d sc D (before ++ [c]) (results ++ [(p, ms)]) ->
  each before results (fun c p ms => exists file, use c p ms (DObj PlainDTW (Some D) false) = ([(at_ c, file)], None) /\ P c p ms file) ->
  use c p ms (DObj PlainDTW (Some D) false) = ([(at_ c, file)], Some e) ->
  exists w' t', each_clustering (with_partition choice env format_coverage r (qregion d sc) use) (World (w_pickles w) (w_texts w) (DObj PlainDTW (Some D) false)) t (before ++ c :: after)%list = (w', t', Some e) /\
    each before results (fun c' p' ms' => exists file, t' (at_ c') = Some file /\ P c' p' ms' file) /\
    t' (at_ c) = Some file /\
    (forall q, q <> at_ c -> each before results (fun c' _ _ => q <> at_ c') -> t' q = t q) /\
    partitions_left format_coverage w w' region (before ++ [c]) (results ++ [(p, ms)]).
Proof.
  intros at_ Hready Hs Hlen Ho Hu Hc. destruct (suite_clean _ _ _ Hs) as (_ & Nd & Cm). destruct (use_each_single use D at_ before results P Hu) as [ U1 U2 ].
  destruct (loaded_use_fails choice env create_instance format_coverage region r d sc D dist Hready use w t ty sid before results c after p ms e Hs Hlen Ho U1) as (w' & E & L); [ rewrite Hc; reflexivity | ].
  assert (TL : tables_left t (put_tables t (all_files D use before results)) at_ before results P).
  { eapply (all_files_single D _ _ _ t ty sid before (c :: after)); [ exact Hs | exact Hlen | | exact U2 ].
    intros c1 c2 A B Ec. apply (clustering_at_inj region c1 c2 _ _ (proj1 (Cm c1 A)) (proj1 (Cm c2 B)) Ec). }
  destruct TL as [ T1 T2 ]. rewrite Hc in E. cbn [fst] in E. exists w'. eexists. split; [ exact E | ].
  change (put_tables ?a [?b]) with (put_table a b) in *. unfold put_table. cbn [fst snd].
  split; [ | split; [ | split; [ | exact L ] ] ].
  - intros i c' p' ms' A B. destruct (T1 i c' p' ms' A B) as (f & F1 & F2). exists f. split; [ | exact F2 ].
    destruct (String.eqb_spec (at_ c') (at_ c)) as [ Ec | ]; [ | exact F1 ]. exfalso. assert (Hin : In c' before) by apply (nth_error_In _ _ A).
    destruct (clustering_at_inj region c' c _ _ (proj1 (Cm c' ltac:(apply in_or_app; left; exact Hin))) (proj1 (Cm c ltac:(apply in_or_app; right; left; reflexivity))) Ec) as [ Er _ ].
    rewrite map_app in Nd. cbn [map] in Nd. apply NoDup_remove_2 in Nd. apply Nd, in_or_app. left. rewrite <- Er. apply in_map, Hin.
  - rewrite String.eqb_refl. reflexivity.
  - intros q Hq1 Hq2. rewrite (proj2 (String.eqb_neq _ _) Hq1). apply T2, Hq2.
Qed.
Lemma outcomes_before {M} choice env (fs : fsys M) r d sc D before results c p ms : length before = length results ->
  outcomes choice env fs r d sc D (before ++ [c]) (results ++ [(p, ms)]) -> outcomes choice env fs r d sc D before results /\ with_medoids (a3x d) (a3y d) (c_k c) p ms.
Proof.
  intros Hlen Ho. split.
  - apply Forall2_app_inv_l in Ho. destruct Ho as (l1 & l2 & H1 & H2 & El). inversion H2 as [ | ? pm ? l0 ? Hnil ]; subst. inversion Hnil; subst. apply app_inj_tail in El. destruct El as [ -> _ ]. exact H1.
  - apply (outcomes_medoids choice env fs r d sc D (before ++ [c]) (results ++ [(p, ms)]) (length before) c p ms Ho).
    + rewrite nth_error_app2, Nat.sub_diag by lia. reflexivity.
    + rewrite Hlen, nth_error_app2, Nat.sub_diag by lia. reflexivity.
Qed.

(** C128: when an analysis fails, the table of its clustering has the rows of all analyses before it; the tables of the clusterings before
    stay, and the partition of the clustering is saved. *)
Theorem C128_rows_before_a_failure : forall M choice env create_instance format_coverage fit forecast sqrt workers junk ran (w : world M) t region r d sc D dist experiment oid ty sid
    before results c after p ms i j med order orders et func (mo : pdq -> point -> option M) fo err e,
  let kind := arima_kind fit forecast in
  let n := i * length orders + j in
  let made c p i med order := label_at p med (Z.of_nat i) /\
    (forall members, cluster_points p (a3x d) (a3y d) (Z.of_nat i) members -> forecasts kind (Some order) func d sc 8 members (mo order) (fo order) (err order)) /\
    analyzed kind sqrt (full2 (a3x d) (a3y d) (Some (Some order))) workers junk (TCluster (qregion d sc) p (Z.of_nat i)) med et
      (ran c (Z.of_nat i) (TCluster (qregion d sc) p (Z.of_nat i)) med order) in
  ready env create_instance region r d sc D dist -> with_orders experiment oid ty sid -> get_suite ty sid = Ok (before ++ c :: after)%list -> arima_suite_by_name oid = Ok orders ->
  length before = length results -> outcomes choice env (w_pickles w) r d sc D (before ++ [c]) (results ++ [(p, ms)]) ->
  8 <= a3t d -> workers_ok workers -> get_error_func et = Ok func ->
  each before results (fun c p ms => forall i med order, nth_error ms i = Some med -> In order orders -> made c p i med order) ->
  (forall i' j' med' order', nth_error ms i' = Some med' -> nth_error orders j' = Some order' -> i' * length orders + j' < n -> made c p i' med' order') ->
  nth_error ms i = Some med -> nth_error orders j = Some order -> ran c (Z.of_nat i) (TCluster (qregion d sc) p (Z.of_nat i)) med order = Raise e ->
  exists w' t' file, arima_error_analysis choice env create_instance format_coverage ran w t region experiment et = (w', t', Some e) /\
    each before results (fun c' p' ms' => exists file, t' (arima_errors_at region c' oid et) = Some file /\ orders_table sqrt (a3x d) (a3y d) p' ms' orders mo fo err file) /\
    t' (arima_errors_at region c oid et) = Some file /\ orders_rows sqrt (a3x d) (a3y d) p ms orders mo fo err n file /\
    (forall q, q <> arima_errors_at region c oid et -> each before results (fun c' _ _ => q <> arima_errors_at region c' oid et) -> t' q = t q) /\
    partitions_left format_coverage w w' region (before ++ [c]) (results ++ [(p, ms)]).
Proof.
  intros M choice env create fc fit forecast sqrt workers junk ran w t region r d sc D dist experiment oid ty sid before results c after p ms i j med order orders et func mo fo err e kind n made
    Hready Hx Hs Ho Hlen Hout Hn Hw Hf Hall Hmade Hi Hj Hran.
  pose proof Hready as (Hr & Hin & _). destruct (orders_metadata _ _ _ _ Hx) as (e' & Ee & E1 & E2 & E3 & E4).
  unfold arima_error_analysis. rewrite Hr. cbn [bind]. rewrite Ee. cbn [bind]. rewrite E1, E2, E3, E4, Hs, Ho. cbn [bind]. rewrite Hin. cbn [bind py_assert String.eqb Ascii.eqb Bool.eqb].
  rewrite (load_ready env create region r d sc D dist Hready). destruct (outcomes_before _ _ _ _ _ _ _ _ _ _ _ _ Hlen Hout) as [ Hob HW ]. destruct (suite_clean _ _ _ Hs) as (_ & _ & Cm).
  destruct (orders_done fit forecast sqrt workers junk ran env create region r d sc D dist Hready et func Hn Hw Hf oid (orders_no_slash _ _ _ _ Hx) orders mo fo err c p ms n (Some e)) as (file & Euse & Hrows).
  { apply Cm, in_or_app. right. left. reflexivity. } { exact HW. } { intros ->. destruct i; discriminate. } { exact Hmade. } { exists i, j, med, order. auto. }
  destruct (fails_single choice env create fc region r d sc D dist (use_arima_errors r (qregion d sc) oid orders et ran)
     (fun c => "arima-" ++ oid ++ "/error-analysis__" ++ c_repr c ++ "__" ++ oid ++ "__" ++ et ++ ".csv")%string
     (fun _ p ms file => orders_table sqrt (a3x d) (a3y d) p ms orders mo fo err file) w t ty sid before results c after p ms file e Hready Hs Hlen Hout) as (w' & t' & E & T1 & T2 & T3 & L).
  { intros i' c' p' ms' A B. destruct (medoids_nonempty _ _ _ _ _ _ _ ty sid before results _ i' c' p' ms' Hs Hob A B) as (Hc & HW' & Hne).
    apply (orders_done fit forecast sqrt workers junk ran env create region r d sc D dist Hready et func Hn Hw Hf oid (orders_no_slash _ _ _ _ Hx) orders mo fo err c' p' ms' _ None Hc HW' Hne); [ | reflexivity ].
    intros i1 j1 med1 order1 Hi1 Hj1 _. apply (Hall i' c' p' ms' A B i1 med1 order1 Hi1 (nth_error_In _ _ Hj1)). }
  { exact Euse. }
  exists w', t', file. split; [ exact E | ]. split; [ exact T1 | ]. split; [ exact T2 | ]. split; [ exact Hrows | ]. split; [ exact T3 | exact L ].
Qed.
Print Assumptions C128_rows_before_a_failure.

Lemma orders_experiment experiment e : dict_get String.eqb experiment arima_clusters_experiments = Ok e ->
  with_orders experiment (ce_models e) (ce_clustering_type e) (ce_suite_id e) \/ get_suite (ce_clustering_type e) (ce_suite_id e) = Raise KeyError.
Proof.
  intros H. apply dict_get_in in H. unfold arima_clusters_experiments in H. cbn [In] in H.
  destruct H as [ [= <- <-] | [ [= <- <-] | [ [= <- <-] | [] ] ] ]; [ left | left | right; reflexivity ]; (split; [ reflexivity | split; [ cbn; auto | split; reflexivity ] ]).
Qed.
Lemma orders_suite experiment oid ty sid : with_orders experiment oid ty sid -> exists suite orders, get_suite ty sid = Ok suite /\ arima_suite_by_name oid = Ok orders.
Proof.
  intros (_ & H & -> & ->). destruct (proj1 (C112_which_suites "kmedoids" "quick")) as [ H1 _ ]. destruct H1 as [ suite Hs ]; [ eexists; apply (kmedoids_quick 2 0); lia | ].
  exists suite. cbn [In] in H. destruct H as [ <- | [ <- | [] ] ]; eexists; (split; [ exact Hs | reflexivity ]).
Qed.
(** C128: an unknown region, an experiment that is not defined or names a suite of clusterings that does not exist (arima_whole_brazil),
    data that cannot be read or a distances file of another size ends the program before anything is written. *)
Theorem C128_nothing_written : forall M choice env create_instance format_coverage ran (w : world M) t region experiment et e,
  cannot_start_orders env create_instance region experiment e ->
  exists w', arima_error_analysis choice env create_instance format_coverage ran w t region experiment et = (w', t, Some e) /\
    (forall q, w_texts w' q = w_texts w q) /\ (forall q, w_pickles w' q = w_pickles w q).
Proof.
  intros M choice env create fc ran w t region experiment et e H. unfold arima_error_analysis.
  destruct H as [ Hr | (r & Hr & H) ]; [ rewrite Hr; cbn [bind]; eauto | ]. rewrite Hr. cbn [bind].
  destruct H as [ [ -> Hn ] | (oid & ty & sid & Hx & H) ].
  - destruct (dict_get String.eqb experiment arima_clusters_experiments) as [ x | x ] eqn:Ex; cbn [bind].
    + destruct (orders_experiment _ _ Ex) as [ H | -> ]; [ exfalso; apply (Hn _ _ _ H) | ]. cbn [bind]. eauto.
    + assert (x = KeyError); [ | subst x; eauto ]. clear - Ex. revert Ex. unfold arima_clusters_experiments. cbn [dict_get].
      repeat (destruct (String.eqb _ experiment); [ discriminate | ]). intros [= <-]. reflexivity.
  - destruct (orders_metadata _ _ _ _ Hx) as (x & Ee & E1 & E2 & E3 & E4). destruct (orders_suite _ _ _ _ Hx) as (suite & orders & Hs & Ho). rewrite Ee. cbn [bind].
    rewrite E1, E2, E3, E4, Hs, Ho. cbn [bind]. destruct H as [ -> | (spt & -> & Hb) ]; cbn [bind]; [ eauto | ]. cbn [py_assert String.eqb Ascii.eqb Bool.eqb bind].
    destruct (load_bad env r e Hb) as (o & El). rewrite El. eexists. split; [ reflexivity | ]. split; reflexivity.
Qed.
Print Assumptions C128_nothing_written.

(* ---------------------------------------------------------------- C129 *)
Local Notation simple := (PAutoArima 1 1 3 3 None true).
Section Search.
Context {M : Type} (fit : pdq -> list fnum -> res M) (order_of : M -> pdq) (aic_of : M -> fnum) (forecast : M -> nat -> res (list fnum)) (search : mparams -> list fnum -> res pdq).
Local Notation kind := (auto_arima_kind fit forecast search).
Context (sqrt : fnum -> fnum) (workers : option Z) (junk : fnum) (ran : cmeta -> Z -> stregion fnum -> point -> res experiment).
Context (env : denv) (create_instance : rmeta -> res (stregion fnum)) (region : string) (r : rmeta) (d : arr3 fnum) (sc : option (arr2 fnum * arr2 fnum)) (D : mat) (dist : point -> point -> fnum).
Context (Hready : ready env create_instance region r d sc D dist).
Context (et : string) (func : list fnum -> list fnum -> option (list fnum) -> res fnum) (Hn : 8 <= a3t d) (Hw : workers_ok workers) (Hf : get_error_func et = Ok func).
Context (mo : point -> option M) (fo : point -> list fnum) (err : point -> point -> fnum).
Local Notation x := (a3x d).
Local Notation y := (a3y d).
Local Notation spt := (qregion d sc).
Local Notation loaded := (DObj PlainDTW (Some D) false).
Local Notation use := (use_auto_arima_errors fit order_of aic_of forecast search r spt simple et ran).
Local Notation row p c i med := (auto_arima_cluster_row fit order_of aic_of forecast search p i (TCluster spt p i) med simple (ran c i (TCluster spt p i) med)).

Lemma search_use c p ms : has_char "/" (mode_of c) = false -> with_medoids x y (c_k c) p ms -> ms <> [] ->
  use c p ms loaded = (let '(file, e) := append_rows (map (fun '(i, med) => row p c (Z.of_nat i) med) (enumerate ms)) [auto_arima_result_header] in
                       ([(auto_arima_errors_at region c et, file)], e)).
Proof.
  intros Hc (V & K & L & G) Hne. pose proof Hready as (Hr & Hi & Hq & Hsp & Hl & HD & He). destruct (predefined_facts _ _ Hr) as (En & Hnm & _).
  unfold use_auto_arima_errors. rewrite (clusters_ok (fun _ _ _ => Raise ValueError) (fun _ _ => ""%string) r d sc D dist Hnm He p ms) by (try assumption; (split; [ exact V | split; [ congruence | auto ] ])).
  rewrite (auto_arima_errors_path_at c r et Hnm Hc), En.
  match goal with |- (let '(_, _) := append_rows ?a _ in _) = (let '(_, _) := append_rows ?b _ in _) => replace a with b; [ reflexivity | ] end.
  rewrite <- L. unfold zrange. rewrite Z.sub_0_r, Nat2Z.id, map_map. apply nth_error_same. intros i. rewrite !nth_error_map, enumerate_nth, nth_error_seq.
  destruct (Nat.ltb_spec i (length ms)) as [ Hlt | Hge ].
  - destruct (nth_error ms i) as [ med | ] eqn:Em; [ | apply nth_error_None in Em; lia ]. cbn [option_map]. f_equal. rewrite Nat.add_0_l, Z.add_0_l.
    rewrite (getitem_in _ i (HRegion ("cluster" ++ str_int (Z.of_nat i)) (TCluster spt p (Z.of_nat i)) (nth_error ms i) None))
      by (rewrite nth_error_map, nth_error_seq, (proj2 (Nat.ltb_lt _ _) Hlt); reflexivity).
    cbn [bind h_own h_region]. rewrite Em. reflexivity.
  - rewrite (proj2 (nth_error_None ms i)) by lia. reflexivity.
Qed.

Definition search_analyzed (c : cmeta) (p : crisp) (ms : list point) (n : nat) : Prop :=
  forall i med, nth_error ms i = Some med -> i < n ->
    label_at p med (Z.of_nat i) /\
    (forall members, cluster_points p x y (Z.of_nat i) members -> forecasts kind simple func d sc 8 members mo fo err) /\
    analyzed kind sqrt (full2 x y (Some simple)) workers junk (TCluster spt p (Z.of_nat i)) med et (ran c (Z.of_nat i) (TCluster spt p (Z.of_nat i)) med).
Lemma search_row c p ms n i med members : with_medoids x y (c_k c) p ms -> search_analyzed c p ms n -> nth_error ms i = Some med -> i < n -> cluster_points p x y (Z.of_nat i) members ->
  exists fe tf tc, error_summary sqrt members fo err med fe /\
    row p c (Z.of_nat i) med = Ok (let '(pp, dd, qq) := order_shown order_of (mo med) in
      [FInt (Z.of_nat i); FInt (Z.of_nat (length members)); FInt pp; FInt dd; FInt qq; FNum 3 (match mo med with Some m => aic_of m | None => NaN end);
       FInt (Z.of_nat (without_model mo members)); FNum 3 tf; FNum 3 tc; FNum 3 (fe_each fe); FNum 3 (fe_minimum fe); FNum 3 (fe_min_local fe);
       FNum 3 (fe_centroid fe); FNum 3 (fe_maximum fe)]).
Proof.
  intros (V & K & L & G) H Hi Hlt Hm. destruct (H i med Hi Hlt) as (Hl & Hfo & Ha). specialize (Hfo members Hm). pose proof Hready as (_ & _ & Hq & _).
  assert (Hmed : In med members).
  { rewrite (cluster_members _ _ _ _ _ V Hm). apply members_iff; [ exact V | ]. split; [ | exact Hl ]. rewrite Forall_forall in G. apply G, (nth_error_In _ _ Hi). }
  destruct (analyzed_result kind sqrt workers junk d sc p (Z.of_nat i) members simple et func mo fo err med Hq V Hm Hn Hw Hf Hfo Hmed) as (fe & models & Hfe & Et & Gm & Hr).
  apply Hr in Ha. destruct Ha as (tf & tc & E). exists fe, tf, tc. split; [ exact Hfe | ].
  unfold auto_arima_cluster_row. rewrite E. cbn [bind]. replace (t_x (TCluster spt p (Z.of_nat i))) with x by (symmetry; apply (c_x d sc (Some (p, Z.of_nat i)))).
  replace (t_y (TCluster spt p (Z.of_nat i))) with y by (symmetry; apply (c_y d sc (Some (p, Z.of_nat i)))).
  change (Z.of_nat DEFAULT_FORECAST_LENGTH) with 8%Z. rewrite Et. cbn [bind fst snd]. rewrite (Gm med Hmed). cbn [bind]. f_equal.
  rewrite (extract_order order_of (mo med)). unfold auto_arima_result_row. destruct (order_shown order_of (mo med)) as [ [ pp dd ] qq ]. cbn [ex_failed ex_forecast_time ex_compute_time ex_errors].
  replace (cluster_len p (Z.of_nat i)) with (length members); [ destruct (mo med); reflexivity | ].
  rewrite (cluster_len_spec p x y _ V), (cluster_members _ _ _ _ _ V Hm). f_equal. apply filter_ext_in. intros pt Hin. apply in_grid_iff in Hin. apply (has_lab_label_of p x y pt _ V Hin).
Qed.
Lemma search_done c p ms n (stop : option exn) : has_char "/" (mode_of c) = false -> with_medoids x y (c_k c) p ms -> ms <> [] -> search_analyzed c p ms n ->
  match stop with
  | None => n = length ms
  | Some e => exists med, nth_error ms n = Some med /\ ran c (Z.of_nat n) (TCluster spt p (Z.of_nat n)) med = Raise e
  end ->
  exists file, use c p ms loaded = ([(auto_arima_errors_at region c et, file)], stop) /\ search_rows sqrt order_of aic_of x y p ms mo fo err n file.
Proof.
  intros Hc HW Hne H Hstop. rewrite (search_use c p ms Hc HW Hne). pose proof HW as (V & K & L & G). set (all := map _ (enumerate ms)).
  assert (Hall : forall i, nth_error all i = option_map (fun med => row p c (Z.of_nat i) med) (nth_error ms i)) by (intros i; unfold all; rewrite nth_error_map, enumerate_nth; destruct (nth_error ms i); reflexivity).
  assert (Lall : length all = length ms) by (unfold all; rewrite map_length; unfold enumerate; rewrite combine_length, seq_length; lia).
  assert (Hok : forall i, i < n -> i < length ms -> exists v, nth_error all i = Some (Ok v)).
  { intros i Hlt Hi. rewrite Hall. destruct (nth_error ms i) as [ med | ] eqn:Em; [ | apply nth_error_None in Em; lia ]. cbn [option_map].
    destruct (search_row c p ms n i med _ HW H Em Hlt (cluster_members_ok p x y _ V)) as (fe & tf & tc & _ & ->). eauto. }
  assert (Hle : n <= length ms) by (destruct stop; [ destruct Hstop as (med & Em & _); assert (n < length ms) by (apply nth_error_Some; congruence); lia | lia ]).
  assert (Hrow : forall done more, all = (map Ok done ++ more)%list -> length done = n -> search_rows sqrt order_of aic_of x y p ms mo fo err n (auto_arima_result_header :: done)).
  { intros done more Ed El. exists done. split; [ reflexivity | ]. split; [ exact El | ]. intros i med members Hi Hm Hlt.
    destruct (search_row c p ms n i med members HW H Hi Hlt Hm) as (fe & tf & tc & Hfe & Er). exists fe, tf, tc. split; [ exact Hfe | ].
    pose proof (Hall i) as Hi'. rewrite Hi in Hi'. cbn [option_map] in Hi'. rewrite Er, Ed, nth_error_app1, nth_error_map in Hi' by (rewrite map_length; lia).
    destruct (nth_error done i) as [ v | ]; [ | discriminate ]. cbn [option_map] in Hi'. destruct (order_shown order_of (mo med)) as [ [ pp dd ] qq ]. congruence. }
  destruct (append_rows_cases all [auto_arima_result_header]) as (done & [ [ E Ed ] | (e & more & E & Ed) ]); rewrite E.
  - assert (El : length done = length ms) by (rewrite <- Lall, Ed, map_length; reflexivity). destruct stop as [ e | ].
    + exfalso. destruct Hstop as (med & Em & Er). pose proof (Hall n) as Hn'. rewrite Em, Ed, nth_error_map in Hn'. cbn [option_map] in Hn'. unfold auto_arima_cluster_row in Hn'. rewrite Er in Hn'. cbn [bind] in Hn'.
      destruct (nth_error done n); discriminate.
    + eexists. split; [ reflexivity | ]. apply (Hrow done []); [ rewrite app_nil_r; exact Ed | lia ].
  - assert (Hd : nth_error all (length done) = Some (Raise e)) by (rewrite Ed, nth_error_app2; rewrite map_length; [ rewrite Nat.sub_diag; reflexivity | lia ]).
    assert (Hd' : length done < length ms) by (rewrite <- Lall; apply nth_error_Some; congruence).
    assert (Hge : n <= length done) by (apply Nat.nlt_ge; intros Hlt; destruct (Hok _ Hlt Hd') as [ v Hv ]; congruence).
    destruct stop as [ e' | ]; [ | lia ]. destruct Hstop as (med & Em & Er).
    assert (Hn' : nth_error all n = Some (Raise e')) by (rewrite Hall, Em; cbn [option_map]; unfold auto_arima_cluster_row; rewrite Er; reflexivity).
    destruct (Nat.eq_dec n (length done)) as [ El | ].
    + replace e with e' by (rewrite El in Hn'; congruence). eexists. split; [ reflexivity | ]. apply (Hrow done (Raise e :: more)); [ exact Ed | congruence ].
    + exfalso. rewrite Ed, nth_error_app1, nth_error_map in Hn' by (rewrite map_length; lia). destruct (nth_error done n); discriminate.
Qed.
End Search.

(** C129: auto_arima/training_error_analysis.py writes one table for each clustering of the suite of the experiment: for each cluster its
    size, the order and the AIC of the model that the search finds at the medoid, how many members have no model, and the errors of the
    forecasts of the last eight samples, for any number of workers and any schedule.  The partitions are saved and reported, saved ones
    are used again, and no other file changes. *)
Theorem C129_written : forall M choice env create_instance format_coverage fit order_of aic_of forecast search sqrt workers junk ran (w : world M) t region r d sc D dist experiment ty sid suite results
    et func (mo : point -> option M) fo err,
  let kind := auto_arima_kind fit forecast search in
  ready env create_instance region r d sc D dist -> searched experiment ty sid -> get_suite ty sid = Ok suite ->
  outcomes choice env (w_pickles w) r d sc D suite results ->
  8 <= a3t d -> workers_ok workers -> get_error_func et = Ok func ->
  each suite results (fun c p ms => forall i med, nth_error ms i = Some med ->
    label_at p med (Z.of_nat i) /\
    (forall members, cluster_points p (a3x d) (a3y d) (Z.of_nat i) members -> forecasts kind simple func d sc 8 members mo fo err) /\
    analyzed kind sqrt (full2 (a3x d) (a3y d) (Some simple)) workers junk (TCluster (qregion d sc) p (Z.of_nat i)) med et
      (ran c (Z.of_nat i) (TCluster (qregion d sc) p (Z.of_nat i)) med)) ->
  exists w' t', auto_arima_error_analysis choice env create_instance format_coverage fit order_of aic_of forecast search ran w t region experiment et = (w', t', None) /\
    tables_left t t' (fun c => auto_arima_errors_at region c et) suite results (fun _ p ms file => search_table sqrt order_of aic_of (a3x d) (a3y d) p ms mo fo err file) /\
    partitions_left format_coverage w w' region suite results.
Proof.
  intros M choice env create fc fit order_of aic_of forecast search sqrt workers junk ran w t region r d sc D dist experiment ty sid suite results et func mo fo err kind Hready Hx Hs Hout Hn Hw Hf Hall.
  pose proof Hready as (Hr & Hi & _). unfold auto_arima_error_analysis. rewrite (searched_metadata region r experiment ty sid Hx Hr), Hs. cbn [bind]. rewrite Hi. cbn [bind py_assert String.eqb Ascii.eqb Bool.eqb].
  rewrite (load_ready env create region r d sc D dist Hready).
  destruct (suite_clean _ _ _ Hs) as (_ & _ & Cm). pose proof (forall2_length _ _ _ Hout) as Hlen.
  destruct (use_each_single (use_auto_arima_errors fit order_of aic_of forecast search r (qregion d sc) simple et ran) D (fun c => auto_arima_errors_at region c et) suite results
     (fun _ p ms file => search_table sqrt order_of aic_of (a3x d) (a3y d) p ms mo fo err file)) as [ U1 U2 ].
  { intros i c p ms A B. destruct (medoids_nonempty _ _ _ _ _ _ _ ty sid suite results [] i c p ms ltac:(rewrite app_nil_r; exact Hs) Hout A B) as (Hc & HW & Hne).
    apply (search_done fit order_of aic_of forecast search sqrt workers junk ran env create region r d sc D dist Hready et func Hn Hw Hf mo fo err c p ms _ None Hc HW Hne); [ intros i' med' Hi' _; apply (Hall i c p ms A B i' med' Hi') | reflexivity ]. }
  destruct (loaded_all choice env create fc region r d sc D dist Hready _ w t ty sid suite results Hs Hout U1) as (w' & E & L).
  exists w'. eexists. split; [ exact E | ]. split; [ | exact L ].
  eapply (all_files_single D _ _ _ t ty sid suite []); [ rewrite app_nil_r; exact Hs | exact Hlen | | exact U2 ].
  rewrite app_nil_r. intros c c' A B Ec. apply (clustering_at_inj region c c' _ _ (proj1 (Cm c A)) (proj1 (Cm c' B)) Ec).
Qed.
Print Assumptions C129_written.

(** C129: when the partition of a clustering cannot be computed, the tables and the partitions of the clusterings before it stay. *)
Theorem C129_failure_keeps_tables : forall M choice env create_instance format_coverage fit order_of aic_of forecast search sqrt workers junk ran (w : world M) t region r d sc D dist experiment ty sid
    before results c after et func (mo : point -> option M) fo err e,
  let kind := auto_arima_kind fit forecast search in
  ready env create_instance region r d sc D dist -> searched experiment ty sid -> get_suite ty sid = Ok (before ++ c :: after)%list ->
  outcomes choice env (w_pickles w) r d sc D before results ->
  8 <= a3t d -> workers_ok workers -> get_error_func et = Ok func ->
  each before results (fun c p ms => forall i med, nth_error ms i = Some med ->
    label_at p med (Z.of_nat i) /\
    (forall members, cluster_points p (a3x d) (a3y d) (Z.of_nat i) members -> forecasts kind simple func d sc 8 members mo fo err) /\
    analyzed kind sqrt (full2 (a3x d) (a3y d) (Some simple)) workers junk (TCluster (qregion d sc) p (Z.of_nat i)) med et
      (ran c (Z.of_nat i) (TCluster (qregion d sc) p (Z.of_nat i)) med)) ->
  (forall q, w_pickles w (saved_at region c) <> Some (FPartition q)) ->
  algorithm_partition_impl choice env c (Some (dmeta_of r)) (qregion d sc) true (DObj PlainDTW (Some D) false) = Raise e ->
  exists w' t', auto_arima_error_analysis choice env create_instance format_coverage fit order_of aic_of forecast search ran w t region experiment et = (w', t', Some e) /\
    tables_left t t' (fun c => auto_arima_errors_at region c et) before results (fun _ p ms file => search_table sqrt order_of aic_of (a3x d) (a3y d) p ms mo fo err file) /\
    partitions_left format_coverage w w' region before results.
Proof.
  intros M choice env create fc fit order_of aic_of forecast search sqrt workers junk ran w t region r d sc D dist experiment ty sid before results c after et func mo fo err e kind Hready Hx Hs Hout Hn Hw Hf Hall Hfresh Ea.
  pose proof Hready as (Hr & Hi & _). unfold auto_arima_error_analysis. rewrite (searched_metadata region r experiment ty sid Hx Hr), Hs. cbn [bind]. rewrite Hi. cbn [bind py_assert String.eqb Ascii.eqb Bool.eqb].
  rewrite (load_ready env create region r d sc D dist Hready).
  destruct (suite_clean _ _ _ Hs) as (_ & _ & Cm). pose proof (forall2_length _ _ _ Hout) as Hlen.
  destruct (use_each_single (use_auto_arima_errors fit order_of aic_of forecast search r (qregion d sc) simple et ran) D (fun c => auto_arima_errors_at region c et) before results
     (fun _ p ms file => search_table sqrt order_of aic_of (a3x d) (a3y d) p ms mo fo err file)) as [ U1 U2 ].
  { intros i c' p ms A B. destruct (medoids_nonempty _ _ _ _ _ _ _ ty sid before results _ i c' p ms Hs Hout A B) as (Hc & HW & Hne).
    apply (search_done fit order_of aic_of forecast search sqrt workers junk ran env create region r d sc D dist Hready et func Hn Hw Hf mo fo err c' p ms _ None Hc HW Hne); [ intros i' med' Hi' _; apply (Hall i c' p ms A B i' med' Hi') | reflexivity ]. }
  destruct (loaded_partition_fails choice env create fc region r d sc D dist Hready _ w t ty sid before results c after e Hs Hout U1 Hfresh Ea) as (w' & E & L).
  exists w'. eexists. split; [ exact E | ]. split; [ | exact L ].
  eapply (all_files_single D _ _ _ t ty sid before (c :: after)); [ exact Hs | exact Hlen | | exact U2 ].
  intros c1 c2 A B Ec. apply (clustering_at_inj region c1 c2 _ _ (proj1 (Cm c1 A)) (proj1 (Cm c2 B)) Ec).
Qed.
Print Assumptions C129_failure_keeps_tables.

(** C129: when the analysis of a cluster fails, the table of its clustering has the rows of the clusters before it; the tables of the
    clusterings before stay, and the partition of the clustering is saved. *)
Theorem C129_rows_before_a_failure : forall M choice env create_instance format_coverage fit order_of aic_of forecast search sqrt workers junk ran (w : world M) t region r d sc D dist experiment ty sid
    before results c after p ms n med et func (mo : point -> option M) fo err e,
  let kind := auto_arima_kind fit forecast search in
  let made c p i med := label_at p med (Z.of_nat i) /\
    (forall members, cluster_points p (a3x d) (a3y d) (Z.of_nat i) members -> forecasts kind simple func d sc 8 members mo fo err) /\
    analyzed kind sqrt (full2 (a3x d) (a3y d) (Some simple)) workers junk (TCluster (qregion d sc) p (Z.of_nat i)) med et
      (ran c (Z.of_nat i) (TCluster (qregion d sc) p (Z.of_nat i)) med) in
  ready env create_instance region r d sc D dist -> searched experiment ty sid -> get_suite ty sid = Ok (before ++ c :: after)%list ->
  length before = length results -> outcomes choice env (w_pickles w) r d sc D (before ++ [c]) (results ++ [(p, ms)]) ->
  8 <= a3t d -> workers_ok workers -> get_error_func et = Ok func ->
  each before results (fun c p ms => forall i med, nth_error ms i = Some med -> made c p i med) ->
  (forall i' med', nth_error ms i' = Some med' -> i' < n -> made c p i' med') ->
  nth_error ms n = Some med -> ran c (Z.of_nat n) (TCluster (qregion d sc) p (Z.of_nat n)) med = Raise e ->
  exists w' t' file, auto_arima_error_analysis choice env create_instance format_coverage fit order_of aic_of forecast search ran w t region experiment et = (w', t', Some e) /\
    each before results (fun c' p' ms' => exists file, t' (auto_arima_errors_at region c' et) = Some file /\ search_table sqrt order_of aic_of (a3x d) (a3y d) p' ms' mo fo err file) /\
    t' (auto_arima_errors_at region c et) = Some file /\ search_rows sqrt order_of aic_of (a3x d) (a3y d) p ms mo fo err n file /\
    (forall q, q <> auto_arima_errors_at region c et -> each before results (fun c' _ _ => q <> auto_arima_errors_at region c' et) -> t' q = t q) /\
    partitions_left format_coverage w w' region (before ++ [c]) (results ++ [(p, ms)]).
Proof.
  intros M choice env create fc fit order_of aic_of forecast search sqrt workers junk ran w t region r d sc D dist experiment ty sid before results c after p ms n med et func mo fo err e kind made Hready Hx Hs Hlen Hout Hn Hw Hf Hall Hmade Hmed Hran.
  pose proof Hready as (Hr & Hi & _). unfold auto_arima_error_analysis. rewrite (searched_metadata region r experiment ty sid Hx Hr), Hs. cbn [bind]. rewrite Hi. cbn [bind py_assert String.eqb Ascii.eqb Bool.eqb].
  rewrite (load_ready env create region r d sc D dist Hready).
  destruct (outcomes_before _ _ _ _ _ _ _ _ _ _ _ _ Hlen Hout) as [ Hob HW ]. destruct (suite_clean _ _ _ Hs) as (_ & _ & Cm).
  destruct (search_done fit order_of aic_of forecast search sqrt workers junk ran env create region r d sc D dist Hready et func Hn Hw Hf mo fo err c p ms n (Some e)) as (file & Euse & Hrows).
  { apply Cm, in_or_app. right. left. reflexivity. } { exact HW. } { intros ->. destruct n; discriminate. } { exact Hmade. } { exists med. auto. }
  destruct (fails_single choice env create fc region r d sc D dist (use_auto_arima_errors fit order_of aic_of forecast search r (qregion d sc) simple et ran)
     (fun c => simple_search ++ "/error-analysis__" ++ c_repr c ++ "__" ++ simple_search ++ "__" ++ et ++ ".csv")%string
     (fun _ p ms file => search_table sqrt order_of aic_of (a3x d) (a3y d) p ms mo fo err file) w t ty sid before results c after p ms file e Hready Hs Hlen Hout) as (w' & t' & E & T1 & T2 & T3 & L).
  { intros i' c' p' ms' A B. destruct (medoids_nonempty _ _ _ _ _ _ _ ty sid before results _ i' c' p' ms' Hs Hob A B) as (Hc & HW' & Hne).
    apply (search_done fit order_of aic_of forecast search sqrt workers junk ran env create region r d sc D dist Hready et func Hn Hw Hf mo fo err c' p' ms' _ None Hc HW' Hne); [ | reflexivity ].
    intros i1 med1 Hi1 _. apply (Hall i' c' p' ms' A B i1 med1 Hi1). }
  { exact Euse. }
  exists w', t', file. split; [ exact E | ]. split; [ exact T1 | ]. split; [ exact T2 | ]. split; [ exact Hrows | ]. split; [ exact T3 | exact L ].
Qed.
Print Assumptions C129_rows_before_a_failure.

(** C129: an unknown region, an unknown experiment, data that cannot be read or a distances file of another size ends the program before
    anything is written. *)
Theorem C129_nothing_written : forall M choice env create_instance format_coverage fit order_of aic_of forecast search ran (w : world M) t region experiment et e,
  cannot_start env create_instance region experiment e ->
  exists w', auto_arima_error_analysis choice env create_instance format_coverage fit order_of aic_of forecast search ran w t region experiment et = (w', t, Some e) /\
    (forall q, w_texts w' q = w_texts w q) /\ (forall q, w_pickles w' q = w_pickles w q).
Proof.
  intros M choice env create fc fit order_of aic_of forecast search ran w t region experiment et e H. unfold auto_arima_error_analysis.
  destruct H as [ Hr | (r & Hr & H) ]; [ unfold auto_arima_metadata; rewrite Hr; cbn [bind]; eauto | ].
  destruct H as [ [ -> Hn ] | (ty & sid & Hx & H) ]; [ rewrite (unknown_experiment region r experiment Hr Hn); cbn [bind]; eauto | ].
  rewrite (searched_metadata region r experiment ty sid Hx Hr). destruct (searched_suite _ _ _ Hx) as (suite & Hs & Hne). rewrite Hs. cbn [bind].
  destruct H as [ -> | (spt & -> & Hb) ]; cbn [bind]; [ eauto | ]. cbn [py_assert String.eqb Ascii.eqb Bool.eqb bind]. destruct (load_bad env r e Hb) as (o & El). rewrite El.
  eexists. split; [ reflexivity | ]. split; reflexivity.
Qed.
Print Assumptions C129_nothing_written.

(* ---------------------------------------------------------------- a region with ten samples; one point has no model, the others repeat their first sample *)
Lemma analyzed_summary {P M} (kind : model_kind P M) sqrt workers junk (d : arr3 fnum) sc p i ap et func mo fo err med tf tc :
  let members := filter (has_lab p i) (grid (a3x d) (a3y d)) in
  qwf d sc -> valid_partition p (a3x d) (a3y d) -> 8 <= a3t d -> workers_ok workers -> get_error_func et = Ok func ->
  forecasts kind ap func d sc 8 members mo fo err -> In med members ->
  analyzed kind sqrt (full2 (a3x d) (a3y d) (Some ap)) workers junk (TCluster (qregion d sc) p i) med et
    (Ok (Experiment (summary sqrt d (Some (p, i)) fo err med) (without_model mo members) tf tc)).
Proof.
  intros members Hq Hv Hn Hw Hf [ H1 H2 ] Hmed.
  destruct (analysis_run kind sqrt workers junk d sc (Some (p, i)) ap 8 Hq Hv Hn et func Hf mo fo err H1 H2 med (Raise ValueError) new_analysis Hw Hmed) as (_ & (a' & Ha) & models & E & G).
  exists (Ok (summary sqrt d (Some (p, i)) fo err med)), a', tf, tc. split; [ exact Ha | ]. cbn [bind]. change DEFAULT_FORECAST_LENGTH with 8. cbn [creg] in E. rewrite E. reflexivity.
Qed.
Definition ex27_d : arr3 fnum := mk3 10 7 10 (map (fun z => Fin (inject_Z z)) (zrange 0 700)).
Definition ex27_fit (order : pdq) (s : list fnum) : res fnum := match s with Fin 0 :: _ => Raise ValueError | v :: _ => Ok v | [] => Raise ValueError end.
Definition ex27_series (pt : point) : list fnum := match series3 ex27_d (fst pt) (snd pt) with Ok s => s | Raise _ => [] end.
Definition ex27_model (pt : point) : option fnum := match ex27_series pt with Fin 0 :: _ => None | v :: _ => Some v | [] => None end.
Definition ex27_forecasts (pt : point) : list fnum := repeat (match ex27_model pt with Some m => m | None => NaN end) 8.
Definition ex27_error (q pt : point) : fnum :=
  match mse (ex27_forecasts q) (skipn 2 (ex27_series pt)) (Some (firstn 2 (ex27_series pt))) with Ok v => v | Raise _ => NaN end.
Lemma ex27_ready : exists r, ready ex7_env (fun _ => Ok (qregion ex27_d None)) "nordeste_small_2015_2015_1spd" r ex27_d None ex7_matrix (fun q pt => Fin (ex7_dist q pt)).
Proof.
  destruct ex7_ready as (r & A & B & C & E & F & G & H). exists r. split; [ exact A | ]. split; [ reflexivity | ]. split; [ split; [ reflexivity | exact I ] | ]. split; [ exact E | ]. split; [ exact F | ].
  split; [ exact G | exact H ].
Qed.
Lemma ex27_ser pt : in_grid 7 10 pt -> series3 ex27_d (fst pt) (snd pt) = Ok (ex27_series pt) /\ length (ex27_series pt) = 10.
Proof. intros Hg. assert (Hw : wf3 ex27_d) by reflexivity. destruct (ser_ok ex27_d pt Hw Hg) as (a & Ea & La). unfold ex27_series. cbn [series_at] in Ea. rewrite Ea. auto. Qed.
Lemma ex27_known {P} (kind : model_kind P fnum) (ap : P) members :
  (forall v s, training_function kind ap (v :: s) = match v with Fin 0 => Ok None | _ => Ok (Some v) end) ->
  (forall m, forecast_by kind (Some m) 8 = Ok (repeat m 8)) -> forecast_by kind None 8 = Ok (repeat NaN 8) ->
  Forall (in_grid 7 10) members -> forecasts kind ap mse ex27_d None 8 members ex27_model ex27_forecasts ex27_error.
Proof.
  intros Ht Hfc Hn Hall. rewrite Forall_forall in Hall. split.
  - intros pt Hp. destruct (ex27_ser pt (Hall pt Hp)) as [ E L ]. split; [ | apply repeat_length ]. exists (ex27_series pt). split; [ exact E | ]. rewrite L. unfold ex27_forecasts, ex27_model.
    destruct (ex27_series pt) as [ | v s ]; [ discriminate | ]. cbn [Nat.sub firstn]. rewrite Ht. split.
    + destruct v as [ | | | [ [ | ? | ? ] [ ? | ? | ] ] ]; reflexivity.
    + destruct v as [ | | | [ [ | ? | ? ] [ ? | ? | ] ] ]; try apply Hfc; apply Hn.
  - intros q pt _ Hp. destruct (ex27_ser pt (Hall pt Hp)) as [ E L ]. exists (ex27_series pt), (ex27_forecasts q), (firstn 2 (ex27_series pt)), (skipn 2 (ex27_series pt)).
    rewrite L. split; [ exact E | ]. split; [ reflexivity | ]. split; [ reflexivity | ]. split; [ reflexivity | ].
    unfold ex27_error, ex27_forecasts, mse. generalize (match ex27_model q with Some m => m | None => NaN end). clear E. revert L. generalize (ex27_series pt). intros s L v.
    destruct s as [ | a0 [ | a1 [ | a2 [ | a3 [ | a4 [ | a5 [ | a6 [ | a7 [ | a8 [ | a9 [ | ] ] ] ] ] ] ] ] ] ] ]; try discriminate L. reflexivity.
Qed.
Lemma ex27_computed r suite : ready ex7_env (fun _ => Ok (qregion ex27_d None)) "nordeste_small_2015_2015_1spd" r ex27_d None ex7_matrix (fun q pt => Fin (ex7_dist q pt)) ->
  get_suite "kmedoids" "quick" = Ok suite ->
  exists results, outcomes ex7_choice ex7_env (fun _ => None : option (@file fnum)) r ex27_d None ex7_matrix suite results /\
    each suite results (fun c p ms => valid_partition p 7 10 /\ 2 <= length ms /\ forall i med, nth_error ms i = Some med -> in_grid 7 10 med /\ label_at p med (Z.of_nat i)).
Proof.
  intros Hready Hs.
  destruct (C117_kmedoids_suite fnum ex7_choice ex7_env (fun _ => Ok (qregion ex27_d None)) (fun _ => None) _ r ex27_d None ex7_matrix _ "quick" suite Hready Hs) as (results & Ho & Hc).
  - intros c _ q. discriminate.
  - reflexivity.
  - intros q _. unfold ex7_dist. rewrite Z.sub_diag. reflexivity.
  - intros q pt. apply ex7_pos.
  - intros c Hc. apply (proj1 (C112_suites _ _ _ Hs)) in Hc. inversion Hc; subst. eexists _, (zrange 0 k). split; [ reflexivity | ].
    cbn [c_k kmeta_default km_k]. assert (k = 2 \/ k = 3)%Z as [ -> | -> ] by lia; (split; [ reflexivity | ]; split; [ cbn; lia | ]; split; [ reflexivity | ];
      split; [ left; reflexivity | ]; split; [ reflexivity | ]; split; [ reflexivity | ]; split; [ apply zrange_nodup | ]; intros i Hin; apply in_zrange in Hin; cbn; lia).
  - exists results. split; [ exact Ho | ]. intros i c p ms A B. pose proof (outcomes_medoids _ _ _ _ _ _ _ _ _ _ _ _ _ Ho A B) as (V & _ & L & G). rewrite Forall_forall in G. split; [ exact V | ].
    destruct (suite_clean _ _ _ Hs) as (_ & _ & Cm). split; [ pose proof (proj2 (Cm c (nth_error_In _ _ A))); lia | ].
    intros j med Hj. assert (Hg : in_grid 7 10 med) by (apply G, (nth_error_In _ _ Hj)). split; [ exact Hg | ].
    pose proof (Forall2_in _ _ _ Hc (c, (p, ms)) (nth_error_In _ i (combine_nth_error _ _ _ _ _ A B))) as HC. cbn [fst snd] in HC.
    destruct HC as (_ & _ & _ & Ndm & _ & HN). destruct (HN med Hg) as (i' & Hl & (m & Em & Hle & _)). assert (m = med).
    { assert (Hdec : m = med \/ m <> med). { destruct m as [ a b ], med as [ a' b' ]. destruct (Z.eq_dec a a'), (Z.eq_dec b b'); subst; auto; right; congruence. }
      destruct Hdec as [ -> | Hne ]; [ reflexivity | exfalso ]. pose proof (Hle j med Hj) as Q1. pose proof (ex7_pos m med (G m (nth_error_In _ _ Em)) Hg Hne) as Q2.
      replace (ex7_dist med med) with (0 # 1)%Q in Q1 by (unfold ex7_dist; rewrite Z.sub_diag; reflexivity). pose proof (flt_le_trans _ _ _ Q2 Q1) as Q. discriminate Q. }
    subst m. rewrite NoDup_nth_error in Ndm. replace j with i'; [ exact Hl | ]. apply Ndm; [ apply nth_error_Some; congruence | congruence ].
Qed.
(** the results of the analyses, with some times *)
Definition ex27_ran (cluster : stregion fnum) (med : point) : res experiment :=
  match cluster with
  | TCluster _ p i => Ok (Experiment (summary (fun v => v) ex27_d (Some (p, i)) ex27_forecasts ex27_error med) (without_model ex27_model (filter (has_lab p i) (grid 7 10))) (Fin 1) (Fin 2))
  | _ => Raise ValueError
  end.
Lemma ex27_made {P} (kind : model_kind P fnum) (ap : P) p i med : valid_partition p 7 10 -> in_grid 7 10 med -> label_at p med (Z.of_nat i) ->
  (forall v s, training_function kind ap (v :: s) = match v with Fin 0 => Ok None | _ => Ok (Some v) end) ->
  (forall m, forecast_by kind (Some m) 8 = Ok (repeat m 8)) -> forecast_by kind None 8 = Ok (repeat NaN 8) ->
  label_at p med (Z.of_nat i) /\
  (forall members, cluster_points p 7 10 (Z.of_nat i) members -> forecasts kind ap mse ex27_d None 8 members ex27_model ex27_forecasts ex27_error) /\
  analyzed kind (fun v => v) (full2 7 10 (Some ap)) (Some 4%Z) (Fin 7) (TCluster (qregion ex27_d None) p (Z.of_nat i)) med "MSE" (ex27_ran (TCluster (qregion ex27_d None) p (Z.of_nat i)) med).
Proof.
  intros V Hg Hl H1 H2 H3. split; [ exact Hl | ]. assert (K : forall members, cluster_points p 7 10 (Z.of_nat i) members -> forecasts kind ap mse ex27_d None 8 members ex27_model ex27_forecasts ex27_error).
  { intros members Hm. apply ex27_known; auto. apply Forall_forall. intros pt Hin. rewrite (cluster_members _ _ _ _ _ V Hm) in Hin. apply (members_iff p 7 10 _ V) in Hin. apply Hin. }
  split; [ exact K | ]. unfold ex27_ran. apply (analyzed_summary kind (fun v => v) (Some 4%Z) (Fin 7) ex27_d None p (Z.of_nat i) ap "MSE" mse).
  - split; [ reflexivity | exact I ].
  - exact V.
  - cbn. lia.
  - cbn. lia.
  - reflexivity.
  - apply K, cluster_members_ok, V.
  - apply (members_iff p 7 10 _ V). auto.
Qed.
Example C127_ex : exists p i members med, valid_partition p 7 10 /\ cluster_points p 7 10 i members /\ In med members /\ 2 <= length members /\ without_model ex27_model members = 1 /\
  forecasts (arima_kind ex27_fit ex25_forecast) (Some (1, 0, 1)%Z) mse ex27_d None 8 members ex27_model ex27_forecasts ex27_error.
Proof.
  assert (V : valid_partition (Crisp (full2 7 10 0%Z) 1) 7 10).
  { split; [ reflexivity | ]. split; [ reflexivity | ]. split; [ reflexivity | ]. split.
    - intros [ a b ] l Hg Hlab. unfold label_at, get2 in Hlab. cbn [labels full2 a2x a2y a2d fst snd pk] in *.
      destruct (norm_index 7 a) as [ i | ]; [ | discriminate ]. destruct (norm_index 10 b) as [ j | ]; [ | discriminate ].
      destruct (nth_error (repeat 0%Z (7 * 10)) (i * 10 + j)) as [ v | ] eqn:E; [ | discriminate ]. injection Hlab as <-. apply nth_error_In in E. apply repeat_spec in E. lia.
    - exists (0, 0)%Z. split; [ split; cbn; lia | reflexivity ]. }
  exists (Crisp (full2 7 10 0%Z) 1), 0%Z, (filter (has_lab (Crisp (full2 7 10 0%Z) 1) 0) (grid 7 10)), (0, 0)%Z. split; [ exact V | ]. split; [ apply cluster_members_ok, V | ].
  split; [ vm_compute; left; reflexivity | ]. split; [ vm_compute; lia | ]. split; [ vm_compute; reflexivity | ].
  apply ex27_known; [ | reflexivity | reflexivity | apply Forall_forall; intros pt Hin; apply (members_iff _ 7 10 _ V) in Hin; apply Hin ].
  intros v s. destruct v as [ | | | [ [ | ? | ? ] [ ? | ? | ] ] ]; reflexivity.
Qed.
Example C128_ex : exists r suite results w' t',
  ready ex7_env (fun _ => Ok (qregion ex27_d None)) "nordeste_small_2015_2015_1spd" r ex27_d None ex7_matrix (fun q pt => Fin (ex7_dist q pt)) /\
  get_suite "kmedoids" "quick" = Ok suite /\ length suite = 4 /\
  arima_error_analysis ex7_choice ex7_env (fun _ => Ok (qregion ex27_d None)) (fun _ => "v"%string) (fun _ _ cluster med _ => ex27_ran cluster med)
    (World (fun _ => None : option (@file fnum)) (fun _ => None) (fresh PlainDTW)) (fun _ => None) "nordeste_small_2015_2015_1spd" "arima_two_quick" "MSE" = (w', t', None) /\
  each suite results (fun c p ms => 2 <= length ms) /\
  tables_left (fun _ => None) t' (fun c => arima_errors_at "nordeste_small_2015_2015_1spd" c "arima_two" "MSE") suite results
    (fun _ p ms file => orders_table (fun v => v) 7 10 p ms [(2, 0, 1); (2, 0, 2)]%Z (fun _ => ex27_model) (fun _ => ex27_forecasts) (fun _ => ex27_error) file).
Proof.
  destruct ex27_ready as [ r Hready ]. exists r. destruct (get_suite "kmedoids" "quick") as [ suite | ] eqn:Hs; [ | discriminate ]. exists suite.
  assert (Hlen : length suite = 4) by (vm_compute in Hs; injection Hs as <-; reflexivity).
  destruct (ex27_computed r suite Hready Hs) as (results & Ho & Hc). exists results.
  assert (Hx : with_orders "arima_two_quick" "arima_two" "kmedoids" "quick") by (split; [ reflexivity | split; [ cbn; auto | split; reflexivity ] ]).
  destruct (C128_written fnum ex7_choice ex7_env (fun _ => Ok (qregion ex27_d None)) (fun _ => "v"%string) ex27_fit ex25_forecast (fun v => v) (Some 4%Z) (Fin 7) (fun _ _ cluster med _ => ex27_ran cluster med)
    (World (fun _ => None) (fun _ => None) (fresh PlainDTW)) (fun _ => None) _ r ex27_d None ex7_matrix _ _ _ _ _ suite results [(2, 0, 1); (2, 0, 2)]%Z "MSE" mse (fun _ => ex27_model) (fun _ => ex27_forecasts) (fun _ => ex27_error)
    Hready Hx Hs eq_refl Ho ltac:(cbn; lia) ltac:(cbn; lia) eq_refl) as (w' & t' & E & T & _).
  - intros i c p ms A B j med order Hj _. destruct (Hc i c p ms A B) as (V & _ & G). destruct (G j med Hj) as [ Hg Hl ].
    apply (ex27_made (arima_kind ex27_fit ex25_forecast) (Some order) p j med V Hg Hl); try reflexivity.
    intros v s. destruct v as [ | | | [ [ | ? | ? ] [ ? | ? | ] ] ]; reflexivity.
  - exists w', t'. repeat (split; [ assumption || reflexivity | ]). split; [ intros i c p ms A B; apply (Hc i c p ms A B) | exact T ].
Qed.
Example C129_ex : exists r suite results w' t',
  ready ex7_env (fun _ => Ok (qregion ex27_d None)) "nordeste_small_2015_2015_1spd" r ex27_d None ex7_matrix (fun q pt => Fin (ex7_dist q pt)) /\
  get_suite "kmedoids" "quick" = Ok suite /\ length suite = 4 /\
  auto_arima_error_analysis ex7_choice ex7_env (fun _ => Ok (qregion ex27_d None)) (fun _ => "v"%string) ex27_fit (fun _ => (1, 0, 1)%Z) (fun m => m) ex25_forecast ex25_search (fun _ _ => ex27_ran)
    (World (fun _ => None : option (@file fnum)) (fun _ => None) (fresh PlainDTW)) (fun _ => None) "nordeste_small_2015_2015_1spd" "simple_kmedoids_quick" "MSE" = (w', t', None) /\
  each suite results (fun c p ms => 2 <= length ms) /\
  tables_left (fun _ => None) t' (fun c => auto_arima_errors_at "nordeste_small_2015_2015_1spd" c "MSE") suite results
    (fun _ p ms file => search_table (fun v => v) (fun _ => (1, 0, 1)%Z) (fun m => m) 7 10 p ms ex27_model ex27_forecasts ex27_error file).
Proof.
  destruct ex27_ready as [ r Hready ]. exists r. destruct (get_suite "kmedoids" "quick") as [ suite | ] eqn:Hs; [ | discriminate ]. exists suite.
  assert (Hlen : length suite = 4) by (vm_compute in Hs; injection Hs as <-; reflexivity).
  destruct (ex27_computed r suite Hready Hs) as (results & Ho & Hc). exists results.
  assert (Hx : searched "simple_kmedoids_quick" "kmedoids" "quick") by (split; [ reflexivity | left; reflexivity ]).
  destruct (C129_written fnum ex7_choice ex7_env (fun _ => Ok (qregion ex27_d None)) (fun _ => "v"%string) ex27_fit (fun _ => (1, 0, 1)%Z) (fun m => m) ex25_forecast ex25_search (fun v => v) (Some 4%Z) (Fin 7) (fun _ _ => ex27_ran)
    (World (fun _ => None) (fun _ => None) (fresh PlainDTW)) (fun _ => None) _ r ex27_d None ex7_matrix _ _ _ _ suite results "MSE" mse ex27_model ex27_forecasts ex27_error
    Hready Hx Hs Ho ltac:(cbn; lia) ltac:(cbn; lia) eq_refl) as (w' & t' & E & T & _).
  - intros i c p ms A B j med Hj. destruct (Hc i c p ms A B) as (V & _ & G). destruct (G j med Hj) as [ Hg Hl ].
    apply (ex27_made (auto_arima_kind ex27_fit ex25_forecast ex25_search) simple p j med V Hg Hl); try reflexivity.
    intros v s. destruct v as [ | | | [ [ | ? | ? ] [ ? | ? | ] ] ]; reflexivity.
  - exists w', t'. repeat (split; [ assumption || reflexivity | ]). split; [ intros i c p ms A B; apply (Hc i c p ms A B) | exact T ].
Qed.
