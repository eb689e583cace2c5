(** C139: the training-error program that searches models, with --plots. *)
From Coq Require Import String Lia QArith.
From Verif Require Import Base.Py Base.PyFacts Base.Str Base.StrFacts Base.Arr Base.ArrFacts Base.Float Base.FloatFacts Base.Dict Model.Region Model.Series Model.Arrays Model.Errors Model.Models Model.Distance
  Model.KMedoids Model.Clustering Model.Variance Model.Solver Model.SolverFiles Model.Forecast Model.Results Model.Reports Model.Algorithms Model.Programs Model.Dnn Model.PartitionAnalysis
  Model.SuitePrograms Model.ErrorPlot Model.SearchPlots
  Spec.Grid Spec.Partition Spec.Distance Spec.Solver Spec.SolverFiles Spec.Algorithms Spec.Programs Spec.PartitionAnalysis Spec.Reports Spec.SuitePrograms Spec.TrainingErrors Spec.ErrorPlot Spec.SearchPlots
  Proofs.RegionFacts Proofs.PartitionFacts Proofs.ProperFacts Proofs.SolverFacts Proofs.DistanceFacts Proofs.DistanceObjFacts Proofs.VarianceFacts
  Proofs.ReportFacts Proofs.ClusteringFacts Proofs.NameFacts Proofs.ProgramFacts Proofs.FilesFacts Proofs.AnalysisFacts Proofs.SuiteFacts Proofs.AnalysisRunFacts
  Props.Clustering Props.SolverFiles Props.Programs Props.Reports Props.PartitionAnalysis Props.SuitePrograms Props.TrainingErrors Props.ErrorPlot Props.PlotsProgram.
From Coq Require Import ZifyBool ZifyNat.
Close Scope Q_scope.
Local Notation length := List.length.
Local Open Scope nat_scope.
Local Notation simple := (PAutoArima 1 1 3 3 None true).

Lemma search_plot_path_at c r et i order : has_char "/" (rm_name r) = false -> has_char "/" (mode_of c) = false ->
  auto_arima_plot_path c r simple et ("cluster" ++ str_int (Z.of_nat i)) order = search_picture_at (rmeta_repr r) c et i order.
Proof.
  intros Hr Hc. destruct order as [ [ p d ] q ]. unfold auto_arima_plot_path, search_picture_at, order_name. change (params_repr simple) with simple_search.
  rewrite clustering_path2; try assumption; try discriminate; try reflexivity. rewrite ?sapp_assoc. reflexivity.
Qed.

Section SearchPlots.
Context {M : Type} (fit : pdq -> list fnum -> res M) (order_of : M -> pdq) (aic_of : M -> fnum) (forecast : M -> nat -> res (list fnum)) (search : mparams -> list fnum -> res pdq).
Local Notation kind := (auto_arima_kind fit forecast search).
Context (sqrt : fnum -> fnum) (workers : option Z) (junk : fnum).
Context (ran : cmeta -> Z -> stregion fnum -> point -> res (experiment * (string -> string -> picture))).
Context (env : denv) (create_instance : rmeta -> res (stregion fnum)) (region : string) (r : rmeta) (d : arr3 fnum) (sc : option (arr2 fnum * arr2 fnum)) (D : mat) (dist : point -> point -> fnum).
Context (Hready : ready env create_instance region r d sc D dist).
Context (et : string) (func : list fnum -> list fnum -> option (list fnum) -> res fnum) (Hn : 8 <= a3t d) (Hw : workers_ok workers) (Hf : get_error_func et = Ok func).
Context (mo : point -> option M) (fo : point -> list fnum) (err : point -> point -> fnum).
Local Notation x := (a3x d).
Local Notation y := (a3y d).
Local Notation spt := (qregion d sc).
Local Notation loaded := (DObj PlainDTW (Some D) false).
Local Notation use := (use_auto_arima_errors_with_plots fit order_of aic_of forecast search r spt simple et ran).
Local Notation library_order := (fun m => Ok (order_of m)).

(** one analysis and its picture *)
Definition searched_and_drawn (c : cmeta) (p : crisp) (i : nat) (med : point) : Prop :=
  label_at p med (Z.of_nat i) /\
  (forall members, cluster_points p x y (Z.of_nat i) members -> forecasts kind simple func d sc 8 members mo fo err) /\
  analyzed_then_draws kind sqrt (full2 x y (Some simple)) workers junk env library_order (Some (dmeta_of r)) loaded (TCluster spt p (Z.of_nat i)) med et
    (ran c (Z.of_nat i) (TCluster spt p (Z.of_nat i)) med).

(** the step of a cluster *)
Definition search_step (c : cmeta) (p : crisp) (i : nat) (med : point) : res (list field * picture) :=
  auto_arima_cluster_step fit order_of aic_of forecast search p (Z.of_nat i) (TCluster spt p (Z.of_nat i)) med simple (search_picture_at region c et i) (c_repr c)
    (ran c (Z.of_nat i) (TCluster spt p (Z.of_nat i)) med).
Definition search_row_of (i : nat) (med : point) (members : list point) (fe : forecast_errors) (tf tc : fnum) : list field :=
  let '(pp, dd, qq) := order_shown order_of (mo med) in
  [FInt (Z.of_nat i); FInt (Z.of_nat (length members)); FInt pp; FInt dd; FInt qq; FNum 3 (match mo med with Some m => aic_of m | None => NaN end);
   FInt (Z.of_nat (without_model mo members)); FNum 3 tf; FNum 3 tc; FNum 3 (fe_each fe); FNum 3 (fe_minimum fe); FNum 3 (fe_min_local fe);
   FNum 3 (fe_centroid fe); FNum 3 (fe_maximum fe)].

Lemma search_step_result c p ms i med members : with_medoids x y (c_k c) p ms -> nth_error ms i = Some med -> searched_and_drawn c p i med -> cluster_points p x y (Z.of_nat i) members ->
  exists fe tf tc, error_summary sqrt members fo err med fe /\
    search_step c p i med =
      Ok (search_row_of i med members fe tf tc,
          match mo med with
          | Some m => (complete_picture members (dist med) (err med) (order_of m) et (c_repr c) (Some (search_picture_at region c et i (order_of m))), None)
          | None => ([Points (map (dist med) members) (map (err med) members)], Some AttributeError)
          end).
Proof.
  intros (V & K & L & G) Hi (Hl & Hfo & Ha) Hm. specialize (Hfo members Hm). pose proof Hready as (_ & _ & Hq & _ & _ & HD & He).
  assert (Hg : in_grid x y med) by (rewrite Forall_forall in G; apply G, (nth_error_In _ _ Hi)).
  assert (Hmem : forall pt, In pt members <-> in_grid x y pt /\ label_at p pt (Z.of_nat i)) by (intros pt; rewrite (cluster_members _ _ _ _ _ V Hm); apply members_iff, V).
  assert (Hmed : In med members) by (apply Hmem; auto).
  destruct Ha as (errors & a' & tf & tc & Ha & E).
  destruct (analyzed_result kind sqrt workers junk d sc p (Z.of_nat i) members simple et func mo fo err med Hq V Hm Hn Hw Hf Hfo Hmed) as (fe & models & Hfe & Et & Gm & _).
  destruct (C127_cluster _ M kind sqrt workers junk d sc p (Z.of_nat i) members simple 8 et func mo fo err med Hq V Hm Hn Hw Hf Hfo Hmed) as (fe' & Hfe' & _ & Hd).
  rewrite (Hd errors a' Ha) in E. cbn [bind] in E. change (Z.of_nat DEFAULT_FORECAST_LENGTH) with 8%Z in E. rewrite Et in E. cbn [bind snd] in E. destruct E as (draw & E & Hdraw).
  destruct (C134_picture _ M kind sqrt workers junk env library_order (Some (dmeta_of r)) loaded D d sc p (Z.of_nat i) members simple 8 et func mo fo err med errors a'
    Hq V Hm Hn Hf Hfo Hmed eq_refl HD Ha) as (dist' & Hdist & Hpic).
  assert (Ed : map dist' members = map (dist med) members).
  { apply map_ext_in. intros pt Hp. pose proof (Hdist pt Hp) as Q. rewrite He in Q by (try assumption; apply Hmem, Hp). congruence. }
  exists fe', tf, tc. split; [ exact Hfe' | ].
  unfold search_step, auto_arima_cluster_step. rewrite E. cbn [bind fst snd].
  replace (t_x (TCluster spt p (Z.of_nat i))) with x by (symmetry; apply (c_x d sc (Some (p, Z.of_nat i)))).
  replace (t_y (TCluster spt p (Z.of_nat i))) with y by (symmetry; apply (c_y d sc (Some (p, Z.of_nat i)))).
  change (Z.of_nat DEFAULT_FORECAST_LENGTH) with 8%Z. rewrite Et. cbn [bind fst snd]. rewrite (Gm med Hmed). cbn [bind].
  rewrite Hdraw. change DEFAULT_FORECAST_LENGTH with 8. rewrite Hpic. cbn [fst]. rewrite (extract_order order_of (mo med)). f_equal. f_equal.
  - unfold auto_arima_result_row, search_row_of. destruct (order_shown order_of (mo med)) as [ [ pp dd ] qq ]. cbn [ex_failed ex_forecast_time ex_compute_time ex_errors].
    replace (cluster_len p (Z.of_nat i)) with (length members); [ destruct (mo med); reflexivity | ].
    rewrite (cluster_len_spec p x y _ V), (cluster_members _ _ _ _ _ V Hm). f_equal. apply filter_ext_in. intros pt Hin. apply in_grid_iff in Hin. apply (has_lab_label_of p x y pt _ V Hin).
  - unfold complete_picture. rewrite Ed. destruct (mo med); reflexivity.
Qed.

Lemma search_steps c p ms : has_char "/" (mode_of c) = false -> with_medoids x y (c_k c) p ms -> ms <> [] ->
  exists steps, use c p ms = (let '(file, e, pictures) := rows_and_pictures steps [auto_arima_result_header] in ([(auto_arima_errors_at region c et, file)], e, pictures)) /\
    length steps = length ms /\ forall i med, nth_error ms i = Some med -> nth_error steps i = Some (search_step c p i med).
Proof.
  intros Hc (V & K & L & G) Hne. pose proof Hready as (Hr & Hi & Hq & Hsp & Hl & HD & He). destruct (predefined_facts _ _ Hr) as (En & Hnm & _).
  unfold use_auto_arima_errors_with_plots. rewrite (clusters_ok (fun _ _ _ => Raise ValueError) (fun _ _ => ""%string) r d sc D dist Hnm He p ms) by (try assumption; (split; [ exact V | split; [ congruence | auto ] ])).
  rewrite (auto_arima_errors_path_at c r et Hnm Hc), En. eexists. split; [ reflexivity | ]. split.
  - rewrite map_length, zrange_length. lia.
  - intros i med Hm. assert (Hil : i < length ms) by (apply nth_error_Some; congruence). rewrite nth_error_map, zrange_nth by lia. rewrite Z.add_0_l. cbn [option_map]. f_equal.
    rewrite (getitem_in _ i (HRegion ("cluster" ++ str_int (Z.of_nat i)) (TCluster spt p (Z.of_nat i)) (nth_error ms i) None))
      by (rewrite nth_error_map, nth_error_seq, (proj2 (Nat.ltb_lt _ _) Hil); reflexivity).
    cbn [bind h_own h_region h_name]. rewrite Hm. cbn [bind]. unfold search_step, auto_arima_cluster_step.
    destruct (ran _ _ _ _) as [ z | ]; [ | reflexivity ]. cbn [bind]. destruct (train _ _ _) as [ tr | ]; [ | reflexivity ]. cbn [bind]. destruct (get2 _ _ _) as [ cl | ]; [ | reflexivity ]. cbn [bind].
    rewrite (search_plot_path_at c r et i _ Hnm Hc), En. reflexivity.
Qed.

(** the first [n] clusters are analyzed, and their medoids have a model *)
Definition searches_before (c : cmeta) (p : crisp) (ms : list point) (n : nat) : Prop :=
  forall i med, nth_error ms i = Some med -> i < n -> searched_and_drawn c p i med /\ exists m, mo med = Some m.

Lemma search_prefix c p ms n steps : with_medoids x y (c_k c) p ms -> n <= length ms -> length steps = length ms ->
  (forall i med, nth_error ms i = Some med -> nth_error steps i = Some (search_step c p i med)) ->
  searches_before c p ms n ->
  exists rps, steps = (map drawn rps ++ skipn n steps)%list /\ length rps = n /\
    search_rows sqrt order_of aic_of x y p ms mo fo err n (auto_arima_result_header :: map fst rps) /\
    search_pictures order_of region c et x y p ms dist mo err n (map snd rps).
Proof.
  intros HW Hle Hlen Hst Hb. pose proof HW as (V & _).
  assert (Hstep : forall i med members, nth_error ms i = Some med -> i < n -> cluster_points p x y (Z.of_nat i) members ->
    exists fe tf tc m, error_summary sqrt members fo err med fe /\ mo med = Some m /\
      search_step c p i med = drawn (search_row_of i med members fe tf tc,
        complete_picture members (dist med) (err med) (order_of m) et (c_repr c) (Some (search_picture_at region c et i (order_of m))))).
  { intros i med members Hi Hlt Hm. destruct (Hb i med Hi Hlt) as [ Hmade (m & Hsh) ].
    destruct (search_step_result c p ms i med members HW Hi Hmade Hm) as (fe & tf & tc & Hfe & E). rewrite Hsh in E.
    exists fe, tf, tc, m. split; [ exact Hfe | ]. split; [ exact Hsh | ]. rewrite E. reflexivity. }
  destruct (split_drawn n steps) as (rps & L & E).
  { lia. }
  { intros a Ha. destruct (nth_error ms a) as [ med | ] eqn:Em; [ | apply nth_error_None in Em; lia ]. rewrite (Hst _ _ Em).
    destruct (Hstep a med _ Em Ha (cluster_members_ok p x y _ V)) as (fe & tf & tc & m & _ & _ & ->). eauto. }
  assert (Hat : forall i med members, nth_error ms i = Some med -> i < n -> cluster_points p x y (Z.of_nat i) members ->
    exists fe tf tc m, error_summary sqrt members fo err med fe /\ mo med = Some m /\
      nth_error rps i = Some (search_row_of i med members fe tf tc,
        complete_picture members (dist med) (err med) (order_of m) et (c_repr c) (Some (search_picture_at region c et i (order_of m))))).
  { intros i med members Hi Hlt Hm. destruct (Hstep i med members Hi Hlt Hm) as (fe & tf & tc & m & Hfe & Hsh & Es). exists fe, tf, tc, m. split; [ exact Hfe | ]. split; [ exact Hsh | ].
    pose proof (Hst _ _ Hi) as Q. rewrite E, nth_error_app1 in Q by (rewrite map_length; lia). rewrite nth_error_map in Q.
    destruct (nth_error rps i) as [ [ r1 r2 ] | ]; [ | discriminate ]. cbn [option_map] in Q. rewrite Es in Q. unfold drawn in Q. cbn [fst snd] in Q. congruence. }
  exists rps. split; [ exact E | ]. split; [ exact L | ]. split.
  - exists (map fst rps). split; [ reflexivity | ]. split; [ rewrite map_length; exact L | ]. intros i med members Hi Hm Hlt.
    destruct (Hat i med members Hi Hlt Hm) as (fe & tf & tc & m & Hfe & _ & Er). exists fe, tf, tc. split; [ exact Hfe | ].
    rewrite nth_error_map, Er. cbn [option_map fst]. unfold search_row_of. destruct (order_shown order_of (mo med)) as [ [ pp dd ] qq ]. reflexivity.
  - split; [ rewrite map_length; exact L | ]. intros i med members Hi Hm Hlt. destruct (Hat i med members Hi Hlt Hm) as (fe & tf & tc & m & _ & Hsh & Er).
    exists m. split; [ exact Hsh | ]. rewrite nth_error_map, Er. reflexivity.
Qed.

(** all clusters are analyzed and drawn *)
Lemma searches_all c p ms : has_char "/" (mode_of c) = false -> with_medoids x y (c_k c) p ms -> ms <> [] -> searches_before c p ms (length ms) ->
  exists file pictures, use c p ms = ([(auto_arima_errors_at region c et, file)], None, pictures) /\
    search_table sqrt order_of aic_of x y p ms mo fo err file /\ search_pictures order_of region c et x y p ms dist mo err (length ms) pictures.
Proof.
  intros Hc HW Hne Hb. destruct (search_steps c p ms Hc HW Hne) as (steps & Eu & L & Hst).
  destruct (search_prefix c p ms (length ms) steps HW (le_n _) L Hst Hb) as (rps & E & Lr & Hrows & Hpics). rewrite Eu, E, rows_prefix.
  rewrite skipn_all2 by lia. cbn [rows_and_pictures app]. rewrite app_nil_r. eexists _, _. split; [ reflexivity | ]. split; [ exact Hrows | exact Hpics ].
Qed.
(** cluster [n] is analyzed, but its medoid has no model *)
Lemma searches_stop c p ms n med : has_char "/" (mode_of c) = false -> with_medoids x y (c_k c) p ms -> nth_error ms n = Some med ->
  searches_before c p ms n -> searched_and_drawn c p n med -> mo med = None ->
  exists file pictures members, cluster_points p x y (Z.of_nat n) members /\
    use c p ms = ([(auto_arima_errors_at region c et, file)], Some AttributeError, (pictures ++ [[Points (map (dist med) members) (map (err med) members)]])%list) /\
    search_rows sqrt order_of aic_of x y p ms mo fo err (n + 1) file /\ search_pictures order_of region c et x y p ms dist mo err n pictures.
Proof.
  intros Hc HW Hi Hb Hmade Hno. destruct (search_steps c p ms Hc HW ltac:(intros ->; destruct n; discriminate)) as (steps & Eu & L & Hst).
  assert (Hil : n < length ms) by (apply nth_error_Some; congruence).
  destruct (search_prefix c p ms n steps HW ltac:(lia) L Hst Hb) as (rps & E & Lr & (rows & Er & Lrow & Hrows) & Hpics). injection Er as <-.
  pose proof HW as (V & _). set (members := filter (has_lab p (Z.of_nat n)) (grid x y)). assert (Hm : cluster_points p x y (Z.of_nat n) members) by apply (cluster_members_ok p x y _ V).
  destruct (search_step_result c p ms n med members HW Hi Hmade Hm) as (fe & tf & tc & Hfe & Es). rewrite Hno in Es.
  destruct (skipn_nth _ _ _ (Hst _ _ Hi)) as (rest & Erest). rewrite Erest, Es in E.
  rewrite Eu, E, rows_prefix. cbn [rows_and_pictures]. eexists _, _, members. split; [ exact Hm | ]. split; [ reflexivity | ]. split; [ | exact Hpics ].
  eexists. split; [ reflexivity | ]. rewrite app_length, map_length, Lr. split; [ cbn; lia | ].
  intros i' med' members' Hi' Hm' Hlt. destruct (Nat.eq_dec i' n) as [ -> | Nij ].
  - rewrite Hi in Hi'. injection Hi' as <-. assert (members' = members) by (unfold members; apply cluster_members; assumption). subst members'.
    exists fe, tf, tc. split; [ exact Hfe | ]. rewrite nth_error_app2, map_length, Lr, Nat.sub_diag by (rewrite map_length; lia).
    cbn [nth_error]. unfold search_row_of. destruct (order_shown order_of (mo med)) as [ [ pp dd ] qq ]. reflexivity.
  - destruct (Hrows i' med' members' Hi' Hm' ltac:(lia)) as (fe' & tf' & tc' & Hfe' & Er'). exists fe', tf', tc'. split; [ exact Hfe' | ].
    rewrite nth_error_app1 by (rewrite map_length; lia). exact Er'.
Qed.
(** the analysis of cluster [n] fails *)
Lemma searches_fail c p ms n med e : has_char "/" (mode_of c) = false -> with_medoids x y (c_k c) p ms -> nth_error ms n = Some med ->
  searches_before c p ms n -> ran c (Z.of_nat n) (TCluster spt p (Z.of_nat n)) med = Raise e ->
  exists file pictures, use c p ms = ([(auto_arima_errors_at region c et, file)], Some e, pictures) /\
    search_rows sqrt order_of aic_of x y p ms mo fo err n file /\ search_pictures order_of region c et x y p ms dist mo err n pictures.
Proof.
  intros Hc HW Hi Hb Hran. destruct (search_steps c p ms Hc HW ltac:(intros ->; destruct n; discriminate)) as (steps & Eu & L & Hst).
  assert (Hil : n < length ms) by (apply nth_error_Some; congruence).
  destruct (search_prefix c p ms n steps HW ltac:(lia) L Hst Hb) as (rps & E & Lr & Hrows & Hpics).
  destruct (skipn_nth _ _ _ (Hst _ _ Hi)) as (rest & Erest). unfold search_step, auto_arima_cluster_step in Erest. rewrite Hran in Erest. cbn [bind] in Erest. rewrite Erest in E.
  rewrite Eu, E, rows_prefix. cbn [rows_and_pictures]. rewrite app_nil_r. eexists _, _. split; [ reflexivity | ]. split; [ exact Hrows | exact Hpics ].
Qed.
End SearchPlots.

(* ---------------------------------------------------------------- C139 *)
(** C139: with --plots, when the search finds a model for each medoid, the program writes the same tables and partitions as without pictures, and
    saves for each cluster one complete picture: a point for each point of the cluster, with its distance to the medoid and the error there of
    the forecast of the medoid's model; the order that the search found is in the picture and in the name of its file. *)
Theorem C139_written : forall M choice env create_instance format_coverage fit order_of aic_of forecast search sqrt workers junk ran (w : world M) t region r d sc D dist experiment ty sid suite results
    et func (mo : point -> option M) fo err,
  let kind := auto_arima_kind fit forecast search in
  ready env create_instance region r d sc D dist -> searched experiment ty sid -> get_suite ty sid = Ok suite ->
  outcomes choice env (w_pickles w) r d sc D suite results ->
  8 <= a3t d -> workers_ok workers -> get_error_func et = Ok func ->
  each suite results (fun c p ms => forall i med, nth_error ms i = Some med ->
    label_at p med (Z.of_nat i) /\
    (forall members, cluster_points p (a3x d) (a3y d) (Z.of_nat i) members -> forecasts kind simple func d sc 8 members mo fo err) /\
    analyzed_then_draws kind sqrt (full2 (a3x d) (a3y d) (Some simple)) workers junk env (fun m => Ok (order_of m)) (Some (dmeta_of r)) (DObj PlainDTW (Some D) false)
      (TCluster (qregion d sc) p (Z.of_nat i)) med et (ran c (Z.of_nat i) (TCluster (qregion d sc) p (Z.of_nat i)) med) /\
    exists m, mo med = Some m) ->
  exists w' t', auto_arima_error_analysis_with_plots choice env create_instance format_coverage fit order_of aic_of forecast search ran w t region experiment et = (w', t', None) /\
    tables_left t t' (fun c => auto_arima_errors_at region c et) suite results (fun _ p ms file => search_table sqrt order_of aic_of (a3x d) (a3y d) p ms mo fo err file) /\
    each suite results (fun c p ms => exists pictures, snd (use_auto_arima_errors_with_plots fit order_of aic_of forecast search r (qregion d sc) simple et ran c p ms) = pictures /\
      search_pictures order_of region c et (a3x d) (a3y d) p ms dist mo err (length ms) pictures) /\
    partitions_left format_coverage w w' region suite results.
Proof.
  intros M choice env create fc fit order_of aic_of forecast search sqrt workers junk ran w t region r d sc D dist experiment ty sid suite results et func mo fo err kind Hready Hx Hs Hout Hn Hw Hf Hall.
  pose proof Hready as (Hr & Hi & _). unfold auto_arima_error_analysis_with_plots. rewrite (searched_metadata region r experiment ty sid Hx Hr), Hs. cbn [bind]. rewrite Hi. cbn [bind py_assert String.eqb Ascii.eqb Bool.eqb].
  rewrite (load_ready env create region r d sc D dist Hready).
  destruct (suite_clean _ _ _ Hs) as (_ & _ & Cm). pose proof (forall2_length _ _ _ Hout) as Hlen.
  assert (Huse : each suite results (fun c p ms => exists file pictures, use_auto_arima_errors_with_plots fit order_of aic_of forecast search r (qregion d sc) simple et ran c p ms =
       ([(auto_arima_errors_at region c et, file)], None, pictures) /\
     search_table sqrt order_of aic_of (a3x d) (a3y d) p ms mo fo err file /\ search_pictures order_of region c et (a3x d) (a3y d) p ms dist mo err (length ms) pictures)).
  { intros i c p ms A B. destruct (medoids_nonempty _ _ _ _ _ _ _ ty sid suite results [] i c p ms ltac:(rewrite app_nil_r; exact Hs) Hout A B) as (Hc & HW & Hne).
    apply (searches_all fit order_of aic_of forecast search sqrt workers junk ran env create region r d sc D dist Hready et func Hn Hw Hf mo fo err c p ms Hc HW Hne).
    intros i' med' Hi' _. destruct (Hall i c p ms A B i' med' Hi') as (Q1 & Q2 & Q3 & Q4). split; [ split; [ exact Q1 | split; [ exact Q2 | exact Q3 ] ] | exact Q4 ]. }
  destruct (use_each_single (fun c p ms _ => fst (use_auto_arima_errors_with_plots fit order_of aic_of forecast search r (qregion d sc) simple et ran c p ms)) D (fun c => auto_arima_errors_at region c et) suite results
     (fun _ p ms file => search_table sqrt order_of aic_of (a3x d) (a3y d) p ms mo fo err file)) as [ U1 U2 ].
  { intros i c p ms A B. destruct (Huse i c p ms A B) as (file & pictures & E & T & _). exists file. rewrite E. auto. }
  destruct (loaded_all choice env create fc region r d sc D dist Hready (fun c p ms _ => fst (use_auto_arima_errors_with_plots fit order_of aic_of forecast search r (qregion d sc) simple et ran c p ms))
    w t ty sid suite results Hs Hout U1) as (w' & E & L).
  exists w'. eexists. split; [ exact E | ]. split; [ | split; [ | exact L ] ].
  - eapply (all_files_single D (fun c p ms _ => fst (use_auto_arima_errors_with_plots fit order_of aic_of forecast search r (qregion d sc) simple et ran c p ms)) _ _ t ty sid suite []);
      [ rewrite app_nil_r; exact Hs | exact Hlen | | exact U2 ].
    rewrite app_nil_r. intros c c' A B Ec. apply (clustering_at_inj region c c' _ _ (proj1 (Cm c A)) (proj1 (Cm c' B)) Ec).
  - intros i c p ms A B. destruct (Huse i c p ms A B) as (file & pictures & E' & _ & Hp). exists pictures. rewrite E'. auto.
Qed.
Print Assumptions C139_written.

(** C139: with --plots, the first medoid for which the search found no model ends the program with an AttributeError: the table of its clustering
    has the rows up to and including that of this medoid, the pictures before it are complete, the points of its own picture are drawn but not
    saved.  The tables of the clusterings before are complete and stay. *)
Theorem C139_stops : forall M choice env create_instance format_coverage fit order_of aic_of forecast search sqrt workers junk ran (w : world M) t region r d sc D dist experiment ty sid
    before results c after p ms n med et func (mo : point -> option M) fo err,
  let kind := auto_arima_kind fit forecast search in
  let made c p i med := label_at p med (Z.of_nat i) /\
    (forall members, cluster_points p (a3x d) (a3y d) (Z.of_nat i) members -> forecasts kind simple func d sc 8 members mo fo err) /\
    analyzed_then_draws kind sqrt (full2 (a3x d) (a3y d) (Some simple)) workers junk env (fun m => Ok (order_of m)) (Some (dmeta_of r)) (DObj PlainDTW (Some D) false)
      (TCluster (qregion d sc) p (Z.of_nat i)) med et (ran c (Z.of_nat i) (TCluster (qregion d sc) p (Z.of_nat i)) med) in
  ready env create_instance region r d sc D dist -> searched experiment ty sid -> get_suite ty sid = Ok (before ++ c :: after)%list ->
  length before = length results -> outcomes choice env (w_pickles w) r d sc D (before ++ [c]) (results ++ [(p, ms)]) ->
  8 <= a3t d -> workers_ok workers -> get_error_func et = Ok func ->
  each before results (fun c p ms => forall i med, nth_error ms i = Some med -> made c p i med /\ exists m, mo med = Some m) ->
  (forall i' med', nth_error ms i' = Some med' -> i' < n -> made c p i' med' /\ exists m, mo med' = Some m) ->
  nth_error ms n = Some med -> made c p n med -> mo med = None ->
  exists w' t' file pictures members,
    auto_arima_error_analysis_with_plots choice env create_instance format_coverage fit order_of aic_of forecast search ran w t region experiment et = (w', t', Some AttributeError) /\
    each before results (fun c' p' ms' => exists file, t' (auto_arima_errors_at region c' et) = Some file /\ search_table sqrt order_of aic_of (a3x d) (a3y d) p' ms' mo fo err file) /\
    t' (auto_arima_errors_at region c et) = Some file /\ search_rows sqrt order_of aic_of (a3x d) (a3y d) p ms mo fo err (n + 1) file /\
    (forall q, q <> auto_arima_errors_at region c et -> each before results (fun c' _ _ => q <> auto_arima_errors_at region c' et) -> t' q = t q) /\
    search_pictures order_of region c et (a3x d) (a3y d) p ms dist mo err n pictures /\ cluster_points p (a3x d) (a3y d) (Z.of_nat n) members /\
    snd (use_auto_arima_errors_with_plots fit order_of aic_of forecast search r (qregion d sc) simple et ran c p ms) =
      (pictures ++ [[Points (map (dist med) members) (map (err med) members)]])%list /\
    partitions_left format_coverage w w' region (before ++ [c]) (results ++ [(p, ms)]).
Proof.
  intros M choice env create fc fit order_of aic_of forecast search sqrt workers junk ran w t region r d sc D dist experiment ty sid before results c after p ms n med et func mo fo err kind made
    Hready Hx Hs Hlen Hout Hn Hw Hf Hall Hmade Hi Hm Hno.
  pose proof Hready as (Hr & Hin & _). unfold auto_arima_error_analysis_with_plots. rewrite (searched_metadata region r experiment ty sid Hx Hr), Hs. cbn [bind]. rewrite Hin. cbn [bind py_assert String.eqb Ascii.eqb Bool.eqb].
  rewrite (load_ready env create region r d sc D dist Hready). destruct (outcomes_before _ _ _ _ _ _ _ _ _ _ _ _ Hlen Hout) as [ Hob HW ]. destruct (suite_clean _ _ _ Hs) as (_ & _ & Cm).
  destruct (searches_stop fit order_of aic_of forecast search sqrt workers junk ran env create region r d sc D dist Hready et func Hn Hw Hf mo fo err c p ms n med)
    as (file & pictures & members & Hmem & Euse & Hrows & Hpics).
  { apply Cm, in_or_app. right. left. reflexivity. } { exact HW. } { exact Hi. } { exact Hmade. } { exact Hm. } { exact Hno. }
  destruct (fails_single choice env create fc region r d sc D dist (fun c p ms _ => fst (use_auto_arima_errors_with_plots fit order_of aic_of forecast search r (qregion d sc) simple et ran c p ms))
     (fun c => simple_search ++ "/error-analysis__" ++ c_repr c ++ "__" ++ simple_search ++ "__" ++ et ++ ".csv")%string
     (fun _ p ms file => search_table sqrt order_of aic_of (a3x d) (a3y d) p ms mo fo err file) w t ty sid before results c after p ms file AttributeError Hready Hs Hlen Hout) as (w' & t' & E & T1 & T2 & T3 & L).
  { intros i' c' p' ms' A B. destruct (medoids_nonempty _ _ _ _ _ _ _ ty sid before results _ i' c' p' ms' Hs Hob A B) as (Hc & HW' & Hne).
    destruct (searches_all fit order_of aic_of forecast search sqrt workers junk ran env create region r d sc D dist Hready et func Hn Hw Hf mo fo err c' p' ms' Hc HW' Hne)
      as (file' & pictures' & E' & T' & _).
    { intros i1 med1 Hi1 _. apply (Hall i' c' p' ms' A B i1 med1 Hi1). }
    exists file'. rewrite E'. auto. }
  { rewrite Euse. reflexivity. }
  exists w', t', file, pictures, members. split; [ exact E | ]. split; [ exact T1 | ]. split; [ exact T2 | ]. split; [ exact Hrows | ]. split; [ exact T3 | ]. split; [ exact Hpics | ]. split; [ exact Hmem | ].
  split; [ rewrite Euse; reflexivity | exact L ].
Qed.
Print Assumptions C139_stops.

(** C139: when the analysis of a cluster fails, the table of its clustering has the rows of the clusters before it, their pictures are complete, and
    no further picture is begun. *)
Theorem C139_rows_before_a_failure : forall M choice env create_instance format_coverage fit order_of aic_of forecast search sqrt workers junk ran (w : world M) t region r d sc D dist experiment ty sid
    before results c after p ms n med et func (mo : point -> option M) fo err e,
  let kind := auto_arima_kind fit forecast search in
  let made c p i med := label_at p med (Z.of_nat i) /\
    (forall members, cluster_points p (a3x d) (a3y d) (Z.of_nat i) members -> forecasts kind simple func d sc 8 members mo fo err) /\
    analyzed_then_draws kind sqrt (full2 (a3x d) (a3y d) (Some simple)) workers junk env (fun m => Ok (order_of m)) (Some (dmeta_of r)) (DObj PlainDTW (Some D) false)
      (TCluster (qregion d sc) p (Z.of_nat i)) med et (ran c (Z.of_nat i) (TCluster (qregion d sc) p (Z.of_nat i)) med) in
  ready env create_instance region r d sc D dist -> searched experiment ty sid -> get_suite ty sid = Ok (before ++ c :: after)%list ->
  length before = length results -> outcomes choice env (w_pickles w) r d sc D (before ++ [c]) (results ++ [(p, ms)]) ->
  8 <= a3t d -> workers_ok workers -> get_error_func et = Ok func ->
  each before results (fun c p ms => forall i med, nth_error ms i = Some med -> made c p i med /\ exists m, mo med = Some m) ->
  (forall i' med', nth_error ms i' = Some med' -> i' < n -> made c p i' med' /\ exists m, mo med' = Some m) ->
  nth_error ms n = Some med -> ran c (Z.of_nat n) (TCluster (qregion d sc) p (Z.of_nat n)) med = Raise e ->
  exists w' t' file pictures,
    auto_arima_error_analysis_with_plots choice env create_instance format_coverage fit order_of aic_of forecast search ran w t region experiment et = (w', t', Some e) /\
    each before results (fun c' p' ms' => exists file, t' (auto_arima_errors_at region c' et) = Some file /\ search_table sqrt order_of aic_of (a3x d) (a3y d) p' ms' mo fo err file) /\
    t' (auto_arima_errors_at region c et) = Some file /\ search_rows sqrt order_of aic_of (a3x d) (a3y d) p ms mo fo err n file /\
    (forall q, q <> auto_arima_errors_at region c et -> each before results (fun c' _ _ => q <> auto_arima_errors_at region c' et) -> t' q = t q) /\
    search_pictures order_of region c et (a3x d) (a3y d) p ms dist mo err n pictures /\
    snd (use_auto_arima_errors_with_plots fit order_of aic_of forecast search r (qregion d sc) simple et ran c p ms) = pictures /\
    partitions_left format_coverage w w' region (before ++ [c]) (results ++ [(p, ms)]).
Proof.
  intros M choice env create fc fit order_of aic_of forecast search sqrt workers junk ran w t region r d sc D dist experiment ty sid before results c after p ms n med et func mo fo err e kind made
    Hready Hx Hs Hlen Hout Hn Hw Hf Hall Hmade Hi Hran.
  pose proof Hready as (Hr & Hin & _). unfold auto_arima_error_analysis_with_plots. rewrite (searched_metadata region r experiment ty sid Hx Hr), Hs. cbn [bind]. rewrite Hin. cbn [bind py_assert String.eqb Ascii.eqb Bool.eqb].
  rewrite (load_ready env create region r d sc D dist Hready). destruct (outcomes_before _ _ _ _ _ _ _ _ _ _ _ _ Hlen Hout) as [ Hob HW ]. destruct (suite_clean _ _ _ Hs) as (_ & _ & Cm).
  destruct (searches_fail fit order_of aic_of forecast search sqrt workers junk ran env create region r d sc D dist Hready et func Hn Hw Hf mo fo err c p ms n med e)
    as (file & pictures & Euse & Hrows & Hpics).
  { apply Cm, in_or_app. right. left. reflexivity. } { exact HW. } { exact Hi. } { exact Hmade. } { exact Hran. }
  destruct (fails_single choice env create fc region r d sc D dist (fun c p ms _ => fst (use_auto_arima_errors_with_plots fit order_of aic_of forecast search r (qregion d sc) simple et ran c p ms))
     (fun c => simple_search ++ "/error-analysis__" ++ c_repr c ++ "__" ++ simple_search ++ "__" ++ et ++ ".csv")%string
     (fun _ p ms file => search_table sqrt order_of aic_of (a3x d) (a3y d) p ms mo fo err file) w t ty sid before results c after p ms file e Hready Hs Hlen Hout) as (w' & t' & E & T1 & T2 & T3 & L).
  { intros i' c' p' ms' A B. destruct (medoids_nonempty _ _ _ _ _ _ _ ty sid before results _ i' c' p' ms' Hs Hob A B) as (Hc & HW' & Hne).
    destruct (searches_all fit order_of aic_of forecast search sqrt workers junk ran env create region r d sc D dist Hready et func Hn Hw Hf mo fo err c' p' ms' Hc HW' Hne)
      as (file' & pictures' & E' & T' & _).
    { intros i1 med1 Hi1 _. apply (Hall i' c' p' ms' A B i1 med1 Hi1). }
    exists file'. rewrite E'. auto. }
  { rewrite Euse. reflexivity. }
  exists w', t', file, pictures. split; [ exact E | ]. split; [ exact T1 | ]. split; [ exact T2 | ]. split; [ exact Hrows | ]. split; [ exact T3 | ]. split; [ exact Hpics | ].
  split; [ rewrite Euse; reflexivity | exact L ].
Qed.
Print Assumptions C139_rows_before_a_failure.

(* ---------------------------------------------------------------- a concrete case: saved partitions, known distances *)
Lemma draws_made {P M} (kind : model_kind P M) sqrt workers junk env (order_of : M -> pdq) (md : option dmeta) D (dist : point -> point -> fnum) (d : arr3 fnum) sc p i ap et func mo fo err med tf tc :
  let members := filter (has_lab p i) (grid (a3x d) (a3y d)) in
  qwf d sc -> valid_partition p (a3x d) (a3y d) -> 8 <= a3t d -> workers_ok workers -> get_error_func et = Ok func ->
  forecasts kind ap func d sc 8 members mo fo err -> In med members -> square (a3x d * a3y d) D ->
  (forall q pt, in_grid (a3x d) (a3y d) q -> in_grid (a3x d) (a3y d) pt -> entry D (index_of (a3y d) q) (index_of (a3y d) pt) = Some (dist q pt)) ->
  analyzed_then_draws kind sqrt (full2 (a3x d) (a3y d) (Some ap)) workers junk env (fun m => Ok (order_of m)) md (DObj PlainDTW (Some D) false) (TCluster (qregion d sc) p i) med et
    (Ok (Experiment (summary sqrt d (Some (p, i)) fo err med) (without_model mo members) tf tc,
         fun file desc =>
           match mo med with
           | Some m => (complete_picture members (dist med) (err med) (order_of m) et desc (Some file), None)
           | None => ([Points (map (dist med) members) (map (err med) members)], Some AttributeError)
           end)).
Proof.
  intros members Hq Hv Hn Hw Hf Hfo Hmed HD He. pose proof Hfo as [ H1 H2 ].
  destruct (analysis_run kind sqrt workers junk d sc (Some (p, i)) ap 8 Hq Hv Hn et func Hf mo fo err H1 H2 med (Raise ValueError) new_analysis Hw Hmed) as (_ & (a' & Ha) & models & E & G).
  assert (Hmem : forall pt, In pt members <-> in_grid (a3x d) (a3y d) pt /\ label_at p pt i) by (intros pt; apply members_iff, Hv).
  destruct (C134_picture _ M kind sqrt workers junk env (fun m => Ok (order_of m)) md (DObj PlainDTW (Some D) false) D d sc p i members ap 8 et func mo fo err med _ a'
    Hq Hv (cluster_members_ok p _ _ i Hv) Hn Hf Hfo Hmed eq_refl HD Ha) as (dist' & Hdist & Hpic).
  assert (Ed : map dist' members = map (dist med) members).
  { apply map_ext_in. intros pt Hp. pose proof (Hdist pt Hp) as Q. rewrite He in Q by (apply Hmem; assumption). congruence. }
  exists (Ok (summary sqrt d (Some (p, i)) fo err med)), a', tf, tc. split; [ exact Ha | ]. cbn [bind]. change DEFAULT_FORECAST_LENGTH with 8. cbn [creg] in E. rewrite E. cbn [bind snd].
  eexists. split; [ reflexivity | ]. intros file desc. rewrite Hpic. cbn [fst]. unfold complete_picture. rewrite Ed. destruct (mo med); reflexivity.
Qed.
Definition ex39_ran (cluster : stregion fnum) (med : point) : res (experiment * (string -> string -> picture)) :=
  match cluster with
  | TCluster _ p i =>
      let members := filter (has_lab p i) (grid 7 10) in
      Ok (Experiment (summary (fun v => v) ex27_d (Some (p, i)) ex27_forecasts ex27_error med) (without_model ex27_model members) (Fin 1) (Fin 2),
          fun file desc =>
            match ex27_model med with
            | Some _ => (complete_picture members (fun pt => Fin (ex7_dist med pt)) (ex27_error med) (1, 0, 1)%Z "MSE" desc (Some file), None)
            | None => ([Points (map (fun pt => Fin (ex7_dist med pt)) members) (map (ex27_error med) members)], Some AttributeError)
            end)
  | _ => Raise ValueError
  end.
Local Notation ex39_kind := (auto_arima_kind ex27_fit ex25_forecast ex25_search).
Lemma ex39_made r p i med : ready ex7_env (fun _ => Ok (qregion ex27_d None)) "nordeste_small_2015_2015_1spd" r ex27_d None ex7_matrix (fun q pt => Fin (ex7_dist q pt)) ->
  valid_partition p 7 10 -> in_grid 7 10 med -> label_at p med (Z.of_nat i) ->
  label_at p med (Z.of_nat i) /\
  (forall members, cluster_points p 7 10 (Z.of_nat i) members -> forecasts ex39_kind simple mse ex27_d None 8 members ex27_model ex27_forecasts ex27_error) /\
  analyzed_then_draws ex39_kind (fun v => v) (full2 7 10 (Some simple)) (Some 4%Z) (Fin 7) ex7_env (fun _ => Ok (1, 0, 1)%Z) (Some (dmeta_of r))
     (DObj PlainDTW (Some ex7_matrix) false) (TCluster (qregion ex27_d None) p (Z.of_nat i)) med "MSE" (ex39_ran (TCluster (qregion ex27_d None) p (Z.of_nat i)) med).
Proof.
  intros (_ & _ & Hq & _ & _ & HD & He) V Hg Hl. split; [ exact Hl | ].
  assert (K : forall members, cluster_points p 7 10 (Z.of_nat i) members -> forecasts ex39_kind simple mse ex27_d None 8 members ex27_model ex27_forecasts ex27_error).
  { intros members Hm. apply ex27_known; try reflexivity.
    - intros v s. destruct v as [ | | | [ [ | ? | ? ] [ ? | ? | ] ] ]; reflexivity.
    - apply Forall_forall. intros pt Hin. rewrite (cluster_members _ _ _ _ _ V Hm) in Hin. apply (members_iff p 7 10 _ V) in Hin. apply Hin. }
  split; [ exact K | ]. unfold ex39_ran.
  apply (draws_made ex39_kind (fun v => v) (Some 4%Z) (Fin 7) ex7_env (fun _ => (1, 0, 1)%Z) (Some (dmeta_of r)) ex7_matrix (fun q pt => Fin (ex7_dist q pt)) ex27_d None p (Z.of_nat i) simple "MSE" mse).
  - exact Hq.
  - exact V.
  - cbn. lia.
  - cbn. lia.
  - reflexivity.
  - apply K, cluster_members_ok, V.
  - apply (members_iff p 7 10 _ V). auto.
  - exact HD.
  - exact He.
Qed.
Example C139_ex : exists r suite w' t',
  get_suite "kmedoids" "quick" = Ok suite /\ length suite = 4 /\
  auto_arima_error_analysis_with_plots ex7_choice ex7_env (fun _ => Ok (qregion ex27_d None)) (fun _ => "v"%string) ex27_fit (fun _ => (1, 0, 1)%Z) (fun m => m) ex25_forecast ex25_search (fun _ _ => ex39_ran)
    (ex36_world ex36_medoids suite) (fun _ => None) "nordeste_small_2015_2015_1spd" "simple_kmedoids_quick" "MSE" = (w', t', None) /\
  each suite (map (fun c => (ex36_partition (c_k c), ex36_medoids (c_k c))) suite) (fun c p ms => 2 <= length ms /\
    search_pictures (fun _ : fnum => (1, 0, 1)%Z) "nordeste_small_2015_2015_1spd" c "MSE" 7 10 p ms (fun q pt => Fin (ex7_dist q pt)) ex27_model ex27_error (length ms)
      (snd (use_auto_arima_errors_with_plots ex27_fit (fun _ => (1, 0, 1)%Z) (fun m => m) ex25_forecast ex25_search r (qregion ex27_d None) simple "MSE" (fun _ _ => ex39_ran) c p ms))).
Proof.
  destruct ex27_ready as [ r Hready ]. exists r. destruct (get_suite "kmedoids" "quick") as [ suite | ] eqn:Hs; [ | discriminate ]. exists suite.
  assert (Hlen : length suite = 4) by (vm_compute in Hs; injection Hs as <-; reflexivity).
  destruct (ex36_outcomes ex36_medoids r suite Hready Hs (or_introl eq_refl)) as [ Ho Hk ]. rewrite Forall_forall in Hk.
  assert (Hx : searched "simple_kmedoids_quick" "kmedoids" "quick") by (split; [ reflexivity | left; reflexivity ]).
  destruct (C139_written fnum ex7_choice ex7_env (fun _ => Ok (qregion ex27_d None)) (fun _ => "v"%string) ex27_fit (fun _ => (1, 0, 1)%Z) (fun m => m) ex25_forecast ex25_search (fun v => v) (Some 4%Z) (Fin 7)
    (fun _ _ => ex39_ran) (ex36_world ex36_medoids suite) (fun _ => None) _ r ex27_d None ex7_matrix _ _ _ _ suite _ "MSE" mse ex27_model ex27_forecasts ex27_error
    Hready Hx Hs Ho ltac:(cbn; lia) ltac:(cbn; lia) eq_refl) as (w' & t' & E & _ & Hp & _).
  - intros i c p ms A B j med Hj. rewrite nth_error_map, A in B. cbn [option_map] in B. injection B as <- <-. pose proof (Hk c (nth_error_In _ _ A)) as Hkc.
    destruct (ex36_labels ex36_medoids _ _ _ Hkc (or_introl eq_refl) Hj) as [ Hg Hl ].
    destruct (ex39_made r (ex36_partition (c_k c)) j med Hready (ex36_valid _ Hkc) Hg Hl) as (Q1 & Q2 & Q3). split; [ exact Q1 | ]. split; [ exact Q2 | ]. split; [ exact Q3 | ].
    clear - Hkc Hj. destruct Hkc as [ Ek | Ek ]; rewrite Ek in Hj; destruct j as [ | [ | [ | j ] ] ]; cbn in Hj; try discriminate Hj; try (injection Hj as <-; eexists; reflexivity); destruct j; discriminate Hj.
  - exists w', t'. split; [ reflexivity | ]. split; [ exact Hlen | ]. split; [ exact E | ].
    intros i c p ms A B. destruct (Hp i c p ms A B) as (pictures & <- & H). split; [ | exact H ].
    rewrite nth_error_map, A in B. cbn [option_map] in B. injection B as <- <-. destruct (Hk c (nth_error_In _ _ A)) as [ -> | -> ]; cbn; lia.
Qed.
(** the second medoid of the first clustering has no model: one complete picture, two rows, an AttributeError; there is no table for the other three clusterings *)
Example C139_stops_ex : exists r suite c c2 after w' t' file pictures members,
  ready ex7_env (fun _ => Ok (qregion ex27_d None)) "nordeste_small_2015_2015_1spd" r ex27_d None ex7_matrix (fun q pt => Fin (ex7_dist q pt)) /\
  get_suite "kmedoids" "quick" = Ok suite /\ suite = c :: c2 :: after /\ c_k c = 2%Z /\
  auto_arima_error_analysis_with_plots ex7_choice ex7_env (fun _ => Ok (qregion ex27_d None)) (fun _ => "v"%string) ex27_fit (fun _ => (1, 0, 1)%Z) (fun m => m) ex25_forecast ex25_search (fun _ _ => ex39_ran)
    (ex36_world ex36_bad suite) (fun _ => None) "nordeste_small_2015_2015_1spd" "simple_kmedoids_quick" "MSE" = (w', t', Some AttributeError) /\
  t' (auto_arima_errors_at "nordeste_small_2015_2015_1spd" c "MSE") = Some file /\
  search_rows (fun v => v) (fun _ => (1, 0, 1)%Z) (fun m => m) 7 10 (ex36_partition 2) (ex36_bad 2) ex27_model ex27_forecasts ex27_error 2 file /\
  t' (auto_arima_errors_at "nordeste_small_2015_2015_1spd" c2 "MSE") = None /\
  search_pictures (fun _ => (1, 0, 1)%Z) "nordeste_small_2015_2015_1spd" c "MSE" 7 10 (ex36_partition 2) (ex36_bad 2) (fun q pt => Fin (ex7_dist q pt)) ex27_model ex27_error 1 pictures /\
  snd (use_auto_arima_errors_with_plots ex27_fit (fun _ => (1, 0, 1)%Z) (fun m => m) ex25_forecast ex25_search r (qregion ex27_d None) simple "MSE" (fun _ _ => ex39_ran) c (ex36_partition 2) (ex36_bad 2)) =
    (pictures ++ [[Points (map (fun pt => Fin (ex7_dist (0, 0)%Z pt)) members) (map (ex27_error (0, 0)%Z) members)]])%list.
Proof.
  destruct ex27_ready as [ r Hready ]. exists r. destruct (get_suite "kmedoids" "quick") as [ suite | ] eqn:Hs; [ | discriminate ]. exists suite.
  assert (Hc : exists c c2 after, suite = c :: c2 :: after /\ c_k c = 2%Z /\
     auto_arima_errors_at "nordeste_small_2015_2015_1spd" c2 "MSE" <> auto_arima_errors_at "nordeste_small_2015_2015_1spd" c "MSE").
  { vm_compute in Hs. injection Hs as <-. eexists _, _, _. split; [ reflexivity | ]. split; [ reflexivity | ]. apply (proj1 (String.eqb_neq _ _)). vm_compute. reflexivity. }
  destruct Hc as (c & c2 & after & Es & Hck & Hc2). exists c, c2, after.
  destruct (ex36_outcomes ex36_bad r suite Hready Hs (or_intror eq_refl)) as [ Ho Hk ].
  assert (Hx : searched "simple_kmedoids_quick" "kmedoids" "quick") by (split; [ reflexivity | left; reflexivity ]).
  assert (Ho1 : outcomes ex7_choice ex7_env (w_pickles (ex36_world ex36_bad suite)) r ex27_d None ex7_matrix ([] ++ [c])%list ([] ++ [(ex36_partition 2, ex36_bad 2)])%list).
  { cbn [w_pickles ex36_world app]. revert Ho. generalize (ex36_saved ex36_bad suite). rewrite Es. intros fs Ho. cbn [map] in Ho. rewrite Hck in Ho. inversion Ho; subst. constructor; [ assumption | constructor ]. }
  assert (Hm : forall j med, nth_error (ex36_bad 2) j = Some med -> _) by
    (intros j med Hj; exact (ex39_made r (ex36_partition 2) j med Hready (ex36_valid 2%Z (or_introl eq_refl))
       (proj1 (ex36_labels ex36_bad 2%Z j med (or_introl eq_refl) (or_intror eq_refl) Hj)) (proj2 (ex36_labels ex36_bad 2%Z j med (or_introl eq_refl) (or_intror eq_refl) Hj)))).
  destruct (C139_stops fnum ex7_choice ex7_env (fun _ => Ok (qregion ex27_d None)) (fun _ => "v"%string) ex27_fit (fun _ => (1, 0, 1)%Z) (fun m => m) ex25_forecast ex25_search (fun v => v) (Some 4%Z) (Fin 7)
    (fun _ _ => ex39_ran) (ex36_world ex36_bad suite) (fun _ => None) _ r ex27_d None ex7_matrix _ _ _ _ [] [] c (c2 :: after) (ex36_partition 2) (ex36_bad 2) 1 (0, 0)%Z "MSE" mse
    ex27_model ex27_forecasts ex27_error
    Hready Hx ltac:(rewrite Hs, Es; reflexivity) eq_refl Ho1 ltac:(cbn; lia) ltac:(cbn; lia) eq_refl) as (w' & t' & file & pictures & members & E & _ & T & R & T2 & Hp & _ & Hs' & _).
  - intros i ? ? ? A. destruct i; discriminate A.
  - intros i' med' Hi' Hlt. split; [ exact (Hm i' med' Hi') | ]. assert (i' = 0) by lia. subst i'. cbn in Hi'. injection Hi' as <-. eexists. reflexivity.
  - reflexivity.
  - exact (Hm 1 (0, 0)%Z eq_refl).
  - reflexivity.
  - exists w', t', file, pictures, members. split; [ exact Hready | ]. split; [ reflexivity | ]. split; [ exact Es | ]. split; [ exact Hck | ]. split; [ exact E | ]. split; [ exact T | ]. split; [ exact R | ].
    split; [ | split; [ exact Hp | exact Hs' ] ]. rewrite T2; [ reflexivity | exact Hc2 | ]. intros i ? ? ? A. destruct i; discriminate A.
Qed.
(** C139: one would expect --plots to add pictures and nothing else.  This is false: when the search finds no model for a medoid, all tables are
    written without --plots, and with --plots the program ends before the tables of the other clusterings are begun. *)
Theorem C139_same_tables_refuted : ~ (forall M choice env create_instance format_coverage fit order_of aic_of forecast search sqrt workers junk plain ran (w : world M) t region r d sc D dist experiment ty sid suite
    results et func (mo : point -> option M) fo err,
  let kind := auto_arima_kind fit forecast search in
  ready env create_instance region r d sc D dist -> searched experiment ty sid -> get_suite ty sid = Ok suite ->
  outcomes choice env (w_pickles w) r d sc D suite results ->
  8 <= a3t d -> workers_ok workers -> get_error_func et = Ok func ->
  (forall c i cluster med, plain c i cluster med = (z <- ran c i cluster med ;; Ok (fst z))) ->
  each suite results (fun c p ms => forall i med, nth_error ms i = Some med ->
    label_at p med (Z.of_nat i) /\
    (forall members, cluster_points p (a3x d) (a3y d) (Z.of_nat i) members -> forecasts kind simple func d sc 8 members mo fo err) /\
    analyzed_then_draws kind sqrt (full2 (a3x d) (a3y d) (Some simple)) workers junk env (fun m => Ok (order_of m)) (Some (dmeta_of r)) (DObj PlainDTW (Some D) false)
      (TCluster (qregion d sc) p (Z.of_nat i)) med et (ran c (Z.of_nat i) (TCluster (qregion d sc) p (Z.of_nat i)) med)) ->
  forall q, snd (fst (auto_arima_error_analysis_with_plots choice env create_instance format_coverage fit order_of aic_of forecast search ran w t region experiment et)) q =
            snd (fst (auto_arima_error_analysis choice env create_instance format_coverage fit order_of aic_of forecast search plain w t region experiment et)) q).
Proof.
  intros H. destruct C139_stops_ex as (r & suite & c & c2 & after & w' & t' & file & pictures & members & Hready & Hs & Es & Hck & E & _ & _ & T & _).
  destruct (ex36_outcomes ex36_bad r suite Hready Hs (or_intror eq_refl)) as [ Ho Hk ]. rewrite Forall_forall in Hk.
  assert (Hx : searched "simple_kmedoids_quick" "kmedoids" "quick") by (split; [ reflexivity | left; reflexivity ]).
  assert (Hm : forall c0 j med, In c0 suite -> nth_error (ex36_bad (c_k c0)) j = Some med -> valid_partition (ex36_partition (c_k c0)) 7 10 /\ in_grid 7 10 med /\ label_at (ex36_partition (c_k c0)) med (Z.of_nat j)).
  { intros c0 j med Hin Hj. split; [ apply ex36_valid, Hk, Hin | ]. apply (ex36_labels ex36_bad _ _ _ (Hk c0 Hin) (or_intror eq_refl) Hj). }
  destruct (C129_written fnum ex7_choice ex7_env (fun _ => Ok (qregion ex27_d None)) (fun _ => "v"%string) ex27_fit (fun _ => (1, 0, 1)%Z) (fun m => m) ex25_forecast ex25_search (fun v => v) (Some 4%Z) (Fin 7)
    (fun _ _ => ex27_ran) (ex36_world ex36_bad suite) (fun _ => None) _ r ex27_d None ex7_matrix _ _ _ _ suite _ "MSE" mse ex27_model ex27_forecasts ex27_error
    Hready Hx Hs Ho ltac:(cbn; lia) ltac:(cbn; lia) eq_refl) as (w2 & t2 & E2 & [ T2 _ ] & _).
  { intros i c0 p ms A B j med Hj. rewrite nth_error_map, A in B. cbn [option_map] in B. injection B as <- <-. destruct (Hm c0 j med (nth_error_In _ _ A) Hj) as (V & Hg & Hl).
    apply (ex27_made ex39_kind simple _ j med V Hg Hl); try reflexivity.
    intros v s. destruct v as [ | | | [ [ | ? | ? ] [ ? | ? | ] ] ]; reflexivity. }
  destruct (T2 1 c2 (ex36_partition (c_k c2)) (ex36_bad (c_k c2))) as (file2 & F2 & _).
  { rewrite Es. reflexivity. } { rewrite Es. reflexivity. }
  specialize (H fnum ex7_choice ex7_env (fun _ => Ok (qregion ex27_d None)) (fun _ => "v"%string) ex27_fit (fun _ => (1, 0, 1)%Z) (fun m => m) ex25_forecast ex25_search (fun v => v) (Some 4%Z) (Fin 7)
    (fun _ _ => ex27_ran) (fun _ _ => ex39_ran)
    (ex36_world ex36_bad suite) (fun _ => None) _ r ex27_d None ex7_matrix _ _ _ _ suite _ "MSE"%string mse ex27_model ex27_forecasts ex27_error
    Hready Hx Hs Ho ltac:(cbn; lia) ltac:(cbn; lia) eq_refl).
  assert (Q : @None csv_file = Some file2).
  { rewrite <- T, <- F2. change t' with (snd (fst (w', t', Some AttributeError))). rewrite <- E. change t2 with (snd (fst (w2, t2, @None exn))). rewrite <- E2. apply H.
    - intros c0 i cluster med. destruct cluster as [ | | spt p k ]; reflexivity.
    - intros i c0 p ms A B j med Hj. rewrite nth_error_map, A in B. cbn [option_map] in B. injection B as <- <-. destruct (Hm c0 j med (nth_error_In _ _ A) Hj) as (V & Hg & Hl).
      apply (ex39_made r _ j med Hready V Hg Hl). }
  discriminate Q.
Qed.
Print Assumptions C139_same_tables_refuted.
