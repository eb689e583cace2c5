(** C134-C135: the picture of distances and forecast errors, and the program that prints the errors of a region. *)
From Coq Require Import String Lia QArith Sorted.
From Verif Require Import Base.Py Base.PyFacts Base.Str Base.StrFacts Base.Arr Base.ArrFacts Base.Float Base.FloatFacts Base.Dict Base.DictFacts Model.Region Model.Series Model.Arrays Model.Errors Model.Models
  Model.Distance Model.Clustering Model.Solver Model.SolverFiles Model.Forecast Model.Results Model.Reports Model.Programs Model.DistanceProgram Model.SuitePrograms Model.ErrorPlot
  Spec.Grid Spec.Partition Spec.Distance Spec.Solver Spec.Algorithms Spec.Reports Spec.TrainingErrors Spec.ErrorPlot
  Proofs.RegionFacts Proofs.PartitionFacts Proofs.ProperFacts Proofs.SeriesFacts Proofs.SolverFacts Proofs.DistanceFacts Proofs.DistanceObjFacts Proofs.ForecastFacts
  Proofs.ReportFacts Proofs.NameFacts Proofs.AnalysisRunFacts Props.Forecast Props.Programs Props.PartitionAnalysis Props.SuitePrograms Props.Reports Props.TrainingErrors.
From Coq Require Import ZifyBool ZifyNat.
Close Scope Q_scope.
Local Open Scope string_scope.
Local Open Scope nat_scope.
Local Notation length := List.length.

(* ---------------------------------------------------------------- C134 *)
(** the analysis of a cluster, after analyze_errors *)
Lemma analysis_left {P M} (kind : model_kind P M) sqrt workers junk d sc pc ap n et mo fo med result a' : qwf d sc -> pc_ok pc (a3x d) (a3y d) -> n <= a3t d ->
  (forall pt, In pt (filter (pc_memb pc) (grid (a3x d) (a3y d))) -> forecast_at kind ap d n pt (mo pt) (Ok (fo pt)) /\ length (fo pt) = n) ->
  analyze_errors kind sqrt (train kind (full2 (a3x d) (a3y d) (Some ap))) workers junk (creg d sc pc) (Some med) et n new_analysis result a' ->
  exists d1 d2 models f, (exists m, f = Some (creg m sc pc) /\ wf3 m /\ a3x m = a3x d /\ a3y m = a3y d /\
      forall pt, In pt (filter (pc_memb pc) (grid (a3x d) (a3y d))) -> series3 m (fst pt) (snd pt) = Ok (fo pt)) /\
    a' = Analysis (Some (Data (creg d sc pc) (creg d1 sc pc) (creg d2 sc pc) n)) (Some models) f /\
    (forall pt, In pt (filter (pc_memb pc) (grid (a3x d) (a3y d))) -> get2 models (fst pt) (snd pt) = Ok (cell_of (mo pt))) /\
    qwf d1 sc /\ qwf d2 sc /\ a3x d1 = a3x d /\ a3y d1 = a3y d /\ a3x d2 = a3x d /\ a3y d2 = a3y d /\
    (forall pt s, in_grid (a3x d) (a3y d) pt -> series3 d (fst pt) (snd pt) = Ok s ->
      series3 d1 (fst pt) (snd pt) = Ok (firstn (length s - n) s) /\ series3 d2 (fst pt) (snd pt) = Ok (skipn (length s - n) s)).
Proof.
  intros Hq Hpc Hn Hmo Ha. destruct (c_split d sc pc n Hq Hn) as (d1 & d2 & Es & Hq1 & Hq2 & _ & _ & X1 & Y1 & X2 & Y2 & S).
  destruct (train_all kind sqrt junk d sc pc ap Hpc d1 mo Hq1 X1 Y1) as (models & Et & Xm & Ym & G).
  { intros pt s Hin Es1. destruct (Hmo pt Hin) as [ (s0 & Es0 & Ht & _) _ ]. apply filter_In in Hin as Hg. destruct Hg as [ Hg _ ]. apply in_grid_iff in Hg.
    destruct (S pt s0 Hg Es0) as [ Q _ ]. rewrite Es1 in Q. injection Q as ->. exact Ht. }
  destruct (forecast_all kind sqrt junk d sc pc n Hq Hpc d1 (creg d2 sc pc) models mo fo Hq1 X1 Y1 Xm Ym) as (m & Ef & Wm & Xf & Yf & Sf).
  { intros pt Hin. split; [ apply G, Hin | ]. destruct (Hmo pt Hin) as [ (s0 & _ & _ & H) L ]. auto. }
  exists d1, d2, models, (Some (creg m sc pc)). split; [ exists m; auto | ]. split; [ | auto 20 ].
  unfold analyze_errors, train_models in Ha. rewrite Es, Et in Ha. cbn [fst] in Ha.
  unfold forecast_at_each_point, check_forecast_request in Ha. cbn [an_data an_models da_len] in Ha. rewrite Nat.eqb_refl in Ha. cbn [py_assert bind] in Ha. rewrite Ef in Ha.
  cbn [error_analysis_of da_test da_training] in Ha.
  destruct (with_forecast_region _ _ _) as [ E | e ]; cbn [bind] in Ha.
  - destruct Ha as (ov & a3 & Hw & -> & _). unfold forecast_whole_region_with_all_models, reuse_forecast, check_forecast_request in Hw.
    cbn [an_data an_models an_forecast da_len] in Hw. rewrite Nat.eqb_refl in Hw. cbn [py_assert bind] in Hw. apply Hw.
  - destruct Ha as [ _ -> ]. reflexivity.
Qed.

(** C134: after the error analysis of a cluster (whatever its outcome), the picture has one point for each point of the cluster, in the order of
    the grid: to the right its entry in the medoid's row of the distance matrix, upwards the error there of the forecast of the medoid's model.
    When the model of the medoid has no order (no model could be fitted, or the library's model does not have this attribute), the points are
    drawn, but nothing is saved.  The distances and the analysis are left as they were. *)
Theorem C134_picture : forall P M (kind : model_kind P M) sqrt workers junk env (order_of : M -> res pdq) md o D (d : arr3 fnum) sc p k members ap n et func mo fo err med result a',
  qwf d sc -> valid_partition p (a3x d) (a3y d) -> cluster_points p (a3x d) (a3y d) k members -> n <= a3t d -> get_error_func et = Ok func ->
  forecasts kind ap func d sc n members mo fo err -> In med members ->
  d_matrix o = Some D -> square (a3x d * a3y d) D ->
  analyze_errors kind sqrt (train kind (full2 (a3x d) (a3y d) (Some ap))) workers junk (TCluster (qregion d sc) p k) (Some med) et n new_analysis result a' ->
  exists dist, (forall pt, In pt members -> entry D (index_of (a3y d) med) (index_of (a3y d) pt) = Some (dist pt)) /\
    forall file desc,
      plot_distances_vs_errors kind workers junk env order_of md med n et file desc o a' =
        (match (match mo med with Some m => order_of m | None => Raise AttributeError end) with
         | Ok order => (complete_picture members dist (err med) order et desc file, None)
         | Raise e => ([Points (map dist members) (map (err med) members)], Some e)
         end, o, a').
Proof.
  intros P M kind sqrt workers junk env order_of md o D d sc p k members ap n et func mo fo err med result a' Hq Hv Hc Hn Hf [ H1 H2 ] Hmed Ho HD Ha.
  pose proof (cluster_members _ _ _ _ _ Hv Hc) as E. set (pc := Some (p, k)). assert (Hpc : pc_ok pc (a3x d) (a3y d)) by exact Hv.
  change (has_lab p k) with (pc_memb pc) in E.
  pose proof (members_iff p _ _ k Hv) as Hmem. change (has_lab p k) with (pc_memb pc) in Hmem. rewrite <- E in Hmem.
  change (TCluster (qregion d sc) p k) with (creg d sc pc) in Ha.
  destruct (analysis_left kind sqrt workers junk d sc pc ap n et mo fo med result a' Hq Hpc Hn) as (d1 & d2 & models & f & (m & -> & Wm & Xm & Ym & Sm) & -> & G & Hq1 & Hq2 & X1 & Y1 & X2 & Y2 & S);
    [ rewrite <- E; exact H1 | exact Ha | ].
  rewrite <- E in *. apply Hmem in Hmed as Hmed2. destruct Hmed2 as [ Hg Hl ].
  assert (Hpm : forall pt, in_grid (a3x d) (a3y d) pt -> (pc_memb pc pt = true <-> label_at p pt k)) by (intros pt Hg'; apply (has_lab_iff p _ _ k pt Hv Hg')).
  (* the points and their indices *)
  assert (Egm : filter (fun pt => (label_of p pt =? k)%Z) (grid (a3x d) (a3y d)) = members).
  { rewrite E. apply filter_ext_in. intros pt Hin. apply in_grid_iff in Hin. symmetry. apply (has_lab_label_of p _ _ pt k Hv Hin). }
  destruct (all_point_indices_cluster p (qregion d sc) _ _ k Hv (q_x d sc) (q_y d sc)) as (ns & Ens & _ & Hns). rewrite Egm in Hns.
  assert (Hns' : ns = map (index_of (a3y d)) members).
  { rewrite Hns. apply map_ext_in. intros pt Hin. apply Hmem in Hin. destruct (index_of_encode _ _ _ (proj1 Hin)) as [ -> _ ]. apply Nat2Z.id. }
  destruct (row_ok (a3x d * a3y d) D (index_of (a3y d) med) ns HD) as [ Erow Hrow ].
  { apply (index_of_encode _ _ _ Hg). }
  { intros j Hj. rewrite Hns' in Hj. apply in_map_iff in Hj. destruct Hj as (q & <- & Hqm). apply Hmem in Hqm. apply (index_of_encode _ _ _ (proj1 Hqm)). }
  set (dist := fun pt => entry_or D (index_of (a3y d) med) (index_of (a3y d) pt)).
  assert (Edist : distances_to_point env (creg d sc pc) md med ns true true o = (Ok (map dist members), o)).
  { unfold distances_to_point. cbn [negb]. rewrite Ho. unfold distances_to_point_with_matrix. rewrite Ho, c_y.
    destruct (index_of_encode _ _ _ Hg) as [ -> _ ]. rewrite Erow. rewrite Hns', map_map. reflexivity. }
  (* errors *)
  destruct (repeated_errors d1 d2 sc pc (fo med) et func workers (err med) Hq1 Hq2) as (R & ER & Eit & _); try congruence.
  { rewrite X2, Y2. intros pt s1 s2 Hg' Hm E1 E2. destruct (H2 med pt Hmed) as (s & f' & a & b & Es & Hff & Ha' & Hb & Hvv); [ apply Hmem; split; [ exact Hg' | apply Hpm; assumption ] | ].
    destruct (S pt s Hg' Es) as [ E1' E2' ]. assert (s1 = firstn (length s - n) s) by congruence. assert (s2 = skipn (length s - n) s) by congruence. subst s1 s2. eauto 10. }
  rewrite X2, Y2, <- E in Eit.
  exists dist. split.
  - intros pt Hin. rewrite Hns' in Hrow. unfold row_at in Hrow. unfold dist.
    clear - Hrow Hin. induction members as [ | q l IH ]; [ destruct Hin | ]. cbn [map] in Hrow. inversion Hrow; subst. destruct Hin as [ <- | Hin ]; auto.
  - intros file desc. unfold plot_distances_vs_errors, check_forecast_request. cbn [an_data an_models da_len]. rewrite Nat.eqb_refl. cbn [py_assert bind da_region].
    change (all_point_indices (TCluster (qregion d sc) p k)) with (all_point_indices (creg d sc pc)) in Ens. rewrite Ens, Edist.
    unfold forecast_whole_region_with_single_model, reuse_forecast, check_forecast_request. cbn [an_data an_models an_forecast da_len]. rewrite Nat.eqb_refl. cbn [py_assert bind].
    rewrite c_series_at; [ | rewrite Xm, Ym; assumption .. | apply Hpm; assumption ]. rewrite (Sm med Hmed). unfold error_analysis_of. cbn [bind da_test da_training]. rewrite ER. cbn [bind].
    rewrite Eit. rewrite !map_map, !map_length, Nat.eqb_refl. cbn [snd]. rewrite (G med Hmed). cbn [bind].
    destruct (mo med) as [ mm | ]; cbn [cell_of order_attribute]; [ destruct (order_of mm) | ]; reflexivity.
Qed.
Print Assumptions C134_picture.

(** C134: a picture of another length than that of the analysis is refused, and so is one before any analysis; nothing is drawn then. *)
Theorem C134_refused : forall P M (kind : model_kind P M) workers junk env (order_of : M -> res pdq) md o med n et file desc a,
  (forall d, an_data a = Some d -> da_len d <> n -> plot_distances_vs_errors kind workers junk env order_of md med n et file desc o a = (([], Some AssertionError), o, a)) /\
  (plot_distances_vs_errors kind workers junk env order_of md med n et file desc o new_analysis = (([], Some AttributeError), o, new_analysis)).
Proof.
  intros. split; [ | reflexivity ]. intros dd Hd Hn. unfold plot_distances_vs_errors, check_forecast_request. rewrite Hd.
  destruct (Nat.eqb_spec (da_len dd) n) as [ | _ ]; [ contradiction | ]. destruct (Nat.eqb_spec n (da_len dd)); [ congruence | ]. reflexivity.
Qed.
Print Assumptions C134_refused.

(** C134: no picture replaces another: within one suite of orders and one clustering, other clusters and other orders have other files. *)
Lemma order_name_inj a b s t : order_name a ++ s = order_name b ++ t -> nodigit s -> nodigit t -> a = b /\ s = t.
Proof.
  destruct a as [ [ p d ] q ], b as [ [ p' d' ] q' ]. unfold order_name. intros E Hs Ht. rewrite !sapp_assoc in E. apply (sapp_inj_l "p") in E.
  apply str_int_prefix in E; [ | reflexivity | reflexivity ]. destruct E as [ -> E ]. apply (sapp_inj_l "-d") in E.
  apply str_int_prefix in E; [ | reflexivity | reflexivity ]. destruct E as [ -> E ]. apply (sapp_inj_l "-q") in E.
  apply str_int_prefix in E; [ | assumption | assumption ]. destruct E as [ -> E ]. auto.
Qed.
Theorem C134_names : forall c r suite params et i j order order',
  (arima_plot_path c r suite et ("cluster" ++ str_int i) order = arima_plot_path c r suite et ("cluster" ++ str_int j) order' -> i = j /\ order = order') /\
  (auto_arima_plot_path c r params et ("cluster" ++ str_int i) order = auto_arima_plot_path c r params et ("cluster" ++ str_int j) order' -> i = j /\ order = order').
Proof.
  intros. split; intros E.
  - unfold arima_plot_path in E. destruct (path_join_dir (path_join (clustering_output_dir c r "dtw" "outputs") ("arima-" ++ suite))) as (pre & Epre).
    rewrite !Epre in E by (cbn; intros; discriminate). apply sapp_inj_l in E. apply (sapp_inj_l "dist-error__") in E. apply sapp_inj_l in E.
    apply (sapp_inj_l "__") in E. apply sapp_inj_l in E. apply (sapp_inj_l "__") in E. rewrite !sapp_assoc in E. apply (sapp_inj_l "cluster") in E.
    apply str_int_prefix in E; [ | reflexivity | reflexivity ]. destruct E as [ -> E ]. apply (sapp_inj_l "__arima-") in E.
    apply order_name_inj in E; [ | reflexivity | reflexivity ]. split; [ reflexivity | apply E ].
  - unfold auto_arima_plot_path in E. destruct (path_join_dir (path_join (clustering_output_dir c r "dtw" "outputs") (params_repr params))) as (pre & Epre).
    rewrite !Epre in E by (cbn; intros; discriminate). apply sapp_inj_l in E. apply (sapp_inj_l "dist-error__") in E. apply sapp_inj_l in E.
    apply (sapp_inj_l "__") in E. apply sapp_inj_l in E. apply (sapp_inj_l "__") in E. rewrite !sapp_assoc in E. apply (sapp_inj_l "cluster") in E.
    apply str_int_prefix in E; [ | reflexivity | reflexivity ]. destruct E as [ -> E ]. apply (sapp_inj_l "__auto-arima-") in E.
    apply order_name_inj in E; [ | reflexivity | reflexivity ]. split; [ reflexivity | apply E ].
Qed.
Print Assumptions C134_names.

(* ---------------------------------------------------------------- C135 *)
Section Suite.
Context {M : Type} (fit : pdq -> list fnum -> res M) (forecast : M -> nat -> res (list fnum)) (sqrt : fnum -> fnum) (junk : fnum).
Local Notation ran := (errors_with_order fit forecast sqrt junk).
Local Notation suite := (errors_of_suite fit forecast sqrt junk).

Lemma pdq_eqb_spec a b : pdq_eqb a b = true <-> a = b.
Proof. destruct a as [ [ p d ] q ], b as [ [ p' d' ] q' ]. unfold pdq_eqb. rewrite !Bool.andb_true_iff, !Z.eqb_eq. split; [ intros [ [ -> -> ] -> ]; reflexivity | intros [= -> -> ->]; auto ]. Qed.

Lemma suite_ends spt centroid w orders : forall dict result, NoDup (map fst dict ++ orders) -> suite spt centroid w orders dict result ->
  (exists found, result = Ok (dict ++ found)%list /\ map fst found = orders /\ Forall (fun it => ran spt centroid w (fst it) (Ok (snd it))) found) \/
  (exists before order after e, orders = (before ++ order :: after)%list /\ result = Raise e /\ ran spt centroid w order (Raise e) /\
     Forall (fun o => exists fe, ran spt centroid w o (Ok fe)) before).
Proof.
  induction orders as [ | order orders IH ]; intros dict result Hnd H; inversion H; subst.
  - left. exists []. rewrite app_nil_r. auto.
  - assert (Hfresh : dict_set pdq_eqb order e dict = (dict ++ [(order, e)])%list).
    { apply NoDup_remove_2 in Hnd. assert (~ In order (map fst dict)) by (intros Hin; apply Hnd, in_or_app; auto). clear - H0. induction dict as [ | [ k v ] dict IH ]; [ reflexivity | ].
      cbn [dict_set map fst In app] in *. destruct (pdq_eqb k order) eqn:E; [ apply pdq_eqb_spec in E; subst; exfalso; auto | ]. rewrite IH by auto. reflexivity. }
    rewrite Hfresh in *. destruct (IH (dict ++ [(order, e)])%list result) as [ (found & -> & Hf & Hr) | (before & o & after & e' & -> & -> & Hr & Hb) ]; [ | assumption | | ].
    + rewrite map_app. cbn [map fst]. rewrite <- app_assoc. exact Hnd.
    + left. exists ((order, e) :: found). rewrite <- app_assoc. cbn [app map fst]. rewrite Hf. repeat split; auto.
    + right. exists (order :: before), o, after, e'. repeat split; auto. constructor; eauto.
  - right. exists [], order, orders, e. repeat split; auto.
Qed.
Lemma suite_runs spt centroid w : forall orders dict (fe : pdq -> forecast_errors), (forall o, In o orders -> ran spt centroid w o (Ok (fe o))) -> exists result, suite spt centroid w orders dict (Ok result).
Proof.
  induction orders as [ | o orders IH ]; intros dict fe H; [ exists dict; constructor | ]. destruct (IH (dict_set pdq_eqb o (fe o) dict) fe) as [ r Hr ]; [ intros q Hq; apply H; right; exact Hq | ].
  exists r. eapply suite_next; [ apply H; left; reflexivity | exact Hr ].
Qed.
End Suite.

Lemma asked parallel workers : workers_asked parallel workers ->
  match parallel with None => Ok None | Some s => if (s =? "")%string then Ok None else n <- py_int s ;; Ok (Some n) end = Ok workers.
Proof.
  unfold workers_asked. destruct parallel as [ s | ]; [ | congruence ]. intros [ [ -> -> ] | (Hne & n & E & ->) ]; [ reflexivity | ].
  destruct (String.eqb_spec s ""); [ contradiction | ]. rewrite E. reflexivity.
Qed.
Lemma centroid_found calculate region r : region_by_name region = Ok r -> centroid_by_region_and_distance calculate region "DistanceByDTW" = calculate r.
Proof. apply (proj1 (C112_centroids calculate region)). Qed.

(** C135: the program prints one line for each order of the suite, in the order of the suite, with the errors of the models of that order:
    when each point has its own model, and overall those of the models of the point with the least error and of the centroid.  It ends, and
    every run prints the same. *)
Theorem C135_lines : forall M (fit : pdq -> list fnum -> res M) forecast sqrt junk create_instance calculate region arima parallel r d sc centroid workers orders func mo fo err,
  region_by_name region = Ok r -> create_instance r = Ok (qregion d sc) -> calculate r = Ok centroid -> arima_suite_by_name arima = Ok orders -> get_error_func "MASE" = Ok func ->
  workers_asked parallel workers -> workers_ok workers -> qwf d sc -> 8 <= a3t d -> in_grid (a3x d) (a3y d) centroid ->
  (forall order, In order orders -> forecasts (arima_kind fit forecast) (Some order) func d sc 8 (grid (a3x d) (a3y d)) (mo order) (fo order) (err order)) ->
  exists lines, arima_forecast fit forecast sqrt junk create_instance calculate region arima parallel lines None /\
    Forall2 (fun order line => line_for sqrt (grid (a3x d) (a3y d)) centroid order (fo order) (err order) line) orders lines /\
    forall lines' failure, arima_forecast fit forecast sqrt junk create_instance calculate region arima parallel lines' failure -> lines' = lines /\ failure = None.
Proof.
  intros M fit forecast sqrt junk create_instance calculate region arima parallel r d sc centroid workers orders func mo fo err Hr Hi Hc Hs Hf Hw Hok Hq Hn Hg Hfo.
  assert (Est : (r <- region_by_name region ;;
         spt <- create_instance r ;;
         centroid <- centroid_by_region_and_distance calculate region "DistanceByDTW" ;;
         workers <- match parallel with None => Ok None | Some s => if (s =? "")%string then Ok None else n <- py_int s ;; Ok (Some n) end ;;
         orders <- arima_suite_by_name arima ;;
         Ok (spt, centroid, workers, orders)) = Ok (qregion d sc, centroid, workers, orders)).
  { rewrite (asked _ _ Hw), (centroid_found _ _ _ Hr), Hr. cbn [bind]. rewrite Hi. cbn [bind]. rewrite Hc. cbn [bind]. rewrite Hs. reflexivity. }
  set (sum := fun order => summary sqrt d None (fo order) (err order) centroid).
  assert (Hin : In centroid (filter (pc_memb None) (grid (a3x d) (a3y d)))) by (apply filter_In; split; [ apply in_grid_iff; exact Hg | reflexivity ]).
  assert (Hrun : forall order result, In order orders -> (errors_with_order fit forecast sqrt junk (qregion d sc) centroid workers order result <-> result = Ok (sum order))).
  { intros order result Ho. destruct (Hfo order Ho) as [ H1 H2 ]. unfold errors_with_order. rewrite q_x, q_y. rewrite <- (filter_all (grid _ _)) in H1, H2.
    pose proof (fun a' => analysis_run (arima_kind fit forecast) sqrt workers junk d sc None (Some order) 8 Hq I Hn "MASE" func Hf (mo order) (fo order) (err order) H1 H2 centroid result a' Hok Hin) as H.
    split; [ intros [ a' Ha ]; apply (H a'), Ha | ]. intros ->. apply (H new_analysis). }
  assert (Hnd : NoDup orders) by apply (C112_arima_suites _ _ Hs).
  destruct (suite_runs fit forecast sqrt junk (qregion d sc) centroid workers orders [] sum) as [ dict Hd ]; [ intros order Ho; apply Hrun; auto | ].
  assert (Hdict : dict = map (fun order => (order, sum order)) orders).
  { destruct (suite_ends fit forecast sqrt junk _ _ _ orders [] _ Hnd Hd) as [ (found & E & Hk & Hall) | (? & ? & ? & ? & _ & E & _) ]; [ | discriminate ]. injection E as ->. cbn [app].
    assert (Hsub : forall it, In it found -> In (fst it) orders) by (intros it Hit; rewrite <- Hk; apply in_map; exact Hit).
    rewrite <- Hk, map_map. rewrite <- (map_id found) at 1. apply map_ext_in. intros [ order fe ] Hit. cbn [fst]. f_equal.
    rewrite Forall_forall in Hall. pose proof (Hall _ Hit) as Hx. apply Hrun in Hx; [ | apply (Hsub _ Hit) ]. cbn [fst snd] in Hx. congruence. }
  exists (map line_of dict). split; [ | split ].
  - unfold arima_forecast. rewrite Est. exists (Ok dict). auto.
  - subst dict. rewrite map_map. clear - sum. induction orders as [ | order orders IH ]; constructor; [ | exact IH ]. exists (sum order). split; [ | reflexivity ].
    pose proof (summary_spec sqrt d None (fo order) (err order) centroid) as H. rewrite filter_all in H. exact H.
  - intros lines' failure H. unfold arima_forecast in H. rewrite Est in H. destruct H as (result & Hres & Hout).
    destruct (suite_ends fit forecast sqrt junk _ _ _ orders [] _ Hnd Hres) as [ (found & -> & Hk & Hall) | (before & order & after & e & -> & -> & Hx & _) ].
    + destruct Hout as [ -> -> ]. split; [ | reflexivity ]. f_equal. cbn [app]. rewrite Hdict.
      assert (Hsub : forall it, In it found -> In (fst it) orders) by (intros it Hit; rewrite <- Hk; apply in_map; exact Hit).
      rewrite <- Hk, map_map. rewrite <- (map_id found) at 1. apply map_ext_in. intros [ order fe ] Hit. cbn [fst]. f_equal.
      rewrite Forall_forall in Hall. pose proof (Hall _ Hit) as Hx. apply Hrun in Hx; [ | apply (Hsub _ Hit) ]. cbn [fst snd] in Hx. congruence.
    + apply Hrun in Hx; [ discriminate | apply in_or_app; right; left; reflexivity ].
Qed.
Print Assumptions C135_lines.

(** C135: all or nothing: a run that fails prints nothing, also when the errors of earlier orders had been found; and a run that does not fail
    has a line for each order of the suite, once. *)
Theorem C135_all_or_nothing : forall M (fit : pdq -> list fnum -> res M) forecast sqrt junk create_instance calculate region arima parallel lines failure,
  arima_forecast fit forecast sqrt junk create_instance calculate region arima parallel lines failure ->
  match failure with
  | Some _ => lines = []
  | None => exists orders, arima_suite_by_name arima = Ok orders /\ map el_order lines = orders /\ NoDup orders
  end.
Proof.
  intros M fit forecast sqrt junk create_instance calculate region arima parallel lines failure H. unfold arima_forecast in H.
  destruct (region_by_name region) as [ r | ]; cbn [bind] in H; [ | destruct H as [ -> -> ]; reflexivity ].
  destruct (create_instance r) as [ spt | ]; cbn [bind] in H; [ | destruct H as [ -> -> ]; reflexivity ].
  destruct (centroid_by_region_and_distance _ _ _) as [ c | ]; cbn [bind] in H; [ | destruct H as [ -> -> ]; reflexivity ].
  destruct (match parallel with None => _ | Some s => _ end) as [ w | ]; cbn [bind] in H; [ | destruct H as [ -> -> ]; reflexivity ].
  destruct (arima_suite_by_name arima) as [ orders | ] eqn:Es; cbn [bind] in H; [ | destruct H as [ -> -> ]; reflexivity ].
  assert (Hnd : NoDup orders) by apply (C112_arima_suites _ _ Es).
  destruct H as (result & Hres & H). destruct (suite_ends fit forecast sqrt junk _ _ _ orders [] _ Hnd Hres) as [ (found & -> & Hk & _) | (? & ? & ? & e & _ & -> & _) ]; destruct H as [ -> -> ]; [ | reflexivity ].
  exists orders. split; [ reflexivity | ]. split; [ | exact Hnd ]. cbn [app]. rewrite map_map. exact Hk.
Qed.
Print Assumptions C135_all_or_nothing.

(** C135: the exception that ends a run: that of the region, of the centroid, of the number of workers or of the suite, else that of the first
    order whose analysis fails. *)
Theorem C135_failure : forall M (fit : pdq -> list fnum -> res M) forecast sqrt junk create_instance calculate region arima parallel e,
  arima_forecast fit forecast sqrt junk create_instance calculate region arima parallel [] (Some e) <->
  (region_by_name region = Raise e \/
   exists r, region_by_name region = Ok r /\
     (create_instance r = Raise e \/
      exists spt, create_instance r = Ok spt /\
        (calculate r = Raise e \/
         exists centroid, calculate r = Ok centroid /\
           ((exists s, parallel = Some s /\ s <> "" /\ py_int s = Raise e) \/
            exists workers, workers_asked parallel workers /\
              (arima_suite_by_name arima = Raise e \/
               exists before order after, arima_suite_by_name arima = Ok (before ++ order :: after)%list /\
                 errors_with_order fit forecast sqrt junk spt centroid workers order (Raise e) /\
                 Forall (fun o => exists fe, errors_with_order fit forecast sqrt junk spt centroid workers o (Ok fe)) before))))).
Proof.
  intros M fit forecast sqrt junk create_instance calculate region arima parallel e. unfold arima_forecast.
  destruct (region_by_name region) as [ r | e0 ] eqn:Er; cbn [bind].
  2:{ split; [ intros [ _ [= ->] ]; left; reflexivity | intros [ [= ->] | (r & H & _) ]; [ auto | discriminate ] ]. }
  rewrite (centroid_found _ _ _ Er).
  destruct (create_instance r) as [ spt | e0 ] eqn:Ei; cbn [bind].
  2:{ split; [ intros [ _ [= ->] ]; right; exists r; auto | intros [ H | (r' & [= <-] & [ H | (spt & H & _) ]) ]; [ discriminate | rewrite Ei in H; injection H as ->; auto | congruence ] ]. }
  destruct (calculate r) as [ c | e0 ] eqn:Ec; cbn [bind].
  2:{ split.
      - intros [ _ [= ->] ]. right. exists r. split; [ reflexivity | ]. right. exists spt. auto.
      - intros [ H | (r' & [= <-] & [ H | (spt' & H & [ H' | (c & H' & _) ]) ]) ]; congruence || (split; congruence). }
  assert (Hw : (exists s e0, parallel = Some s /\ s <> "" /\ py_int s = Raise e0 /\ match parallel with None => Ok None | Some s => if (s =? "")%string then Ok None else n <- py_int s ;; Ok (Some n) end = Raise e0) \/
               (exists w, workers_asked parallel w /\ match parallel with None => Ok None | Some s => if (s =? "")%string then Ok None else n <- py_int s ;; Ok (Some n) end = Ok w)).
  { destruct parallel as [ s | ]; [ | right; exists None; split; reflexivity ]. destruct (String.eqb_spec s "") as [ -> | Hne ]; [ right; exists None; split; [ left; auto | reflexivity ] | ].
    destruct (py_int s) as [ n | e0 ] eqn:En; [ right; exists (Some n); split; [ right; eauto | reflexivity ] | left; exists s, e0; auto ]. }
  assert (Hfun : forall w w', workers_asked parallel w -> workers_asked parallel w' -> w = w') by (intros w w' A B; apply asked in A; apply asked in B; congruence).
  destruct Hw as [ (s & e0 & -> & Hne & En & ->) | (w & Aw & ->) ]; cbn [bind].
  { split.
    - intros [ _ [= ->] ]. right. exists r. split; [ reflexivity | ]. right. exists spt. split; [ exact Ei | ]. right. exists c. split; [ exact Ec | ]. left. exists s. auto.
    - intros [ H | (r' & [= <-] & [ H | (spt' & H & [ H' | (c' & H' & [ (s' & [= <-] & _ & E) | (w & A & _) ]) ]) ]) ]; try congruence.
      + split; congruence.
      + destruct A as [ [ A _ ] | (_ & n & A & _) ]; congruence. }
  destruct (arima_suite_by_name arima) as [ orders | e0 ] eqn:Es; cbn [bind].
  2:{ split.
      - intros [ _ [= ->] ]. right. exists r. split; [ reflexivity | ]. right. exists spt. split; [ exact Ei | ]. right. exists c. split; [ exact Ec | ]. right. exists w. auto.
      - intros [ H | (r' & [= <-] & [ H | (spt' & H & [ H' | (c' & H' & [ (s' & -> & Hne & E) | (w' & A & [ E | (? & ? & ? & E & _) ]) ]) ]) ]) ]; try congruence; [ | split; congruence ].
        destruct Aw as [ [ A _ ] | (_ & n & A & _) ]; congruence. }
  assert (Hnd : NoDup orders) by apply (C112_arima_suites _ _ Es). split.
  - intros (result & Hres & H). destruct (suite_ends fit forecast sqrt junk _ _ _ orders [] _ Hnd Hres) as [ (found & -> & _ & _) | (before & order & after & e0 & -> & -> & Hx & Hb) ]; [ destruct H; discriminate | ].
    destruct H as [ _ [= ->] ]. right. exists r. split; [ reflexivity | ]. right. exists spt. split; [ exact Ei | ]. right. exists c. split; [ exact Ec | ]. right. exists w. split; [ exact Aw | ].
    right. exists before, order, after. auto.
  - intros [ H | (r' & [= <-] & [ H | (spt' & H & [ H' | (c' & H' & [ (s' & -> & Hne & E) | (w' & A & [ E | (before & order & after & E & Hx & Hb) ]) ]) ]) ]) ]; try congruence.
    + destruct Aw as [ [ A _ ] | (_ & n & A & _) ]; congruence.
    + rewrite (Hfun _ _ A Aw) in *. assert (spt' = spt) by congruence. assert (c' = c) by congruence. injection E as ->. subst. exists (Raise e). split; [ | auto ].
      clear - Hx Hb. generalize (@nil (pdq * forecast_errors)). induction Hb as [ | o before (fe & Ho) Hb IH ]; intros dict; cbn [app]; [ apply suite_fails; exact Hx | ]. eapply suite_next; [ exact Ho | apply IH ].
Qed.
Print Assumptions C135_failure.

(* ---------------------------------------------------------------- examples *)
Lemma ex34_partition : valid_partition (Crisp (full2 7 10 0%Z) 1) 7 10.
Proof.
  split; [ reflexivity | ]. split; [ reflexivity | ]. split; [ reflexivity | ]. split.
  - intros [ a b ] l Hg Hlab. unfold label_at, get2 in Hlab. cbn [labels full2 a2x a2y a2d fst snd pk] in *.
    destruct (norm_index 7 a) as [ i | ]; [ | discriminate ]. destruct (norm_index 10 b) as [ j | ]; [ | discriminate ].
    destruct (nth_error (repeat 0%Z (7 * 10)) (i * 10 + j)) as [ v | ] eqn:E; [ | discriminate ]. injection Hlab as <-. apply nth_error_In in E. apply repeat_spec in E. lia.
  - exists (0, 0)%Z. split; [ split; cbn; lia | reflexivity ].
Qed.
(** one cluster of 70 points: the medoid (3, 4) has a model and the picture is saved; the medoid (0, 0) has none *)
Example C134_ex : exists members a1 a2 dist1 dist2,
  cluster_points (Crisp (full2 7 10 0%Z) 1) 7 10 0 members /\ length members = 70 /\
  forecasts (arima_kind ex27_fit ex25_forecast) (Some (1, 0, 1)%Z) mse ex27_d None 8 members ex27_model ex27_forecasts ex27_error /\
  plot_distances_vs_errors (arima_kind ex27_fit ex25_forecast) (Some 4%Z) (Fin 7) ex7_env (fun _ => Ok (1, 0, 1)%Z) None (3, 4)%Z 8 "MSE" (Some "picture.pdf") "c" (DObj PlainDTW (Some ex7_matrix) false) a1 =
    ((complete_picture members dist1 (ex27_error (3, 4)%Z) (1, 0, 1)%Z "MSE" "c" (Some "picture.pdf"), None), DObj PlainDTW (Some ex7_matrix) false, a1) /\
  plot_distances_vs_errors (arima_kind ex27_fit ex25_forecast) (Some 4%Z) (Fin 7) ex7_env (fun _ => Ok (1, 0, 1)%Z) None (0, 0)%Z 8 "MSE" (Some "picture.pdf") "c" (DObj PlainDTW (Some ex7_matrix) false) a2 =
    (([Points (map dist2 members) (map (ex27_error (0, 0)%Z) members)], Some AttributeError), DObj PlainDTW (Some ex7_matrix) false, a2).
Proof.
  pose proof ex34_partition as V. set (p := Crisp (full2 7 10 0%Z) 1) in *. set (members := filter (has_lab p 0) (grid 7 10)).
  assert (Hc : cluster_points p 7 10 0 members) by (apply cluster_members_ok, V).
  assert (Hf : forecasts (arima_kind ex27_fit ex25_forecast) (Some (1, 0, 1)%Z) mse ex27_d None 8 members ex27_model ex27_forecasts ex27_error).
  { apply ex27_known; [ | reflexivity | reflexivity | apply Forall_forall; intros pt Hin; apply (members_iff _ 7 10 _ V) in Hin; apply Hin ].
    intros v s. destruct v as [ | | | [ [ | ? | ? ] [ ? | ? | ] ] ]; reflexivity. }
  destruct ex27_ready as (r & Hr & Hi & Hq & Hsp & Hl & HD & He).
  assert (Hrun : forall med, In med members -> exists a dist, forall file desc,
     plot_distances_vs_errors (arima_kind ex27_fit ex25_forecast) (Some 4%Z) (Fin 7) ex7_env (fun _ => Ok (1, 0, 1)%Z) None med 8 "MSE" file desc (DObj PlainDTW (Some ex7_matrix) false) a =
       (match (match ex27_model med with Some m => Ok (1, 0, 1)%Z | None => Raise AttributeError end) with
        | Ok order => (complete_picture members dist (ex27_error med) order "MSE" desc file, None)
        | Raise e => ([Points (map dist members) (map (ex27_error med) members)], Some e) end, DObj PlainDTW (Some ex7_matrix) false, a)).
  { intros med Hmed.
    destruct (C127_cluster _ _ (arima_kind ex27_fit ex25_forecast) (fun v => v) (Some 4%Z) (Fin 7) ex27_d None p 0%Z members (Some (1, 0, 1)%Z) 8 "MSE" mse ex27_model ex27_forecasts ex27_error med
      Hq V Hc ltac:(cbn; lia) ltac:(cbn; lia) eq_refl Hf Hmed) as (fe & _ & (a & Ha) & _).
    destruct (C134_picture _ _ (arima_kind ex27_fit ex25_forecast) (fun v => v) (Some 4%Z) (Fin 7) ex7_env (fun _ => Ok (1, 0, 1)%Z) None (DObj PlainDTW (Some ex7_matrix) false) ex7_matrix ex27_d None p 0%Z members
      (Some (1, 0, 1)%Z) 8 "MSE" mse ex27_model ex27_forecasts ex27_error med (Ok fe) a Hq V Hc ltac:(cbn; lia) eq_refl Hf Hmed eq_refl HD Ha) as (dist & _ & H). exists a, dist. exact H. }
  assert (I1 : In (3, 4)%Z members) by (apply (members_iff _ 7 10 _ V); split; [ split; cbn; lia | reflexivity ]).
  assert (I2 : In (0, 0)%Z members) by (apply (members_iff _ 7 10 _ V); split; [ split; cbn; lia | reflexivity ]).
  destruct (Hrun _ I1) as (a1 & dist1 & E1). destruct (Hrun _ I2) as (a2 & dist2 & E2). exists members, a1, a2, dist1, dist2.
  split; [ exact Hc | ]. split; [ vm_compute; reflexivity | ]. split; [ exact Hf | ]. split; [ rewrite E1; reflexivity | rewrite E2; reflexivity ].
Qed.
Definition ex35_error (q pt : point) : fnum :=
  match mase (ex27_forecasts q) (skipn 2 (ex27_series pt)) (Some (firstn 2 (ex27_series pt))) with Ok v => v | Raise _ => NaN end.
Example C135_ex : exists l1 l2,
  arima_forecast ex27_fit ex25_forecast (fun v => v) (Fin 7) (fun _ => Ok (qregion ex27_d None)) (fun _ => Ok (3, 4)%Z) "nordeste_small_2015_2015_1spd" "arima_two" (Some "4") [l1; l2] None /\
  el_order l1 = (2, 0, 1)%Z /\ el_order l2 = (2, 0, 2)%Z /\ is_nan (ex35_error (3, 4)%Z (5, 5)%Z) = false.
Proof.
  destruct ex27_ready as (r & Hr & Hi & Hq & _).
  destruct (C135_lines fnum ex27_fit ex25_forecast (fun v => v) (Fin 7) (fun _ => Ok (qregion ex27_d None)) (fun _ => Ok (3, 4)%Z) "nordeste_small_2015_2015_1spd" "arima_two" (Some "4") r ex27_d None
    (3, 4)%Z (Some 4%Z) [(2, 0, 1); (2, 0, 2)]%Z mase (fun _ => ex27_model) (fun _ => ex27_forecasts) (fun _ => ex35_error) Hr Hi eq_refl eq_refl eq_refl) as (lines & H & HF & _).
  - right. split; [ discriminate | ]. exists 4%Z. split; reflexivity.
  - cbn. lia.
  - exact Hq.
  - cbn. lia.
  - split; cbn; lia.
  - intros order _.
    destruct (ex27_known (arima_kind ex27_fit ex25_forecast) (Some order) (grid 7 10)) as [ H1 _ ]; [ | reflexivity | reflexivity | apply Forall_forall; intros pt; apply in_grid_iff | ].
    { intros v s. destruct v as [ | | | [ [ | ? | ? ] [ ? | ? | ] ] ]; reflexivity. }
    split; [ exact H1 | ]. intros q pt _ Hp. apply in_grid_iff in Hp. destruct (ex27_ser pt Hp) as [ E L ].
    exists (ex27_series pt), (ex27_forecasts q), (firstn 2 (ex27_series pt)), (skipn 2 (ex27_series pt)).
    rewrite L. split; [ exact E | ]. split; [ reflexivity | ]. split; [ reflexivity | ]. split; [ reflexivity | ].
    unfold ex35_error, ex27_forecasts, mase. generalize (match ex27_model q with Some m => m | None => NaN end). clear E. revert L. generalize (ex27_series pt). intros s L v.
    destruct s as [ | a0 [ | a1 [ | a2 [ | a3 [ | a4 [ | a5 [ | a6 [ | a7 [ | a8 [ | a9 [ | ] ] ] ] ] ] ] ] ] ] ]; try discriminate L. reflexivity.
  - inversion HF as [ | o1 l1 os1 ls1 (fe1 & _ & ->) H1 ]; subst. inversion H1 as [ | o2 l2 os2 ls2 (fe2 & _ & ->) H2 ]; subst. inversion H2; subst. eexists _, _. split; [ exact H | ]. repeat split.
Qed.
