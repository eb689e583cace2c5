(** Query results: coordinates, rows, headers, summaries, printed lines and CSV files (C59). *)
From Coq Require Import ZifyBool ZifyNat String.
From Verif Require Import Base.Py Base.PyFacts Base.Arr Base.Str Base.StrFacts Base.Float Model.Region Model.Errors Model.Models Model.Series Model.Clustering
  Model.Solver Model.SolverFiles Model.Results Spec.Grid Spec.Partition Spec.Rect Spec.Solver Spec.SolverFiles Spec.Results
  Proofs.PartitionFacts Proofs.SolverFacts Proofs.RegionFacts Proofs.ResultsFacts Props.Solver Props.SolverFiles.
From Coq Require Import QArith.
Local Close Scope Q_scope. Local Open Scope nat_scope.
Local Notation length := List.length.

(** C59: the two changes of coordinates are inverse to each other, for all results and all points. *)
Theorem C59_coordinates : forall r pt,
  to_relative_coordinates r (to_domain_coordinates r pt) = pt /\ to_domain_coordinates r (to_relative_coordinates r pt) = pt.
Proof. intros r [px py]. unfold to_relative_coordinates, to_domain_coordinates. cbn [fst snd]. split; f_equal; lia. Qed.
Print Assumptions C59_coordinates.

(** C59: domain coordinates of the points of the prediction region are the points of the domain in it. *)
Theorem C59_domain_points : forall r pt, let g := rb_region (base_of r) in
  (x1 g <= fst pt < x2 g /\ y1 g <= snd pt < y2 g)%Z <->
  exists q, in_grid (width g) (height g) q /\ to_domain_coordinates r q = pt.
Proof.
  intros r [px py] g. unfold in_grid, width, height, to_domain_coordinates. fold g. cbn [fst snd]. split.
  - intros H. exists (px - x1 g, py - y1 g)%Z. cbn [fst snd]. split; [lia|f_equal; lia].
  - intros ([qx qy] & H & [= <- <-]). cbn [fst snd] in *. lia.
Qed.
Print Assumptions C59_domain_points.

(** C59: for every kind of result and every layering of partitions and classifiers, each point of the prediction
    region has a row with exactly one cell for each column of the header, and each cell is what its column says: the
    position in the dataset, the error, the forecast, the test series, the cluster of the point, its label. *)
Theorem C59_rows : forall r d sc tl pt, fits r d sc tl ->
  in_grid (width (rb_region (base_of r))) (height (rb_region (base_of r))) pt ->
  exists row, result_tuple_for_point r pt = Ok row /\ length row = length (result_header r) /\ Forall2 (says r pt) (result_header r) row.
Proof. intros r d sc tl pt Hf Hp. destruct (tuple_ok r d sc tl pt Hf Hp) as (row & E & F). exists row. split; [auto|]. split; [symmetry; eapply Forall2_len; eauto|auto]. Qed.
Print Assumptions C59_rows.

(** C59: a row that is produced has the columns of the header, whatever the regions are. *)
Theorem C59_columns : forall r pt row, result_tuple_for_point r pt = Ok row -> length row = length (result_header r).
Proof.
  assert (L : forall {A} (a : A) l, length (insert1 a l) = S (length l)) by (intros A a [|b l]; reflexivity).
  assert (B : forall r pt row, base_tuple r pt = Ok row -> length row = 3).
  { intros r pt row. unfold base_tuple. destruct (prediction_error_at r pt); cbn [bind]; [|discriminate]. destruct (prediction_forecast_at r pt); cbn [bind]; [|discriminate]. intros [= <-]. auto. }
  induction r as [b test|b|r IH c dist p ms|r IH suite labels]; intros pt row; cbn [result_tuple_for_point result_header].
  - destruct (base_tuple (InSample b test) pt) as [t|] eqn:E; cbn [bind]; [|discriminate]. destruct (series_at test pt); cbn [bind]; [|discriminate].
    intros [= <-]. rewrite app_length, (B _ _ _ E). auto.
  - intros E. rewrite (B _ _ _ E). auto.
  - destruct (result_tuple_for_point r pt) as [t|] eqn:E; cbn [bind]; [|discriminate]. destruct (cluster_index_of p _); cbn [bind]; [|discriminate].
    intros [= <-]. rewrite !L. f_equal. eapply IH; eauto.
  - destruct (result_tuple_for_point r pt) as [t|] eqn:E; cbn [bind]; [|discriminate]. destruct (Dict.dict_get point_eqb pt labels); cbn [bind]; [|discriminate].
    intros [= <-]. rewrite !L. f_equal. eapply IH; eauto.
Qed.
Print Assumptions C59_columns.
Theorem C59_summary_columns : forall sqrt r row, summary_tuple sqrt r = Ok row -> length row = length (summary_header r).
Proof.
  intros sqrt. induction r as [b test|b|r IH c dist p ms|r IH suite labels]; intros row; cbn [summary_tuple summary_header].
  - destruct (summary_generalization_mse (InSample b test)); cbn [bind]; [intros [= <-]; auto|discriminate].
  - destruct (summary_generalization_mse (OutOfSample b)); cbn [bind]; [intros [= <-]; auto|discriminate].
  - destruct (find_indices_of_clusters_intersecting_with p _); cbn [bind]; [|discriminate]. destruct (summary_distances sqrt _ dist p ms); cbn [bind]; [|discriminate].
    destruct (summary_tuple sqrt r) as [t|]; cbn [bind]; [|discriminate]. intros [= <-]. rewrite !app_length, !map_length. cbn [length]. rewrite (IH t); auto.
  - destruct (summary_tuple sqrt r) as [t|]; cbn [bind]; [|discriminate]. intros [= <-]. cbn [length]. rewrite (IH t); auto.
Qed.
Print Assumptions C59_summary_columns.

(** The headers of the results that the code builds: no column appears twice. *)
Theorem C59_headers : forall b test c dist p ms suite labels,
  result_header (WithPartition (InSample b test) c dist p ms) = ["Point"; "cluster_index"; "error"; "forecast_series"; "test_series"]%string /\
  result_header (WithPartition (OutOfSample b) c dist p ms) = ["Point"; "cluster_index"; "error"; "forecast_series"]%string /\
  result_header (FromClassifier (InSample b test) suite labels) = ["Point"; "label"; "error"; "forecast_series"; "test_series"]%string /\
  result_header (FromClassifier (OutOfSample b) suite labels) = ["Point"; "label"; "error"; "forecast_series"]%string /\
  NoDup (summary_header (WithPartition (InSample b test) c dist p ms)) /\ NoDup (summary_header (FromClassifier (InSample b test) suite labels)).
Proof.
  intros. repeat split; destruct c; cbn; repeat constructor; cbn; intuition discriminate.
Qed.
Print Assumptions C59_headers.

(** C59: the results file.  Reading it back gives the header and one row for each point of the prediction region, in
    row-major order (row i * height + j is that of point (i, j)), with the text of the right values; any rendering of
    floats and series, including text with separators, quotes or line breaks. *)
Theorem C59_results_file : forall show_f show_s r d sc tl, fits r d sc tl ->
  exists lines rows, prediction_results_csv show_f show_s r = Ok lines /\
    map csv_parse lines = result_header r :: map (map (render show_f show_s)) rows /\
    length rows = width (rb_region (base_of r)) * height (rb_region (base_of r)) /\
    forall i j, i < width (rb_region (base_of r)) -> j < height (rb_region (base_of r)) ->
      exists row, nth_error rows (i * height (rb_region (base_of r)) + j) = Some row /\
        Forall2 (says r (Z.of_nat i, Z.of_nat j)) (result_header r) row.
Proof.
  intros show_f show_s r d sc tl Hf. destruct (results_file_ok show_f show_s r d sc tl Hf) as (lines & rows & E & Er & F).
  exists lines, rows. split; [auto|]. split; [auto|]. split.
  - rewrite <- (Forall2_len _ _ _ F). apply grid_length.
  - intros i j Hi Hj. set (g := rb_region (base_of r)) in *.
    assert (Hn : nth_error (grid (width g) (height g)) (i * height g + j) = Some (Z.of_nat i, Z.of_nat j)) 
      by (rewrite nth_error_grid by nia; f_equal; unfold decode; rewrite Nat.add_comm, Nat.div_add, Nat.mod_add, Nat.div_small, Nat.mod_small by lia; reflexivity).
    clear - F Hn. revert Hn. generalize (i * height g + j). intros n. revert n. induction F as [|pt row pts rows H F IH]; intros [|n] Hn; try discriminate.
    + injection Hn as ->. exists row. split; [auto|tauto].
    + apply (IH n Hn).
Qed.
Print Assumptions C59_results_file.

(** C59: the summary file: header and one row, with the test length, the mean of the squared errors, the clustering
    parameters, the number of clusters with a point in the prediction region, and the root mean square over these
    clusters of the summed distances between the test series of the medoid and of the points of the region. *)
Theorem C59_summary_file : forall sqrt show_f show_s r d sc tl, fits r d sc tl -> uses_dtw r ->
  exists lines row, prediction_summary_csv sqrt show_f show_s r = Ok lines /\
    map csv_parse lines = [summary_header r; map (render show_f show_s) row] /\
    length row = length (summary_header r) /\ Forall2 (sums sqrt r tl) (summary_header r) row.
Proof.
  intros sqrt show_f show_s r d sc tl Hf Hd. destruct (summary_file_ok sqrt show_f show_s r d sc tl Hf Hd) as (lines & row & E & Er & F).
  exists lines, row. repeat split; auto. symmetry. eapply Forall2_len; eauto.
Qed.
Print Assumptions C59_summary_file.

(** C59: with the RMSE distance no summary can be written: the method that it needs is missing there. *)
Theorem C59_rmse_summary : forall sqrt r d sc tl c p l, fits (WithPartition r c ByRMSE p (Some l)) d sc tl ->
  0 < width (rb_region (base_of r)) * height (rb_region (base_of r)) ->
  summary_tuple sqrt (WithPartition r c ByRMSE p (Some l)) = Raise AttributeError.
Proof.
  intros sqrt r d sc tl c p l (Hr & Hv & l' & [= <-] & Hm) Hne. pose proof (fits_base _ _ _ _ Hr) as Hb.
  pose proof Hb as (Hq & Es & Et & Htl & Hg & _).
  destruct (clusters_ok p _ _ _ Hv Hg) as (cs & Ecs & Hcs). destruct (medoid_list p _ _ _ l cs Hv Hg Hm Ecs Hcs) as (ms & Ems & Fms).
  cbn [summary_tuple base_of]. rewrite Ecs. cbn [bind]. unfold summary_distances. cbn [base_of]. rewrite Ems, Es, Et.
  destruct (q_split d sc tl Hq Htl) as (d1 & d2 & Esp & Hq1 & Hq2 & T1 & T2 & X1 & Y1 & X2 & Y2 & Ss).
  cbn [bind]. rewrite Esp. destruct (q_subset d2 sc (rb_region (base_of r)) Hq2) as (m & Esub & Hqm & _); [rewrite X2, Y2; auto|].
  rewrite Esub. cbn [bind]. rewrite (ProperFacts.proper_items _ (q_proper _ _ Hqm)). cbn [bind].
  destruct Fms as [|i medoid cs ms [_ Hmed] F].
  - exfalso. destruct Hcs as [_ Hcs]. set (g := rb_region (base_of r)) in *.
    assert (Hz : in_grid (width g) (height g) (0, 0)%Z) by (unfold in_grid; cbn [fst snd]; destruct (width g), (height g); lia).
    destruct (cluster_index_ok p _ _ _ Hv (in_domain_grid _ _ _ _ Hg Hz)) as (i & _ & Hi). apply (Hcs i). exists (0, 0)%Z. auto.
  - cbn [mapM]. rewrite q_series_at. destruct (ser_ok d medoid (proj1 Hq) Hmed) as (s & E & _). destruct (Ss medoid s Hmed E) as [_ E2]. rewrite E2. cbn [bind distances_combined]. reflexivity.
Qed.
Print Assumptions C59_rmse_summary.
(** C59: nor for a partition without medoids. *)
Theorem C59_no_medoids_summary : forall sqrt r c dist p d sc tl, base_fits (base_of r) d sc tl -> valid_partition p (a3x d) (a3y d) ->
  summary_tuple sqrt (WithPartition r c dist p None) = Raise ValueError.
Proof.
  intros sqrt r c dist p d sc tl Hb Hv. pose proof Hb as (_ & _ & _ & _ & Hg & _).
  destruct (clusters_ok p _ _ _ Hv Hg) as (cs & Ecs & _). cbn [summary_tuple base_of]. rewrite Ecs. cbn [bind].
  unfold summary_distances, find_medoids_of_clusters_intersecting_with. cbn [base_of]. rewrite ?Ecs. reflexivity.
Qed.
Print Assumptions C59_no_medoids_summary.

(** C59: the printed lines for a point. *)
Theorem C59_lines : forall r d sc tl pt, fits r d sc tl ->
  in_grid (width (rb_region (base_of r))) (height (rb_region (base_of r))) pt ->
  exists first others, lines_for_point r pt = Ok (first :: others) /\ first_line pt r first /\ other_lines pt r others.
Proof. exact lines_ok. Qed.
Print Assumptions C59_lines.

(** C59: a point without label fails with KeyError when its row is made and when it is printed. *)
Theorem C59_missing_label : forall r suite labels pt row lines,
  result_tuple_for_point r pt = Ok row -> lines_for_point r pt = Ok lines -> (forall l, ~ In (pt, l) labels) ->
  result_tuple_for_point (FromClassifier r suite labels) pt = Raise KeyError /\
  lines_for_point (FromClassifier r suite labels) pt = Raise KeyError.
Proof.
  intros r suite labels pt row lines E El Hn.
  assert (Ed : Dict.dict_get point_eqb pt labels = Raise KeyError).
  { induction labels as [|[k v] t IH]; [reflexivity|]. cbn [Dict.dict_get]. destruct (point_eqb k pt) eqn:Ek.
    - apply pt_eqb_eq in Ek. subst. exfalso. apply (Hn v). left. auto.
    - apply IH. intros l Hl. apply (Hn l). right. auto. }
  cbn [result_tuple_for_point lines_for_point text_intro]. rewrite E, El. cbn [bind].
  change (to_domain_coordinates (FromClassifier r suite labels) pt) with (to_domain_coordinates r pt). rewrite relative_domain, Ed. auto.
Qed.
Print Assumptions C59_missing_label.

(** C59: the result of a query to a trained solver has all that the theorems above ask for: in-sample and
    out-of-sample, with the partition and the medoids of the solver, the forecast and errors of [solver_predict]. *)
Theorem C59_solver_results : forall {P M} (kind : model_kind P M) mp cluster d sc tl et s p medoids m dist c repr g fl r,
  forecasts_fit kind -> qwf d sc -> tl <= a3t d -> cluster (qregion d sc) = Ok (p, medoids) ->
  valid_partition p (a3x d) (a3y d) -> medoids_of p (a3x d) (a3y d) medoids ->
  solver_train kind (full2 (a3x d) (a3y d) (Some mp)) (default_refitter kind (full2 (a3x d) (a3y d) (Some mp)))
    cluster (qregion d sc) (Z.of_nat tl) et = Ok s ->
  rect_in g (a3x d) (a3y d) -> sm_test_len m = Z.of_nat tl -> sm_kind m = SClustering c repr ->
  solver_result kind s m dist (is_scaled sc) (qregion d sc) g fl = Ok r ->
  exists q inner, solver_predict kind s (is_scaled sc) (qregion d sc) (Z.of_nat tl) g fl = Ok q /\
    let b := RBase m (Z.max fl 0) (pr_forecast q) (pr_errors q) g (qregion d sc) in
    r = WithPartition inner c dist p (Some medoids) /\ fits r d sc tl /\
    (((0 < fl)%Z /\ inner = OutOfSample b) \/ ((fl <= 0)%Z /\ exists test, pr_test q = Some test /\ inner = InSample b test)).
Proof.
  intros P M kind mp cluster d sc tl et s p medoids m dist c repr g fl r Hfit Hq Htl Hcl Hv Hm Htr Hg Etl Ek Hr.
  exact (solver_fits kind mp _ cluster d sc tl et s p medoids m dist c repr _ g fl r Hfit Hq Htl Hcl Hv Hm (default_refits kind mp d sc tl medoids Hq) Htr Hg Etl Ek Hr).
Qed.
Print Assumptions C59_solver_results.
Theorem C59_auto_arima_results : forall {A M} (fit : pdq -> list fnum -> res M) (order_of : M -> pdq) (predict : M -> nat -> res (list fnum))
    (search : A -> list fnum -> res pdq) mp cluster d sc tl et s p medoids m dist c repr g fl r,
  (forall m len f, predict m len = Ok f -> length f = len) ->
  qwf d sc -> tl <= a3t d -> cluster (qregion d sc) = Ok (p, medoids) ->
  valid_partition p (a3x d) (a3y d) -> medoids_of p (a3x d) (a3y d) medoids ->
  solver_train (auto_arima_kind fit predict search) (full2 (a3x d) (a3y d) (Some mp)) (arima_refitter fit order_of predict)
    cluster (qregion d sc) (Z.of_nat tl) et = Ok s ->
  rect_in g (a3x d) (a3y d) -> sm_test_len m = Z.of_nat tl -> sm_kind m = SClustering c repr ->
  solver_result (auto_arima_kind fit predict search) s m dist (is_scaled sc) (qregion d sc) g fl = Ok r ->
  exists q inner, solver_predict (auto_arima_kind fit predict search) s (is_scaled sc) (qregion d sc) (Z.of_nat tl) g fl = Ok q /\
    let b := RBase m (Z.max fl 0) (pr_forecast q) (pr_errors q) g (qregion d sc) in
    r = WithPartition inner c dist p (Some medoids) /\ fits r d sc tl /\
    (((0 < fl)%Z /\ inner = OutOfSample b) \/ ((fl <= 0)%Z /\ exists test, pr_test q = Some test /\ inner = InSample b test)).
Proof.
  intros A M fit order_of predict search mp cluster d sc tl et s p medoids m dist c repr g fl r Hfit Hq Htl Hcl Hv Hm Htr Hg Etl Ek Hr.
  exact (solver_fits (auto_arima_kind fit predict search) mp _ cluster d sc tl et s p medoids m dist c repr _ g fl r Hfit Hq Htl Hcl Hv Hm (arima_refits fit order_of predict search mp d sc tl medoids Hq) Htr Hg Etl Ek Hr).
Qed.
Print Assumptions C59_auto_arima_results.

(** C59: only solvers with clustering have results with partition: other metadata lack the attribute. *)
Theorem C59_needs_clustering : forall r dist p ms, (forall c repr, sm_kind (rb_meta (base_of r)) <> SClustering c repr) ->
  with_partition r dist p ms = Raise AttributeError.
Proof. intros r dist p ms H. unfold with_partition. destruct (sm_kind (rb_meta (base_of r))); auto. exfalso. eapply H; eauto. Qed.
Print Assumptions C59_needs_clustering.

(** C59: save_as_csv writes two different files, the results and the summary. *)
Theorem C59_two_files : forall sqrt show_f show_s r home files c repr,
  sm_kind (rb_meta (base_of r)) = SClustering c repr -> clean_place c (sm_region (rb_meta (base_of r))) repr ->
  has_char "/" (sm_error (rb_meta (base_of r))) = false -> save_as_csv sqrt show_f show_s r home = Ok files ->
  exists results summary a b, files = [(a, results); (b, summary)] /\ a <> b /\ prediction_results_csv show_f show_s r = Ok results /\ prediction_summary_csv sqrt show_f show_s r = Ok summary.
Proof.
  intros sqrt show_f show_s r home files c repr Ek Hc He. unfold save_as_csv.
  destruct (prediction_results_csv show_f show_s r) as [results|]; cbn [bind]; [|discriminate].
  destruct (prediction_summary_csv sqrt show_f show_s r) as [summary|]; cbn [bind]; [|discriminate]. intros [= <-].
  eexists results, summary, _, _. split; [reflexivity|]. split; [|auto]. intros E.
  assert (K : known_prefix (result_prefix r) /\ result_prefix r <> "query-summary"%string).
  { clear. induction r; cbn [result_prefix]; auto; (split; [unfold known_prefix; cbn; auto|discriminate]). }
  destruct K as [K1 K2]. eapply C60_csv_files in E; eauto; [|unfold known_prefix; cbn; auto].
  apply K2. tauto.
Qed.
Print Assumptions C59_two_files.

(* ---------- concrete results ---------- *)
Definition ex_meta : smeta :=
  SMeta (RMeta "ex" (Rect 40 41 80 82) 2015 2015 1 true "raw") (PMean 2) 2 "MSE" (SClustering (CRegular 1) "dtw").
Definition ex_dtw (a b : list fnum) : fnum := fsum (map (fun p => fabs (fsub (fst p) (snd p))) (combine a b)).
Definition ex_result (dist : dmeasure) (fl : Z) : res presult :=
  s <- solver_train mean_kind (full2 1 2 (Some 2%Z)) (default_refitter mean_kind (full2 1 2 (Some 2%Z))) ex_cluster (qregion ex_d ex_sc) 2 "MSE" ;;
  solver_result mean_kind s ex_meta dist true (qregion ex_d ex_sc) (Rect 0 1 1 2) fl.

(** a result of a scaled region, for its right point: it lies at (40, 81) of the dataset *)
Example C59_example_row :
  (r <- ex_result (ByDTW ex_dtw) 0 ;; result_tuple_for_point r (0, 0)%Z) =
    Ok [FPt (40, 81)%Z; FInt 0; FNum 3 (Fin (1425920000 # 32)); FSer [Fin (1000 # 2); Fin (1000 # 2)]; FSer [Fin 6100; Fin 8100]] /\ (r <- ex_result (ByDTW ex_dtw) 3 ;; result_tuple_for_point r (0, 0)%Z) =
    Ok [FPt (40, 81)%Z; FInt 0; FNum 3 (Fin (1425920000 # 32)); FSer [Fin (2600 # 2); Fin (2600 # 2); Fin (2600 # 2)]].
Proof. split; vm_compute; reflexivity. Qed.
Example C59_example_fits : exists r, ex_result (ByDTW ex_dtw) 0 = Ok r /\ fits r ex_d ex_sc 2 /\ uses_dtw r.
Proof.
  destruct (ex_result (ByDTW ex_dtw) 0) as [r|] eqn:E; [|exfalso; vm_compute in E; discriminate]. exists r. split; [auto|].
  destruct C58_example_hypotheses as (H1 & H2 & _ & H4 & H5). unfold ex_result in E.
  destruct (solver_train mean_kind _ _ ex_cluster _ 2 "MSE") as [s|] eqn:Es; cbn [bind] in E; [|discriminate].
  destruct (C59_solver_results mean_kind 2%Z ex_cluster ex_d ex_sc 2 "MSE" s ex_p [(0, 0)%Z] ex_meta (ByDTW ex_dtw) (CRegular 1) "dtw" (Rect 0 1 1 2) 0 r
    H1 H2 ltac:(cbn; lia) eq_refl H4 H5 Es ltac:(cbv; intuition discriminate) eq_refl eq_refl E) as (q & inner & _ & Er & Hf & Hi).
  split; [exact Hf|]. rewrite Er. cbn [uses_dtw]. split; [|eauto]. destruct Hi as [[_ ->]|(_ & t & _ & ->)]; exact I.
Qed.
Example C59_example_summary : (r <- ex_result (ByDTW ex_dtw) 0 ;; summary_tuple (fun v => v) r) =
  Ok [FStr "regular"; FInt 1; FInt 1; FNum 2 (Fin (3364 # 1)); FStr "2"; FNum 3 (Fin (2033247846400000000 # 1024))].
Proof. vm_compute. reflexivity. Qed.
Example C59_example_rmse : (r <- ex_result ByRMSE 0 ;; summary_tuple (fun v => v) r) = Raise AttributeError.
Proof. vm_compute. reflexivity. Qed.
(** a result from a classifier, with a label whose text needs quotes in the file *)
Example C59_example_classifier :
  (r <- ex_result (ByDTW ex_dtw) 0 ;;
   match r with
   | WithPartition inner _ _ _ _ =>
       let r := from_classifier inner "suite" [((0, 0)%Z, "2 0 1"%string)] in
       lines <- lines_for_point r (0, 0)%Z ;; file <- prediction_results_csv (fun _ _ => "v"%string) (fun _ => "[1 2]"%string) r ;;
       Ok (hd (LPoint (0, 0)%Z) lines, map csv_parse file)
   | _ => Raise AssertionError
   end) = Ok (LPointLabel (40, 81)%Z "2 0 1",
     [["Point"; "label"; "error"; "forecast_series"; "test_series"]; ["Point(x=40, y=81)"; "2 0 1"; "v"; "[1 2]"; "[1 2]"]])%string.
Proof. vm_compute. reflexivity. Qed.
