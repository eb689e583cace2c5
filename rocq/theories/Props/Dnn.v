(** The program that uses the neural network and its tables of experiments (C115). *)
From Coq Require Import String.
From Verif Require Import Base.Py Base.PyFacts Base.Arr Base.ArrFacts Base.Str Base.StrFacts Base.Dict Base.Float Model.Region Model.Scaling Model.Series
  Model.Errors Model.Models Model.Forecast Model.Clustering Model.Solver Model.SolverFiles Model.Results Model.Classifier Model.Programs Model.Dnn
  Spec.Grid Spec.Partition Spec.Rect Spec.SolverFiles Spec.Solver Spec.Results Spec.Classifier Spec.Programs Spec.Dnn
  Proofs.RegionFacts Proofs.PartitionFacts Proofs.SolverFacts Proofs.ResultsFacts Proofs.ClassifierFacts Proofs.ProgramFacts Proofs.NameFacts Props.Clustering Props.Classifier Props.Programs.
From Coq Require Import ZifyBool ZifyNat.
Local Open Scope string_scope.
Local Notation length := List.length.

(* ---------------------------------------------------------------- the tables *)

(** every experiment offered to the program is about an existing suite and existing auto-ARIMA parameters, with DTW, and
    both classifiers look at 15 samples and have the same labels *)
Theorem C115_experiments :
  (forall id e, In (id, e) auto_arima_clustering_experiments ->
     dict_get String.eqb id auto_arima_clustering_experiments = Ok e /\ ce_distance e = "dtw" /\
     (exists suite, get_suite (ce_clustering_type e) (ce_suite_id e) = Ok suite /\ suite <> []) /\
     exists params, In (ce_models e, params) predefined_auto_arima) /\
  (forall id c, In (id, c) classifier_experiments ->
     dict_get String.eqb id classifier_experiments = Ok c /\ dp_window_size c = 15 /\ dp_labels_path c = "lstm/labels_k-seed-ci.csv").
Proof.
  split.
  - intros id e H. cbn [auto_arima_clustering_experiments In] in H.
    repeat (destruct H as [ [= <- <-] | H ]; [ split; [ reflexivity | ]; split; [ reflexivity | ]; split;
      [ eexists; split; [ vm_compute; reflexivity | discriminate ] | eexists; left; reflexivity ] | ]). contradiction.
  - intros id c H. cbn [classifier_experiments In] in H. repeat (destruct H as [ [= <- <-] | H ]; [ repeat split | ]). contradiction.
Qed.
Print Assumptions C115_experiments.

(** the experiments with ARIMA and clusters: all are about an existing ARIMA suite, and all but one about an existing
    suite of clusterings *)
Theorem C115_arima_experiments : forall id e, In (id, e) arima_clusters_experiments ->
  (exists orders, arima_suite_by_name (ce_models e) = Ok orders /\ orders <> []) /\ ce_clustering_type e = "kmedoids" /\ ce_distance e = "dtw" /\
  (id <> "arima_whole_brazil" -> exists suite, get_suite (ce_clustering_type e) (ce_suite_id e) = Ok suite /\ suite <> []).
Proof.
  intros id e H. cbn [arima_clusters_experiments In] in H.
  repeat (destruct H as [ H | H ]; [ injection H as <- <-; split; [ eexists; split; [ vm_compute; reflexivity | discriminate ] | ]; split; [ reflexivity | ]; split; [ reflexivity | ];
    intros Hn | ]); try contradiction.
  all: try (exfalso; apply Hn; reflexivity).
  all: eexists; split; [ vm_compute; reflexivity | discriminate ].
Qed.
Print Assumptions C115_arima_experiments.
(** one would expect that all of them can be run: 'arima_whole_brazil' is offered on the command line, but there is no suite
    'even' *)
Theorem C115_arima_experiments_run_refuted : ~ forall id e, In (id, e) arima_clusters_experiments ->
  exists suite, get_suite (ce_clustering_type e) (ce_suite_id e) = Ok suite.
Proof.
  intros H. destruct (H "arima_whole_brazil" (CExperiment "arima_sweep" "kmedoids" "even" "dtw")) as [ suite E ]; [ cbn; auto | discriminate ].
Qed.
Print Assumptions C115_arima_experiments_run_refuted.

(* ---------------------------------------------------------------- the answers *)
Section Dnn.
Context (create_instance : rmeta -> res (stregion fnum)) (load_distances : rmeta -> res unit)
        (partition_impl : rmeta -> cmeta -> stregion fnum -> bool -> res part) (dtw : list fnum -> list fnum -> fnum) (sqrt : fnum -> fnum)
        (format_float : nat -> fnum -> string) (show_series : list fnum -> string)
        (labels_of : string -> list string) (network : string -> list fnum -> list fnum).
Local Notation dnn_request := (dnn_request create_instance partition_impl sqrt format_float show_series labels_of network).
Local Notation dnn_label := (dnn_label labels_of network).

Lemma label_listed c s l : dnn_label c s = Ok l -> In l (labels_of (dp_labels_path c)).
Proof using.
  unfold Dnn.dnn_label, label_for_series. destruct (negb _ || _); [ discriminate | ]. destruct (normalize_l1 s); cbn [bind]; [ | discriminate ].
  destruct (np_argmax _) as [ n | ]; cbn [bind]; [ | discriminate ]. unfold getitem. destruct (norm_index _ _) as [ i | ]; [ | discriminate ].
  destruct (nth_error (labels_of (dp_labels_path c)) i) eqn:E; [ | discriminate ]. intros [= <-]. eapply nth_error_In; eauto.
Qed.

(** every label of the classifier names a clustering for which the auto-ARIMA program has been run with the same
    region, number of test samples and type of error.  Then each point of the prediction region gets four lines: its
    place and the label that the network gives to the last samples of the series of the target region, the forecast of
    the model trained at the medoid that the label names, the test samples and the error.  The files are not changed. *)
Theorem C115_answers : forall {M} (fit : pdq -> list fnum -> res M) order_of forecast search junk fs region experiment classifier lat1 lat2 long1 long2
    out_of_sample et tf e params c r d sc target dt sct g fs' lines files,
  (forall m len f, forecast m len = Ok f -> length f = len) ->
  In (experiment, e) auto_arima_clustering_experiments -> In (ce_models e, params) predefined_auto_arima -> In (classifier, c) classifier_experiments ->
  region_by_name region = Ok r -> create_instance r = Ok (qregion d sc) -> qwf d sc -> a3x d = rm_x r -> a3y d = rm_y r ->
  (sc = None <-> rm_scaled r = false) -> tf <= a3t d ->
  match out_of_sample with None | Some "" => target = r | Some name => region_by_name name = Ok target end ->
  create_instance target = Ok (qregion dt sct) -> qwf dt sct -> dp_window_size c <= a3t dt ->
  prediction_region lat1 lat2 long1 long2 = Ok g -> rect_in g (a3x d) (a3y d) -> rect_in g (a3x dt) (a3y dt) ->
  let pg := auto_arima_program fit order_of forecast search params in
  (forall l, In l (labels_of (dp_labels_path c)) -> exists k seed i, (0 <= k)%Z /\ (0 <= seed)%Z /\ (0 <= i)%Z /\ l = classifier_label k seed i /\
     trained_before create_instance load_distances partition_impl dtw sqrt format_float show_series pg
       (SArgs region "kmedoids" k seed (Z.of_nat tf) et) d sc fs) ->
  dnn_request fit forecast search junk fs region experiment classifier lat1 lat2 long1 long2 out_of_sample et tf = (fs', Ok (lines, files)) ->
  fs' = fs /\ length lines = 4 * (width g * height g) /\
  exists func result, get_error_func et = Ok func /\ fits result d sc tf /\ save_as_csv sqrt format_float show_series result "outputs" = Ok files /\
    forall i j, i < width g -> j < height g -> let pt := (Z.of_nat i + x1 g, Z.of_nat j + y1 g)%Z in
    exists seen own k seed n p ms medoid medoid_series f o err, (0 <= n)%Z /\
      series3 dt (fst pt) (snd pt) = Ok seen /\ series3 d (fst pt) (snd pt) = Ok own /\
      dnn_label c (skipn (length seen - 15) seen) = Ok (classifier_label k seed n) /\
      fs (pickle_full_path (CKmedoids (kmeta_default k seed "lite")) r "dtw") = Some (FPartition (p, Some ms)) /\
      nth_error ms (Z.to_nat n) = Some medoid /\ series3 d (fst medoid) (snd medoid) = Ok medoid_series /\
      evaluated (auto_arima_kind fit forecast search) params func sc tf medoid_series own pt f o err /\
      block 4 (height g) i j lines = [LPointLabel (raw_position r g i j) (classifier_label k seed n); LForecast f; LTest o; LError et err] /\
      lines_for_point result (Z.of_nat i, Z.of_nat j) = Ok (block 4 (height g) i j lines).
Proof using.
  intros M fit order_of forecast search junk fs region experiment classifier lat1 lat2 long1 long2 out et tf e params c r d sc target dt sct g fs' lines files
    Hfit He Hp Hc Er Ec Hq X Y Hsc Htf Ho Et Hqt Hw Eg Hg Hgt pg Hl H.
  destruct (proj1 C115_experiments _ _ He) as (Ee & _ & (suite & Es & _) & _). destruct (proj2 C115_experiments _ _ Hc) as (Ecl & W15 & _).
  assert (Ep : dict_get String.eqb (ce_models e) predefined_auto_arima = Ok params).
  { destruct Hp as [ [= <- <-] | [] ]. reflexivity. }
  unfold Dnn.dnn_request in H.
  assert (Em : exists o, dnn_metadata region experiment classifier out = Ok (r, e, params, c, o) /\
                 match option_map create_instance o with None => create_instance r | Some t => t end = Ok (qregion dt sct)).
  { unfold dnn_metadata. rewrite Er. cbn [bind]. rewrite Ee. cbn [bind]. rewrite Es. cbn [bind]. rewrite Ep. cbn [bind]. rewrite Ecl. cbn [bind].
    destruct out as [ [ | ch rest ] | ].
    - subst target. exists None. split; [ reflexivity | exact Et ].
    - rewrite Ho. exists (Some target). split; [ reflexivity | exact Et ].
    - subst target. exists None. split; [ reflexivity | exact Et ]. }
  destruct Em as (o & Em & Eo). rewrite Em, Eg in H.
  set (sr := suite_repr (ce_clustering_type e) "change_me") in *. set (cfg := CConfig r "dtw" sr (csv_suite_dir sr "dtw") params tf et) in *.
  set (kind := auto_arima_kind fit forecast search) in *. set (impl := fun (k : skey) wm => _) in *.
  destruct (classifier_predict kind junk cfg (dnn_label c) (create_instance r) impl g (Z.of_nat (dp_window_size c)) (option_map create_instance o) (new_classifier_solver fs))
    as [ st res ] eqn:EP. injection H as <- H. destruct res as [ q | ]; cbn [bind] in H; [ | discriminate ].
  assert (Hsc' : rm_scaled r = match sc with None => false | Some _ => true end).
  { destruct sc, (rm_scaled r) eqn:E; try reflexivity; destruct Hsc as [ H1 H2 ]; [ discriminate (H2 eq_refl) | discriminate (H1 eq_refl) ]. }
  assert (Hst : forall s l, dnn_label c s = Ok l -> exists k seed i sol, (0 <= k)%Z /\ (0 <= seed)%Z /\ (0 <= i)%Z /\ l = classifier_label k seed i /\
       stored fs (Spec.Classifier.key_of cfg k seed) sol /\ trained_on kind params d sc tf et sol).
  { intros s l El. apply label_listed in El. destruct (Hl l El) as (k & seed & i & K1 & K2 & K3 & -> & (fs0 & fs1 & history & Ht & Hk & -> & Hv)).
    set (a := SArgs region "kmedoids" k seed (Z.of_nat tf) et) in *.
    assert (Ema : metadata_from_args a = Ok (r, CKmedoids (kmeta_default k seed "lite"))).
    { unfold metadata_from_args. cbn [a a_region a_clustering a_k a_seed]. rewrite Er. reflexivity. }
    destruct (held_after create_instance load_distances partition_impl dtw sqrt format_float show_series fs0 pg a fs1 history r _ _ Ema Ec Ht Hk)
      as (p & ms & sol & Hor & Etr & F1 & F2 & Hh).
    exists k, seed, i, sol. do 4 (split; [ assumption || reflexivity | ]). split; [ exact Hh | ].
    destruct (Hv _ _ p ms Ema Hor) as [ V1 V2 ].
    exists (pg_refit pg (rm_x r) (rm_y r)), (fun _ => Ok (p, ms)), p, ms. split; [ reflexivity | ]. split; [ exact V1 | ]. split; [ exact V2 | ].
    rewrite X, Y. exact Etr. }
  assert (Efs : cs_files st = fs).
  { destruct (predict_after kind junk cfg (dnn_label c) (qregion d sc) impl fs g (Z.of_nat (dp_window_size c)) (option_map create_instance o) (new_classifier_solver fs) st (Ok q))
      as ((A & _) & _); [ | | rewrite <- Ec; exact EP | exact A ].
    - intros s l El. destruct (Hst s l El) as (k & seed & i & sol & A & B & C & D & S & _). exists k, seed, i, sol. auto.
    - split; [ reflexivity | cbn; discriminate ]. }
  split; [ exact Efs | ].
  rewrite Ec in EP.
  destruct (C90_predictions kind junk cfg (dnn_label c) impl params d sc dt sct fs [] g (Z.of_nat (dp_window_size c)) (option_map create_instance o) q)
    as (Hf & f & test & ee & func & labels & Ef & Eq & _ & _ & _ & _ & Lg & S).
  { exact Hfit. } { exact Hq. } { exact Htf. } { exact Hsc'. }
  { unfold target_region. rewrite Ec in Eo. exact Eo. } { exact Hqt. } { exact Hg. } { exact Hgt. } { lia. } { exact Hst. }
  { cbn [after fold_left]. unfold after. cbn [fold_left]. rewrite EP. reflexivity. }
  cbn [cc_test_len cc_error cfg] in *.
  assert (Hn : forall pt ls, other_lines pt q ls -> length ls = 3).
  { intros pt ls Hol. rewrite Eq in Hol. inversion Hol; subst. match goal with H : other_lines _ (InSample _ _) _ |- _ => inversion H end. reflexivity. }
  destruct (show_blocks _ _ _ _ _ _ _ 3 lines files Hf Hn H) as (L & Sv & B).
  assert (Eb : rb_region (base_of q) = g) by (rewrite Eq; reflexivity). rewrite Eb in L, B.
  split; [ exact L | ]. exists func, q. do 3 (split; [ assumption | ]). intros i j Hi Hj. set (pt := (Z.of_nat i + x1 g, Z.of_nat j + y1 g)%Z).
  destruct (B i j Hi Hj) as (first & others & Eblk & Elines & F1 & F2).
  assert (Hp0 : in_grid (width g) (height g) (Z.of_nat i, Z.of_nat j)) by (unfold in_grid; cbn [fst snd]; lia).
  pose proof (in_domain_grid _ _ _ _ Hg Hp0) as Hd. pose proof (in_domain_grid _ _ _ _ Hgt Hp0) as Hdt. change (in_domain g (Z.of_nat i, Z.of_nat j)) with pt in Hd, Hdt.
  destruct (ser_ok d pt (proj1 Hq) Hd) as (own & Eown & _). destruct (ser_ok dt pt (proj1 Hqt) Hdt) as (seen & Eseen & _).
  destruct (S _ own seen Hp0 Eown Eseen) as (k & seed & n & sol & medoid & ms & m & fc & f' & o' & t & v & S1 & S2 & S3 & S4 & S5 & S6 & S7 & S8 & S9 & S10 & S11 & S12 & S13 & S14 & S15).
  exists seen, own, k, seed, n, (so_partition sol), (so_medoids sol), medoid, ms, f', o', v.
  split; [ exact S4 | ]. split; [ exact Eseen | ]. split; [ exact Eown | ].
  split; [ rewrite W15 in S2; rewrite Nat2Z.id in S2; exact S2 | ]. split; [ apply S3 | ]. split; [ exact S5 | ]. split; [ exact S6 | ].
  split; [ exists m, fc, t; auto 10 | ].
  rewrite Eq in F1, F2. inversion F1 as [ | | | ? ? ? l Hin ]; subst. inversion F2 as [ | | | ? ? ? ls Hol ]; subst. inversion Hol; subst. cbn [rb_forecast rb_errors rb_meta sm_error suite_meta cc_error cfg] in *.
  assert (El : l = classifier_label k seed n).
  { assert (Nd : NoDup (map fst labels)) by (rewrite Lg; apply grid_nodup). clear - Nd Hin S1. induction labels as [ | [ a b ] labels IH ]; [ destruct Hin | ].
    cbn [map fst] in Nd. inversion Nd as [ | ? ? Nin Nd' ]; subst. destruct Hin as [ E1 | Hin ], S1 as [ E2 | S1 ].
    - congruence.
    - exfalso. apply Nin. injection E1 as -> _. apply (in_map fst) in S1. exact S1.
    - exfalso. apply Nin. injection E2 as -> _. apply (in_map fst) in Hin. exact Hin.
    - auto. }
  assert (Eblk' : block 4 (height g) i j lines = [LPointLabel (raw_position r g i j) (classifier_label k seed n); LForecast f'; LTest o'; LError et v]).
  { unfold block. rewrite Eblk. unfold in_dataset, raw_position, in_domain. cbn [base_of rb_meta rb_region fst snd sm_region suite_meta cc_region cfg]. repeat f_equal; try congruence; lia. }
  split; [ exact Eblk' | ]. unfold block. rewrite Eblk. exact Elines.
Qed.
End Dnn.
Print Assumptions C115_answers.

(* ---------------------------------------------------------------- the files *)
Section Files.
Context (create_instance : rmeta -> res (stregion fnum))
        (partition_impl : rmeta -> cmeta -> stregion fnum -> bool -> res part) (sqrt : fnum -> fnum)
        (format_float : nat -> fnum -> string) (show_series : list fnum -> string)
        (labels_of : string -> list string) (network : string -> list fnum -> list fnum).
Local Notation dnn_request := (dnn_request create_instance partition_impl sqrt format_float show_series labels_of network).

Lemma created_by {M} (kind : model_kind mparams M) junk cfg classify inst impl g tp out st st' q :
  classifier_predict kind junk cfg classify inst impl g tp out st = (st', Ok q) ->
  exists f test ee spt labels, q = FromClassifier (InSample (RBase (suite_meta cfg) 0 f ee g spt) test) (cc_suite_repr cfg) labels.
Proof using.
  unfold classifier_predict. destruct (if cs_classifier st then _ else _) as [ st1 [ [] | ] ]; [ | discriminate ].
  destruct (cs_target st1), (cs_region st1) as [ spt | ]; try discriminate. destruct (get_labels_from_classifier _ _ _ _) as [ labels | ]; [ | discriminate ].
  destruct (models_by_point _ _ _ _) as [ st2 [ models | ] ]; [ | discriminate ]. intros [= _ H]. 
  destruct (build_model_region _ _); cbn [bind] in H; [ | discriminate ]. unfold create_prediction_query_result in H.
  destruct (t_region_subset _ _); cbn [bind] in H; [ | discriminate ]. destruct (mk_trainer _); cbn [bind] in H; [ | discriminate ].
  destruct (train_models _ _ _ _) as [ tr an ]. destruct tr; cbn [bind] in H; [ | discriminate ].
  destruct (fst (forecast_at_each_point _ _ _ _ _ _)) as [ [ f ee ] | ]; cbn [bind] in H; [ | discriminate ].
  destruct (an_data an) as [ da | ]; [ | discriminate ].
  match type of H with bind ?x _ = _ => destruct x as [ f1 | ]; cbn [bind] in H; [ | discriminate ] end.
  match type of H with bind ?x _ = _ => destruct x as [ t1 | ]; cbn [bind] in H; [ | discriminate ] end.
  cbn in H. injection H as <-. eexists _, _, _, _, _. reflexivity.
Qed.

Lemma suite_path region r experiment e params g tf et rest : region_by_name region = Ok r -> In (experiment, e) auto_arima_clustering_experiments ->
  let rectangle := "region-" ++ str_int (x1 g) ++ "-" ++ str_int (x2 g) ++ "-" ++ str_int (y1 g) ++ "-" ++ str_int (y2 g) in
  let suite := suite_repr (ce_clustering_type e) "change_me" in
  csv_path (suite_meta (CConfig r "dtw" suite (csv_suite_dir suite "dtw") params tf et)) "outputs" ("query-" ++ rest) g 0 =
  ("outputs/" ++ region ++ "/dtw/" ++ ce_clustering_type e ++ "-change_me/" ++ params_repr params ++ "/" ++ rectangle ++ "/") ++
  ("query-" ++ rest) ++ ("__" ++ rectangle ++ "__tp" ++ str_int (Z.of_nat tf) ++ "__tf0__" ++ et ++ ".csv").
Proof using.
  intros Er He rectangle suite.
  assert (Hr : region_output_dir r "outputs" = "outputs/" ++ region /\ ends_with_slash region = false /\ region <> "").
  { unfold region_output_dir. rewrite (proj1 (predefined_facts _ _ Er)). apply dict_get_in in Er. unfold predefined_regions in Er. cbn [In] in Er. clear - Er.
    repeat (destruct Er as [ [= <- <-] | Er ]; [ repeat split; discriminate | ]). contradiction. }
  destruct Hr as (Hr & Hs & Hne).
  assert (Hsuite : exists ch t, suite = String ch t /\ ch <> "/"%char /\ ends_with_slash suite = false).
  { subst suite. clear - He. cbn [auto_arima_clustering_experiments In] in He.
    repeat (destruct He as [ [= <- <-] | He ]; [ eexists _, _; repeat split; discriminate | ]). contradiction. }
  destruct Hsuite as (ch & t & E1 & E2 & E3).
  unfold csv_path, csv_dir, solver_output_dir, suite_meta. cbn [sm_kind sm_region sm_params cc_region cc_suite_dir cc_params cc_test_len cc_error].
  unfold csv_suite_dir, suite_csv_dir. rewrite Hr.
  rewrite (path_join_plain (("outputs/" ++ region) ++ "/" ++ "dtw") suite); cycle 1.
  { discriminate. } { rewrite ends_slash_app by discriminate. reflexivity. } { rewrite E1. discriminate. } { rewrite E1. congruence. }
  assert (Hp : exists t, params_repr params = String "m" t \/ params_repr params = String "k" t \/ params_repr params = String "a" t).
  { destruct params; eexists; [ left | right; left | right; right ]; reflexivity. }
  rewrite (path_join_plain _ (params_repr params)); cycle 1.
  { discriminate. } { rewrite !ends_slash_app; auto; rewrite E1; discriminate. }
  { destruct Hp as [ u [ -> | [ -> | -> ] ] ]; discriminate. } { destruct Hp as [ u [ -> | [ -> | -> ] ] ]; discriminate. }
  rewrite (path_join_plain _ (prediction_region_as_str g)); cycle 1.
  { discriminate. } { rewrite !ends_slash_app; try discriminate. - apply no_slash_end, params_no_slash. - destruct Hp as [ u [ -> | [ -> | -> ] ] ]; discriminate. }
  { discriminate. } { discriminate. }
  rewrite path_join_plain; cycle 1.
  { discriminate. } { rewrite !ends_slash_app; try discriminate. apply no_slash_end, region_str_no_slash. }
  { discriminate. } { discriminate. }
  unfold csv_filename. cbn [sm_kind sm_test_len sm_error]. change (prediction_region_as_str g) with rectangle. unfold suite, suite_repr.
  rewrite !sapp_assoc. cbn [append]. reflexivity.
Qed.

(** the two files of a successful request: the paths are made of the region, the type of the clusterings, the
    auto-ARIMA parameters, the prediction region, the number of test samples and the type of error *)
Theorem C115_paths : forall {M} (fit : pdq -> list fnum -> res M) forecast search junk fs region experiment classifier lat1 lat2 long1 long2
    out_of_sample et tf fs' lines files,
  dnn_request fit forecast search junk fs region experiment classifier lat1 lat2 long1 long2 out_of_sample et tf = (fs', Ok (lines, files)) ->
  exists e params g, In (experiment, e) auto_arima_clustering_experiments /\ In (ce_models e, params) predefined_auto_arima /\
    prediction_region lat1 lat2 long1 long2 = Ok g /\
    let rectangle := "region-" ++ str_int (x1 g) ++ "-" ++ str_int (x2 g) ++ "-" ++ str_int (y1 g) ++ "-" ++ str_int (y2 g) in
    let dir := "outputs/" ++ region ++ "/dtw/" ++ ce_clustering_type e ++ "-change_me/" ++ params_repr params ++ "/" ++ rectangle ++ "/" in
    let rest := "__" ++ rectangle ++ "__tp" ++ str_int (Z.of_nat tf) ++ "__tf0__" ++ et ++ ".csv" in
    map fst files = [dir ++ "query-result" ++ rest; dir ++ "query-summary" ++ rest].
Proof using.
  intros M fit forecast search junk fs region experiment classifier lat1 lat2 long1 long2 out et tf fs' lines files H.
  unfold Dnn.dnn_request in H. destruct (dnn_metadata region experiment classifier out) as [ [ [ [ [ r e ] params ] c ] o ] | ] eqn:Em; [ | discriminate ].
  destruct (prediction_region lat1 lat2 long1 long2) as [ g | ] eqn:Eg; [ | discriminate ].
  unfold dnn_metadata in Em. destruct (region_by_name region) as [ r' | ] eqn:Er; cbn [bind] in Em; [ | discriminate ].
  destruct (dict_get String.eqb experiment _) as [ e' | ] eqn:Ee; cbn [bind] in Em; [ | discriminate ].
  destruct (get_suite _ _); cbn [bind] in Em; [ | discriminate ].
  destruct (dict_get String.eqb (ce_models e') _) as [ p' | ] eqn:Ep; cbn [bind] in Em; [ | discriminate ].
  destruct (dict_get String.eqb classifier _) as [ c' | ] eqn:Ecl; cbn [bind] in Em; [ | discriminate ].
  match type of Em with bind ?x _ = _ => destruct x eqn:Eo; cbn [bind] in Em; [ | discriminate ] end. injection Em as -> -> -> -> ->.
  exists e, params, g.
  split; [ apply dict_get_in; exact Ee | ]. split; [ apply dict_get_in; exact Ep | ]. split; [ reflexivity | ]. cbv zeta.
  match type of H with (let '(_, _) := ?x in _) = _ => destruct x as [ st q ] eqn:EP end. injection H as _ H. destruct q as [ q | ]; cbn [bind] in H; [ | discriminate ].
  apply created_by in EP. destruct EP as (f & test & ee & spt & labels & ->).
  unfold show_result in H. destruct (snd _); cbn [bind] in H; [ | discriminate ]. destruct (mapM _ _); cbn [bind] in H; [ | discriminate ].
  unfold save_as_csv in H. destruct (prediction_results_csv _ _ _); cbn [bind] in H; [ | discriminate ]. destruct (prediction_summary_csv _ _ _); cbn [bind] in H; [ | discriminate ].
  injection H as _ <-. cbn [map fst result_prefix base_of rb_meta rb_region rb_forecast_len].
  apply dict_get_in in Ee, Ep.
  f_equal; [ | f_equal ]; eapply suite_path; eauto.
Qed.
End Files.
Print Assumptions C115_paths.

(** so two requests that differ in the classifier, in the suite of clusterings or in the region that is looked at write
    the same files *)
Theorem C115_same_paths : forall create_instance partition_impl sqrt format_float show_series labels_of network
    {M} (fit : pdq -> list fnum -> res M) forecast search junk fs1 fs2 region experiment1 experiment2 classifier1 classifier2 lat1 lat2 long1 long2
    out1 out2 et tf fs1' fs2' lines1 lines2 files1 files2,
  let ask := dnn_request create_instance partition_impl sqrt format_float show_series labels_of network fit forecast search junk in
  ask fs1 region experiment1 classifier1 lat1 lat2 long1 long2 out1 et tf = (fs1', Ok (lines1, files1)) ->
  ask fs2 region experiment2 classifier2 lat1 lat2 long1 long2 out2 et tf = (fs2', Ok (lines2, files2)) ->
  (forall e1 e2, In (experiment1, e1) auto_arima_clustering_experiments -> In (experiment2, e2) auto_arima_clustering_experiments ->
     ce_clustering_type e1 = ce_clustering_type e2) ->
  map fst files1 = map fst files2.
Proof.
  intros ci pi sq ff ss lo nw M fit forecast search junk fs1 fs2 region ex1 ex2 c1 c2 lat1 lat2 long1 long2 o1 o2 et tf fs1' fs2' l1 l2 f1 f2 ask H1 H2 Hc.
  destruct (C115_paths _ _ _ _ _ _ _ _ _ _ _ _ _ _ _ _ _ _ _ _ _ _ _ _ _ H1) as (e1 & p1 & g1 & A1 & B1 & C1 & D1).
  destruct (C115_paths _ _ _ _ _ _ _ _ _ _ _ _ _ _ _ _ _ _ _ _ _ _ _ _ _ H2) as (e2 & p2 & g2 & A2 & B2 & C2 & D2).
  rewrite C1 in C2. injection C2 as <-. cbv zeta in D1, D2. rewrite D1, D2.
  assert (Hm : p1 = p2) by (destruct B1 as [ [= _ <-] | [] ], B2 as [ [= _ <-] | [] ]; reflexivity).
  rewrite Hm, (Hc e1 e2 A1 A2). reflexivity.
Qed.
Print Assumptions C115_same_paths.

(** names that are not offered: KeyError, and nothing is read or written *)
Theorem C115_unknown_names : forall create_instance partition_impl sqrt format_float show_series labels_of network
    {M} (fit : pdq -> list fnum -> res M) forecast search junk fs region experiment classifier lat1 lat2 long1 long2 out_of_sample et tf,
  ~ In region (map fst predefined_regions) \/ ~ In experiment (map fst auto_arima_clustering_experiments) \/ ~ In classifier (map fst classifier_experiments) \/
    (exists name, out_of_sample = Some name /\ name <> "" /\ ~ In name (map fst predefined_regions)) ->
  dnn_request create_instance partition_impl sqrt format_float show_series labels_of network fit forecast search junk fs region experiment classifier
    lat1 lat2 long1 long2 out_of_sample et tf = (fs, Raise KeyError).
Proof.
  intros ci pi sq ff ss lo nw M fit forecast search junk fs region ex cl lat1 lat2 long1 long2 out et tf H.
  assert (N : forall {V} (l : list (string * V)) k, ~ In k (map fst l) -> dict_get String.eqb k l = Raise KeyError).
  { intros V l k. induction l as [ | [ k' v ] l IH ]; cbn [dict_get map fst In]; [ reflexivity | ]. intros Hn. destruct (String.eqb_spec k' k); [ exfalso; apply Hn; auto | apply IH; auto ]. }
  assert (O : forall {V} (l : list (string * V)) k, dict_get String.eqb k l = Raise KeyError \/ exists v, dict_get String.eqb k l = Ok v /\ In (k, v) l).
  { intros V l k. destruct (dict_get String.eqb k l) eqn:E; [ right; eexists; split; [ reflexivity | apply dict_get_in; exact E ] | left ].
    rewrite <- E. apply N. intros Hin. clear N. induction l as [ | [ k' v ] l IH ]; cbn [dict_get map fst In] in *; [ contradiction | ].
    destruct (String.eqb_spec k' k); [ discriminate | ]. destruct Hin; [ contradiction | auto ]. }
  unfold dnn_request. enough (E : dnn_metadata region ex cl out = Raise KeyError) by (rewrite E; reflexivity).
  unfold dnn_metadata, region_by_name in *.
  destruct (O _ predefined_regions region) as [ -> | (r & Er & Ir) ]; [ reflexivity | ]. rewrite Er. cbn [bind].
  destruct (O _ auto_arima_clustering_experiments ex) as [ -> | (e & Ee & Ie) ]; [ reflexivity | ]. rewrite Ee. cbn [bind].
  destruct (proj1 C115_experiments _ _ Ie) as (_ & _ & (suite & Es & _) & (params & Ip)). rewrite Es. cbn [bind].
  destruct (O _ predefined_auto_arima (ce_models e)) as [ -> | (p & Ep & _) ]; [ reflexivity | ]. rewrite Ep. cbn [bind].
  destruct (O _ classifier_experiments cl) as [ -> | (c & Ecl & Ic) ]; [ reflexivity | ]. rewrite Ecl. cbn [bind].
  destruct H as [ H | [ H | [ H | (name & -> & Hne & H) ] ] ].
  - exfalso. apply H. apply (in_map fst) in Ir. exact Ir.
  - exfalso. apply H. apply (in_map fst) in Ie. exact Ie.
  - exfalso. apply H. apply (in_map fst) in Ic. exact Ic.
  - rewrite (N _ _ _ H). destruct name; [ congruence | reflexivity ].
Qed.
Print Assumptions C115_unknown_names.

(* ---------------------------------------------------------------- an example *)

(** sixteen samples; the clustering with seed s has one cluster with medoid (s, s); the two classifiers look at different
    networks, which answer different labels; a model repeats the last sample of its training series *)
Definition dn_data : arr3 fnum := mk3 16 7 10 (map (fun z => Fin (QArith_base.inject_Z z)) (zrange 1 1121)).
Definition dn_instance (r : rmeta) : res (stregion fnum) := Ok (qregion dn_data None).
Definition dn_clustering (r : rmeta) (c : cmeta) (spt : stregion fnum) (with_medoids : bool) : res part :=
  let s := match c with CKmedoids m => km_seed m | CRegular _ => 0%Z end in
  Ok (Crisp (full2 7 10 0%Z) 1, Some [(s, s)]).
Definition dn_labels (path : string) : list string := ["1-0-0"; "1-1-0"].
Definition dn_network (path : string) (s : list fnum) : list fnum :=
  if String.eqb path "lstm/model_lstm_wSW_label_k-seed-ci.h5" then [Fin 1; Fin 0] else [Fin 0; Fin 1].
Definition dn_fit (order : pdq) (s : list fnum) : res fnum := Ok (last s NaN).
Definition dn_forecast (m : fnum) (len : nat) : res (list fnum) := Ok (repeat m len).
Definition dn_search (p : mparams) (s : list fnum) : res pdq := Ok (1, 0, 0)%Z.
Definition dn_params : mparams := PAutoArima 1 1 3 3 None true.
Definition dn_pg : program fnum := auto_arima_program dn_fit (fun _ => (1, 0, 0)%Z) dn_forecast dn_search dn_params.
Local Notation dn_options seed := (SArgs "nordeste_small_2015_2015_1spd" "kmedoids" 1 seed 2 "MSE").
Local Notation dn_train fs seed := (train_request dn_instance ex_distances dn_clustering fs dn_pg (dn_options seed)).
Local Notation dn_files := (fst (dn_train (fst (dn_train (fun _ => None) 0%Z)) 1%Z)).
Definition dn_ask (experiment classifier : string) :=
  dnn_request dn_instance dn_clustering (fun v => v) (fun _ _ => "x") (fun _ => "s") dn_labels dn_network dn_fit dn_forecast dn_search NaN dn_files
    "nordeste_small_2015_2015_1spd" experiment classifier "1" "2" "2" "4" None "MSE" 2.
Lemma pair_of {A B} (x : A * B) b : snd x = b -> x = (fst x, b).
Proof. intros <-. apply surjective_pairing. Qed.
Lemma after_training {M} ci ld pi dtw sqrt ff ss pg a fs : fst (train_request ci ld pi fs pg a) = fold_left (run (M := M) ci ld pi dtw sqrt ff ss) [Train pg a] fs.
Proof. reflexivity. Qed.
Lemma after_nothing {A B} (f : A -> B -> A) a : a = fold_left f [] a.
Proof. reflexivity. Qed.
Example C115_example :
  (l <- snd (dn_ask "simple_kmedoids_quick" "dnn") ;; Ok (fst l)) =
    Ok [LPointLabel (44, 87)%Z "1-0-0"; LForecast [Fin (911 # 1); Fin (911 # 1)]; LTest [Fin (993 # 1); Fin (1063 # 1)]; LError "MSE" (Fin (29828 # 2));
        LPointLabel (44, 88)%Z "1-0-0"; LForecast [Fin (911 # 1); Fin (911 # 1)]; LTest [Fin (994 # 1); Fin (1064 # 1)]; LError "MSE" (Fin (30298 # 2))] /\
  (forall m len f, dn_forecast m len = Ok f -> length f = len) /\ qwf dn_data None /\ 2 <= a3t dn_data /\ 15 <= a3t dn_data /\
  prediction_region "1" "2" "2" "4" = Ok (Rect 1 2 2 4) /\ rect_in (Rect 1 2 2 4) (a3x dn_data) (a3y dn_data) /\
  forall path l, In l (dn_labels path) -> exists k seed i, (0 <= k)%Z /\ (0 <= seed)%Z /\ (0 <= i)%Z /\ l = classifier_label k seed i /\
    trained_before dn_instance ex_distances dn_clustering (fun _ _ => Fin 0%Q) (fun v => v) (fun _ _ => "x") (fun _ => "s") dn_pg
      (SArgs "nordeste_small_2015_2015_1spd" "kmedoids" k seed 2 "MSE") dn_data None dn_files.
Proof.
  split; [ vm_compute; reflexivity | ]. split; [ intros m len f [= <-]; apply repeat_length | ]. split; [ repeat split | ].
  split; [ vm_compute; lia | ]. split; [ vm_compute; lia | ]. split; [ reflexivity | ]. split; [ unfold rect_in; cbn; lia | ]. intros path l Hl.
  assert (V : forall seed (fs0 : fsys fnum), (0 <= seed < 7)%Z -> (forall r c p ms, metadata_from_args (dn_options seed) = Ok (r, c) -> fs0 (pickle_full_path c r "dtw") <> Some (FPartition (p, Some ms))) ->
     forall r c p ms, metadata_from_args (dn_options seed) = Ok (r, c) -> from_clustering dn_clustering fs0 r c (qregion dn_data None) p ms ->
     valid_partition p (a3x dn_data) (a3y dn_data) /\ medoids_of p (a3x dn_data) (a3y dn_data) ms).
  { intros seed fs0 Hs Hf r c p ms Em [ E | E ]; [ exfalso; eapply Hf; eauto | ]. clear Hf.
    assert (Ec : c = CKmedoids (kmeta_default 1 seed "lite")) by (unfold metadata_from_args in Em; destruct (region_by_name _); cbn in Em; [ injection Em as _ <-; reflexivity | discriminate ]).
    subst c. injection E as <- <-. clear Em.
    assert (L : forall pt, in_grid 7 10 pt -> get2 (full2 7 10 0%Z) (fst pt) (snd pt) = Ok 0%Z) by (intros pt H; apply get_full; exact H).
    split.
    - unfold valid_partition. cbn [labels pk a3x a3y dn_data a2x a2y full2]. split; [ reflexivity | ]. split; [ reflexivity | ]. split; [ reflexivity | ]. split.
      + intros pt v Hp Hv. unfold label_at in Hv. cbn [labels] in Hv. rewrite L in Hv by exact Hp. injection Hv as <-. cbn. lia.
      + exists (0, 0)%Z. split; [ unfold in_grid; cbn; lia | reflexivity ].
    - split; [ reflexivity | ]. intros [ | [ | i ] ] m E; cbn in E; try discriminate. injection E as <-.
      split; [ unfold in_grid; cbn; lia | unfold label_at; cbn [labels]; apply L; unfold in_grid; cbn; lia ]. }
  cbn [dn_labels In] in Hl. destruct Hl as [ <- | [ <- | [] ] ].
  - exists 1%Z, 0%Z, 0%Z. do 3 (split; [ lia | ]). split; [ reflexivity | ].
    exists (fun _ => None), (fst (dn_train (fun _ => None) 0%Z)), [Train dn_pg (dn_options 1%Z)]. split; [ | split; [ | split; [ apply after_training | ] ] ].
    + assert (E : snd (dn_train (fun _ => None) 0%Z) = Ok tt) by (vm_compute; reflexivity). apply pair_of in E. exact E.
    + constructor; [ | constructor ]. intros _ _. split; [ reflexivity | left; reflexivity ].
    + apply (V 0%Z); [ lia | ]. intros; discriminate.
  - exists 1%Z, 1%Z, 0%Z. do 3 (split; [ lia | ]). split; [ reflexivity | ].
    exists (fst (dn_train (fun _ => None) 0%Z)), (fst (dn_train (fst (dn_train (fun _ => None) 0%Z)) 1%Z)), []. split; [ | split; [ constructor | split; [ apply after_nothing | ] ] ].
    + assert (E : snd (dn_train (fst (dn_train (fun _ => None) 0%Z)) 1%Z) = Ok tt) by (vm_compute; reflexivity). apply pair_of in E. exact E.
    + apply (V 1%Z); [ lia | ]. intros r c p ms Em. apply (f_equal (fun e => match e with Ok rc => Some rc | Raise _ => None end)) in Em. vm_compute in Em. injection Em as <- <-. vm_compute. discriminate.
Qed.
(** one would expect that answers that differ are kept in different files: the ones of the two classifiers are not *)
Theorem C115_answers_kept_apart_refuted : exists l1 l2 files1 files2, snd (dn_ask "simple_kmedoids_quick" "dnn") = Ok (l1, files1) /\
  snd (dn_ask "simple_kmedoids_all" "dnnRV") = Ok (l2, files2) /\ l1 <> l2 /\ files1 <> files2 /\ map fst files1 = map fst files2.
Proof.
  eexists _, _, _, _. split; [ vm_compute; reflexivity | ]. split; [ vm_compute; reflexivity | ]. split; [ discriminate | ]. split; [ discriminate | reflexivity ].
Qed.
Print Assumptions C115_answers_kept_apart_refuted.
