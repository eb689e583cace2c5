(** The programs that forecast with a model at each point of the prediction region: experiments/baseline/solver_knn_each.py
    and experiments/auto_arima/solver_each.py. *)
From Coq Require Import String.
From Verif Require Import Base.Py Base.PyFacts Base.Arr Base.ArrFacts Base.Str Base.Dict Base.Float Model.Region Model.Scaling Model.Series
  Model.Errors Model.Models Model.Forecast Model.Clustering Model.Solver Model.SolverFiles Model.Results Model.Programs
  Spec.Grid Spec.Partition Spec.SolverFiles Spec.Solver Spec.Programs Spec.Rect Spec.Results Proofs.RegionFacts Proofs.PartitionFacts Proofs.ProperFacts
  Proofs.SolverFacts Proofs.ResultsFacts Proofs.ForecastFacts Proofs.ClassifierFacts Proofs.ProgramFacts Props.Basics Props.Programs.
From Coq Require Import ZifyBool ZifyNat.
Local Open Scope string_scope.
Local Notation length := List.length.

Section KnnEach.
Context (create_instance : rmeta -> res (stregion fnum)) (dtw : list fnum -> list fnum -> fnum) (sqrt : fnum -> fnum)
        (format_float : nat -> fnum -> string) (show_series : list fnum -> string).
Local Notation each_result := (each_result create_instance).
Local Notation knn_each_request := (knn_each_request create_instance dtw sqrt format_float show_series).
Local Notation auto_arima_each_request := (auto_arima_each_request create_instance sqrt format_float show_series).

Lemma each_result_spec {P M} (kind : model_kind P M) value mp junk region lat1 lat2 long1 long2 et tf r d sc g q :
  forecasts_fit kind -> region_by_name region = Ok r -> create_instance r = Ok (qregion d sc) -> qwf d sc ->
  rm_scaled r = (match sc with None => false | Some _ => true end) -> tf <= a3t d ->
  prediction_region lat1 lat2 long1 long2 = Ok g -> rect_in g (a3x d) (a3y d) ->
  each_result kind (Ok (value, mp)) junk region lat1 lat2 long1 long2 et tf = Ok q ->
  exists f test e func, get_error_func et = Ok func /\
    q = InSample (RBase (SMeta r mp (Z.of_nat tf) et SBasic) 0 f e g (qregion d sc)) test /\
    t_x f = width g /\ t_y f = height g /\
    forall pt own, in_grid (width g) (height g) pt -> series3 d (fst (in_domain g pt)) (snd (in_domain g pt)) = Ok own ->
      exists model forecast f' o t v, training_function kind value (firstn (length own - tf) own) = Ok model /\
        forecast_by kind model tf = Ok forecast /\
        shown sc (in_domain g pt) forecast f' /\ series_at f pt = Ok f' /\
        shown sc (in_domain g pt) (skipn (length own - tf) own) o /\ series_at test pt = Ok o /\
        shown sc (in_domain g pt) (firstn (length own - tf) own) t /\
        func f' o (Some t) = Ok v /\ value_at e pt = Ok v.
Proof using.
  intros Hfit Er Ec Hq Hsc Htl Eg Hg H. unfold Programs.each_result in H. rewrite Er, Eg in H. cbn [bind] in H. rewrite Ec in H. cbn [bind] in H.
  destruct (q_subset d sc g Hq Hg) as (m & Esub & Hqm & Tm & Xm & Ym & Sm). fold (width g) (height g) in Xm, Ym, Sm. set (sc' := slice_sc sc g) in *.
  rewrite Esub in H. cbn [bind] in H. rewrite q_x, q_y in H.
  destruct (q_split m sc' tf Hqm) as (d1 & d2 & Esp & Hq1 & Hq2 & T1 & T2 & X1 & Y1 & X2 & Y2 & Ss); [ rewrite Tm; exact Htl | ].
  unfold train_models in H. rewrite Esp in H.
  destruct (train kind (full2 (a3x m) (a3y m) (Some value)) (qregion d1 sc')) as [ [ models n ] | ] eqn:Et; cbn [bind] in H; [ | discriminate ].
  destruct (train_all_spec kind _ d1 sc' models n Hq1 Et) as (Wm & Xmo & Ymo & Smo).
  unfold forecast_at_each_point, check_forecast_request in H. cbn [an_data an_models da_len new_analysis] in H. rewrite Nat.eqb_refl in H. cbn [py_assert bind] in H.
  destruct (forecast_region kind junk _ models tf) as [ F | ] eqn:EF; cbn [bind fst] in H; [ | discriminate ].
  set (mo := fun pt : point => match (s <- series3 d1 (fst pt) (snd pt) ;; training_function kind value s) with Ok m => m | Raise _ => None end).
  assert (Hmo : forall pt s, in_grid (width g) (height g) pt -> series3 d1 (fst pt) (snd pt) = Ok s ->
            training_function kind value s = Ok (mo pt) /\ get2 models (fst pt) (snd pt) = Ok (cell_of (mo pt))).
  { intros pt s Hp Es. assert (Hp1 : in_grid (a3x d1) (a3y d1) pt) by (rewrite X1, Y1, Xm, Ym; exact Hp).
    destruct (Smo pt s Hp1 Es) as (p & mm & E1 & E2 & E3).
    rewrite get_full in E1 by (rewrite <- X1, <- Y1; exact Hp1). injection E1 as <-.
    unfold mo. rewrite Es. cbn [bind]. rewrite E2. auto. }
  assert (Hm : holds_models models (width g) (height g) mo).
  { split; [ exact Wm | ]. split; [ congruence | ]. split; [ congruence | ]. intros pt Hp.
    assert (Hp1 : in_grid (a3x d1) (a3y d1) pt) by (rewrite X1, Y1, Xm, Ym; exact Hp).
    destruct (ser_ok d1 pt (proj1 Hq1) Hp1) as (s & Es & _). apply (Hmo pt s Hp Es). }
  unfold forecast_region in EF. cbn [da_training da_region] in EF. rewrite q_new_spatial, q_x, q_y, X1, Y1, Xm, Ym in EF.
  destruct (model_apply_to kind models _ tf) as [ F0 | ] eqn:EF0; [ | discriminate ]. cbn [bind] in EF.
  destruct (apply_models_spec kind models mo (full2 (width g) (height g) junk) tf F0 (width g) (height g) Hfit Hm (wf2_full _ _ _) eq_refl eq_refl EF0)
    as (f0 & -> & W0 & T0 & X0 & Y0 & S0).
  assert (F = qregion f0 sc').
  { cbn [t_data] in EF. rewrite q_scaling, q_new_st in EF. destruct sc' as [ [ ? ? ] | ]; [ congruence | ]. cbn [qregion]. congruence. }
  subst F. clear EF.
  assert (Hqf : qwf f0 sc') by (eapply q_again; [ exact Hqm | exact W0 | congruence | congruence ]).
  unfold error_analysis_of in H. cbn [da_test da_training] in H.
  destruct (with_forecast_region _ (qregion f0 sc') et) as [ E | ] eqn:EE; [ | discriminate ]. cbn [bind] in H.
  destruct (measure_q_spec f0 d1 d2 sc' _ _ Hq1 Hq2 Hqf ltac:(congruence) ltac:(congruence) ltac:(congruence) ltac:(congruence) EE)
    as (e & func & -> & We & Xe & Ye & Ef & Se).
  cbn [an_data da_test bind] in H.
  assert (Hsc' : rm_scaled r = match sc' with None => false | Some _ => true end) by (rewrite Hsc; unfold sc'; destruct sc as [ [ ? ? ] | ]; reflexivity).
  rewrite Hsc' in H.
  destruct (descale_again f0 m sc' Hqf Hqm ltac:(congruence) ltac:(congruence)) as (f1 & Ed1 & W1 & Tf & Xf & Yf & Sf).
  destruct (descale_again d2 m sc' Hq2 Hqm ltac:(congruence) ltac:(congruence)) as (f2 & Ed2 & W2 & Tf2 & Xf2 & Yf2 & Sf2).
  assert (Hres : q = InSample (RBase (SMeta r mp (Z.of_nat tf) et SBasic) 0 (qregion f1 sc') (SPlain e) g (qregion d sc)) (qregion f2 sc')).
  { change Classifier.descale_subregion with Programs.descale_subregion in *. destruct sc' as [ [ ? ? ] | ].
    - rewrite Ed1 in H. cbn [bind] in H. rewrite Ed2 in H. cbn [bind builder] in H. congruence.
    - cbn [bind builder] in H. congruence. }
  clear H. exists (qregion f1 sc'), (qregion f2 sc'), (SPlain e), func. split; [ exact Ef | ]. split; [ exact Hres | ].
  rewrite !q_x, !q_y. do 2 (split; [ congruence | ]).
  intros pt own Hp Eown. destruct (Sm pt Hp) as [ Em Hsh ]. rewrite Eown in Em.
  assert (Hpm : in_grid (a3x m) (a3y m) pt) by (rewrite Xm, Ym; exact Hp).
  destruct (Ss pt own Hpm Em) as [ A1 A2 ]. destruct (S0 pt Hp) as (fc & B1 & B2).
  destruct (Sf pt fc) as (fc' & C1 & C2); [ rewrite X0, Y0; exact Hp | exact B2 | ].
  destruct (Sf2 pt _ ltac:(rewrite X2, Y2; exact Hpm) A2) as (o & D1 & D2).
  destruct (Se pt fc _ _ ltac:(rewrite X2, Y2; exact Hpm) B2 A1 A2) as (fc2 & t & o2 & v & F1 & F2 & F3 & F4 & F5).
  assert (Hfun : forall s t1 t2, shown sc' pt s t1 -> shown sc' pt s t2 -> t1 = t2).
  { intros s0 t1 t2. destruct sc' as [ [ mn mx ] | ]; cbn [shown]; [ | congruence ].
    intros (a & b' & Ha & Hb & ->) (a' & b'' & Ha' & Hb' & ->). replace a' with a by congruence. replace b'' with b' by congruence. reflexivity. }
  assert (fc2 = fc') by eauto. assert (o2 = o) by eauto. subst fc2 o2.
  destruct (Hmo pt _ Hp A1) as [ G1 _ ].
  exists (mo pt), fc, fc', o, t, v. rewrite !q_series_at. split; [ exact G1 | ]. split; [ exact B1 | ]. repeat split; auto; apply Hsh; assumption.
Qed.

Lemma each_answers {P M} (kind : model_kind P M) value mp junk region lat1 lat2 long1 long2 et tf r d sc g lines files :
  forecasts_fit kind -> region_by_name region = Ok r -> create_instance r = Ok (qregion d sc) -> qwf d sc -> (sc = None <-> rm_scaled r = false) -> tf <= a3t d ->
  prediction_region lat1 lat2 long1 long2 = Ok g -> rect_in g (a3x d) (a3y d) ->
  (result <- each_result kind (Ok (value, mp)) junk region lat1 lat2 long1 long2 et tf ;; show_result sqrt format_float show_series result) = Ok (lines, files) ->
  length lines = 4 * (width g * height g) /\
  exists func result, get_error_func et = Ok func /\ fits result d sc tf /\
    rb_meta (base_of result) = SMeta r mp (Z.of_nat tf) et SBasic /\
    save_as_csv sqrt format_float show_series result "outputs" = Ok files /\
    forall i j, i < width g -> j < height g -> let pt := (Z.of_nat i + x1 g, Z.of_nat j + y1 g)%Z in
    exists own f o e, series3 d (fst pt) (snd pt) = Ok own /\ evaluated kind value func sc tf own own pt f o e /\
      block 4 (height g) i j lines = [LPoint (raw_position r g i j); LForecast f; LTest o; LError et e] /\
      lines_for_point result (Z.of_nat i, Z.of_nat j) = Ok (block 4 (height g) i j lines).
Proof using.
  intros Hfit Er Ec Hq Hsc Htl Eg Hg H. destruct (Programs.each_result _ _ _ _ _ _ _ _ _ _ _) as [ q | ] eqn:Eq; [ | discriminate ]. cbn [bind] in H.
  assert (Hsc' : rm_scaled r = match sc with None => false | Some _ => true end).
  { destruct sc, (rm_scaled r) eqn:E; try reflexivity; destruct Hsc as [ H1 H2 ]; [ discriminate (H2 eq_refl) | discriminate (H1 eq_refl) ]. }
  destruct (each_result_spec _ _ _ _ _ _ _ _ _ _ _ _ _ _ _ _ Hfit Er Ec Hq Hsc' Htl Eg Hg Eq) as (f & test & e & func & Ef & -> & Fx & Fy & S).
  set (q := InSample _ test) in *.
  assert (Hf : fits q d sc tf).
  { cbn [fits q rb_region]. split.
    - unfold base_fits. cbn [rb_region rb_spt_region rb_meta sm_test_len rb_forecast rb_errors]. do 7 (split; [ auto | ]).
      intros pt Hp. destruct (ser_ok d (in_domain g pt) (proj1 Hq) (in_domain_grid _ _ _ _ Hg Hp)) as (own & Eo & _).
      destruct (S pt own Hp Eo) as (? & ? & ? & ? & ? & ? & A). split; eexists; apply A.
    - intros pt Hp. destruct (ser_ok d (in_domain g pt) (proj1 Hq) (in_domain_grid _ _ _ _ Hg Hp)) as (own & Eo & _).
      destruct (S pt own Hp Eo) as (? & ? & ? & ? & ? & ? & A). eexists; apply A. }
  assert (Hn : forall pt ls, other_lines pt q ls -> length ls = 3) by (intros pt ls Ho; inversion Ho; reflexivity).
  destruct (show_blocks _ _ _ _ _ _ _ 3 lines files Hf Hn H) as (L & Sv & B). cbn [base_of rb_region q] in L, B.
  split; [ exact L | ]. exists func, q. do 2 (split; [ assumption | ]). split; [ reflexivity | ]. split; [ assumption | ].
  intros i j Hi Hj pt. destruct (B i j Hi Hj) as (first & others & Eblk & Elines & F1 & F2).
  assert (Hp : in_grid (width g) (height g) (Z.of_nat i, Z.of_nat j)) by (unfold in_grid; cbn [fst snd]; lia).
  pose proof (in_domain_grid _ _ _ _ Hg Hp) as Hd. change (in_domain g (Z.of_nat i, Z.of_nat j)) with pt in Hd.
  destruct (ser_ok d pt (proj1 Hq) Hd) as (own & Eown & _).
  destruct (S _ own Hp Eown) as (mo & fc & f' & o & t & v & A0 & A1 & A2 & A3 & A4 & A5 & A6 & A7 & A8).
  exists own, f', o, v. split; [ assumption | ]. split; [ exists mo, fc, t; auto 10 | ].
  inversion F1; subst. inversion F2; subst. cbn [rb_forecast rb_errors rb_meta sm_error] in *.
  assert (Eb : block 4 (height g) i j lines = [LPoint (raw_position r g i j); LForecast f'; LTest o; LError et v]).
  { unfold block. rewrite Eblk. unfold in_dataset, raw_position, in_domain. cbn [base_of rb_meta rb_region fst snd sm_region]. repeat f_equal; try congruence; lia. }
  split; [ exact Eb | ]. unfold block. rewrite Eblk. exact Elines.
Qed.

(** what is printed and saved: for each point of the prediction region, in row order, its place in the raw dataset, the
    forecast of k-NN trained on its own series without the last [tf] samples, these samples, and the error of the one
    with the other, all in the units of the dataset *)
Theorem C114_answers : forall argpartition junk region knn lat1 lat2 long1 long2 et tf r d sc g lines files,
  region_by_name region = Ok r -> create_instance r = Ok (qregion d sc) -> qwf d sc -> (sc = None <-> rm_scaled r = false) -> tf <= a3t d ->
  prediction_region lat1 lat2 long1 long2 = Ok g -> rect_in g (a3x d) (a3y d) ->
  knn_each_request argpartition junk region knn lat1 lat2 long1 long2 et tf = Ok (lines, files) ->
  length lines = 4 * (width g * height g) /\
  exists func result, get_error_func et = Ok func /\ fits result d sc tf /\
    rb_meta (base_of result) = SMeta r (PKnn knn "dtw") (Z.of_nat tf) et SBasic /\
    save_as_csv sqrt format_float show_series result "outputs" = Ok files /\
    forall i j, i < width g -> j < height g -> let pt := (Z.of_nat i + x1 g, Z.of_nat j + y1 g)%Z in
    exists own forecast f o t e, series3 d (fst pt) (snd pt) = Ok own /\
      predict_future_values_with_knn dtw argpartition (firstn (length own - tf) own) knn tf = Ok forecast /\
      shown sc pt forecast f /\ shown sc pt (skipn (length own - tf) own) o /\ shown sc pt (firstn (length own - tf) own) t /\
      func f o (Some t) = Ok e /\
      block 4 (height g) i j lines = [LPoint (raw_position r g i j); LForecast f; LTest o; LError et e] /\
      lines_for_point result (Z.of_nat i, Z.of_nat j) = Ok (block 4 (height g) i j lines).
Proof using.
  intros argpartition junk region knn lat1 lat2 long1 long2 et tf r d sc g lines files Er Ec Hq Hsc Htl Eg Hg H.
  destruct (each_answers (knn_kind dtw argpartition) knn (PKnn knn "dtw") junk region lat1 lat2 long1 long2 et tf r d sc g lines files
              (C51_asked_length _ _) Er Ec Hq Hsc Htl Eg Hg H) as (L & func & q & Ef & Hf & Em & Es & S).
  split; [ exact L | ]. exists func, q. do 4 (split; [ assumption | ]). intros i j Hi Hj pt.
  destruct (S i j Hi Hj) as (own & f & o & e & A1 & (mo & fc & t & A2 & A3 & A4 & A5 & A6 & A7) & A8 & A9).
  cbn [knn_kind training_function] in A2. injection A2 as <-. exists own, fc, f, o, t, e. auto 10.
Qed.

(** the same with auto-ARIMA: the model is the one found for the point's own series without the last [tf] samples; no
    model gives a forecast of NaN *)
Theorem C114_auto_arima_answers : forall {M} (fit : pdq -> list fnum -> res M) forecast search junk region auto_arima params lat1 lat2 long1 long2 et tf r d sc g lines files,
  (forall m len f, forecast m len = Ok f -> length f = len) -> In (auto_arima, params) predefined_auto_arima ->
  region_by_name region = Ok r -> create_instance r = Ok (qregion d sc) -> qwf d sc -> (sc = None <-> rm_scaled r = false) -> tf <= a3t d ->
  prediction_region lat1 lat2 long1 long2 = Ok g -> rect_in g (a3x d) (a3y d) ->
  auto_arima_each_request fit forecast search junk region auto_arima lat1 lat2 long1 long2 et tf = Ok (lines, files) ->
  length lines = 4 * (width g * height g) /\
  exists func result, get_error_func et = Ok func /\ fits result d sc tf /\
    rb_meta (base_of result) = SMeta r params (Z.of_nat tf) et SBasic /\
    save_as_csv sqrt format_float show_series result "outputs" = Ok files /\
    forall i j, i < width g -> j < height g -> let pt := (Z.of_nat i + x1 g, Z.of_nat j + y1 g)%Z in
    exists own f o e, series3 d (fst pt) (snd pt) = Ok own /\
      evaluated (auto_arima_kind fit forecast search) params func sc tf own own pt f o e /\
      block 4 (height g) i j lines = [LPoint (raw_position r g i j); LForecast f; LTest o; LError et e] /\
      lines_for_point result (Z.of_nat i, Z.of_nat j) = Ok (block 4 (height g) i j lines).
Proof using.
  intros M fit forecast search junk region auto_arima params lat1 lat2 long1 long2 et tf r d sc g lines files Hfit Hin Er Ec Hq Hsc Htl Eg Hg H.
  destruct Hin as [ [= <- <-] | [] ]. unfold Programs.auto_arima_each_request in H. cbn [predefined_auto_arima dict_get String.eqb] in H. cbn [Ascii.eqb Bool.eqb bind] in H.
  eapply each_answers; eauto.
Qed.

(** requests that cannot be answered *)
Theorem C114_unknown_names : forall argpartition junk region knn lat1 lat2 long1 long2 et tf {M} (fit : pdq -> list fnum -> res M) forecast search auto_arima,
  (~ In region (map fst predefined_regions) ->
     knn_each_request argpartition junk region knn lat1 lat2 long1 long2 et tf = Raise KeyError) /\
  (~ In region (map fst predefined_regions) \/ auto_arima <> "simple" ->
     auto_arima_each_request fit forecast search junk region auto_arima lat1 lat2 long1 long2 et tf = Raise KeyError).
Proof using.
  intros. unfold Programs.knn_each_request, Programs.auto_arima_each_request, Programs.each_result. split.
  - intros H. rewrite (C112_unknown_region _ H). reflexivity.
  - destruct (region_by_name region) as [ r | e ] eqn:E.
    + intros [ H | H ]; [ rewrite (C112_unknown_region _ H) in E; discriminate | ]. cbn [bind predefined_auto_arima dict_get].
      destruct (String.eqb_spec "simple" auto_arima); [ congruence | reflexivity ].
    + intros _. unfold region_by_name in E. cbn [bind]. f_equal. clear - E. induction predefined_regions as [ | [ k v ] l IH ]; cbn [dict_get] in E; [ congruence | ].
      destruct (String.eqb k region); [ discriminate | auto ].
Qed.
End KnnEach.
Print Assumptions C114_answers.
Print Assumptions C114_auto_arima_answers.
Print Assumptions C114_unknown_names.

(** the answer at a point depends on the series of that point only *)
Theorem C114_own_series_only : forall create_instance create_instance' dtw sqrt format_float show_series argpartition junk junk' region knn lat1 lat2 long1 long2 et tf r d d' sc g lines files lines' files' i j,
  region_by_name region = Ok r -> create_instance r = Ok (qregion d sc) -> create_instance' r = Ok (qregion d' sc) -> qwf d sc -> qwf d' sc ->
  (sc = None <-> rm_scaled r = false) -> tf <= a3t d -> tf <= a3t d' ->
  prediction_region lat1 lat2 long1 long2 = Ok g -> rect_in g (a3x d) (a3y d) -> rect_in g (a3x d') (a3y d') -> i < width g -> j < height g ->
  series3 d (Z.of_nat i + x1 g) (Z.of_nat j + y1 g) = series3 d' (Z.of_nat i + x1 g) (Z.of_nat j + y1 g) ->
  knn_each_request create_instance dtw sqrt format_float show_series argpartition junk region knn lat1 lat2 long1 long2 et tf = Ok (lines, files) ->
  knn_each_request create_instance' dtw sqrt format_float show_series argpartition junk' region knn lat1 lat2 long1 long2 et tf = Ok (lines', files') ->
  block 4 (height g) i j lines = block 4 (height g) i j lines'.
Proof.
  intros ci ci' dtw sqrt ff ss argpartition junk junk' region knn lat1 lat2 long1 long2 et tf r d d' sc g lines files lines' files' i j Er Ec Ec' Hq Hq' Hsc Ht Ht' Eg Hg Hg' Hi Hj Es H H'.
  destruct (C114_answers ci dtw sqrt ff ss argpartition junk region knn lat1 lat2 long1 long2 et tf r d sc g lines files Er Ec Hq Hsc Ht Eg Hg H) as (_ & func & q & Ef & _ & _ & _ & S).
  destruct (C114_answers ci' dtw sqrt ff ss argpartition junk' region knn lat1 lat2 long1 long2 et tf r d' sc g lines' files' Er Ec' Hq' Hsc Ht' Eg Hg' H') as (_ & func' & q' & Ef' & _ & _ & _ & S').
  destruct (S i j Hi Hj) as (own & fc & f & o & t & e & A1 & A2 & A3 & A4 & A5 & A6 & A7 & _).
  destruct (S' i j Hi Hj) as (own' & fc' & f' & o' & t' & e' & B1 & B2 & B3 & B4 & B5 & B6 & B7 & _).
  cbn [fst snd] in *. rewrite A7, B7. replace func' with func in * by congruence. replace own' with own in * by congruence.
  replace fc' with fc in * by congruence.
  assert (Hfun : forall pt s t1 t2, shown sc pt s t1 -> shown sc pt s t2 -> t1 = t2).
  { intros pt s0 t1 t2. destruct sc as [ [ mn mx ] | ]; cbn [shown]; [ | congruence ].
    intros (a & b' & Ha & Hb & ->) (a' & b'' & Ha' & Hb' & ->). replace a' with a by congruence. replace b'' with b' by congruence. reflexivity. }
  rewrite (Hfun _ _ _ _ A3 B3) in *. rewrite (Hfun _ _ _ _ A4 B4) in *. rewrite (Hfun _ _ _ _ A5 B5) in *. replace e' with e by congruence. reflexivity.
Qed.

Print Assumptions C114_own_series_only.

(** a plain and a scaled region, k = 1, one test sample *)
Definition ke_order (l : list fnum) (k : nat) : list nat := rev (seq 0 (length l)).
Definition ke_min : arr2 fnum := full2 7 10 (Fin 10%Q).
Definition ke_max : arr2 fnum := mk2 7 10 (map (fun z => Fin (QArith_base.inject_Z (20 + z))) (zrange 0 70)).
Definition ke_instance (r : rmeta) : res (stregion fnum) := Ok (qregion ex_data (if rm_scaled r then Some (ke_min, ke_max) else None)).
Definition ke_request (region : string) (knn : Z) (tf : nat) :=
  knn_each_request ke_instance (fun _ _ => Fin 0%Q) (fun v => v) (fun _ _ => "x") (fun _ => "s") ke_order NaN region knn "1" "2" "2" "4" "MSE" tf.
Lemma ke_wf : forall r, qwf ex_data (if rm_scaled r then Some (ke_min, ke_max) else None) /\
  ((if rm_scaled r then Some (ke_min, ke_max) else None) = None <-> rm_scaled r = false).
Proof. intros r. split; [ destruct (rm_scaled r); repeat split | destruct (rm_scaled r); split; congruence ]. Qed.
Example C114_example :
  (l <- ke_request "nordeste_small_2015_2015_1spd" 1 1 ;; Ok (fst l)) =
    Ok [LPoint (44, 87)%Z; LForecast [Fin 82]; LTest [Fin 222]; LError "MSE" (Fin 19600);
        LPoint (44, 88)%Z; LForecast [Fin 83]; LTest [Fin 223]; LError "MSE" (Fin 19600)] /\
  (l <- ke_request "nordeste_small_2015_2015_1spd_scaled" 1 1 ;; Ok (firstn 3 (fst l))) =
    Ok [LPoint (44, 87)%Z; LForecast [Fin 1814]; LTest [Fin 4894]] /\
  ke_request "nordeste_small_2015_2015_1spd" 3 1 = Raise ValueError /\
  prediction_region "1" "2" "2" "4" = Ok (Rect 1 2 2 4) /\ rect_in (Rect 1 2 2 4) (a3x ex_data) (a3y ex_data).
Proof. repeat split; vm_compute; try reflexivity; discriminate. Qed.
