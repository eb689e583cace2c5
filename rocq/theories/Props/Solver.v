(** Solvers: training, in-sample and out-of-sample predictions (C58). *)
From Coq Require Import String Lia.
From Verif Require Import Base.Py Base.Arr Base.Float Model.Region Model.Errors Model.Models
  Model.Solver Spec.Grid Spec.Rect Spec.Partition Spec.Solver Proofs.SolverFacts Proofs.SolverTotal.
From Coq Require Import QArith.
Local Close Scope Q_scope. Local Open Scope nat_scope.
Local Notation length := List.length.

(** whether region_metadata.scaled holds *)
Notation is_scaled sc := (match sc with None => false | Some _ => true end).

(** C58, in-sample queries (forecast_len <= 0).  [d] holds the samples of the whole region and [sc] its scaling, if
    any; [tl] is test_len; [g] is the prediction region.  At every point of [g] the forecast has test_len samples and
    is the forecast of the model trained on the series of the medoid of the point's cluster without its last test_len
    samples, with the scaling of the point itself removed; the test series is the end of the point's own series; and
    the error is the chosen error function of the two and of the start of the point's own series. *)
Theorem C58_in_sample : forall {P M} (kind : model_kind P M) mp cluster d sc tl et s p medoids g fl q,
  forecasts_fit kind -> qwf d sc -> tl <= a3t d -> rect_in g (a3x d) (a3y d) -> (fl <= 0)%Z ->
  cluster (qregion d sc) = Ok (p, medoids) -> valid_partition p (a3x d) (a3y d) -> medoids_of p (a3x d) (a3y d) medoids ->
  solver_train kind (full2 (a3x d) (a3y d) (Some mp)) (default_refitter kind (full2 (a3x d) (a3y d) (Some mp)))
    cluster (qregion d sc) (Z.of_nat tl) et = Ok s ->
  solver_predict kind s (is_scaled sc) (qregion d sc) (Z.of_nat tl) g fl = Ok q ->
  exists test_region func, pr_test q = Some test_region /\ get_error_func et = Ok func /\
    t_x (pr_forecast q) = Z.to_nat (x2 g - x1 g) /\ t_y (pr_forecast q) = Z.to_nat (y2 g - y1 g) /\ t_len (pr_forecast q) = tl /\
    forall pt medoid ms own, in_grid (Z.to_nat (x2 g - x1 g)) (Z.to_nat (y2 g - y1 g)) pt ->
      represents p medoids (in_domain g pt) medoid ->
      series3 d (fst medoid) (snd medoid) = Ok ms ->
      series3 d (fst (in_domain g pt)) (snd (in_domain g pt)) = Ok own ->
      exists model forecast f o t e,
        training_function kind mp (firstn (length ms - tl) ms) = Ok model /\
        forecast_by kind model tl = Ok forecast /\
        shown sc (in_domain g pt) forecast f /\ series_at (pr_forecast q) pt = Ok f /\
        shown sc (in_domain g pt) (skipn (length own - tl) own) o /\ series_at test_region pt = Ok o /\
        shown sc (in_domain g pt) (firstn (length own - tl) own) t /\
        func f o (Some t) = Ok e /\ value_at (pr_errors q) pt = Ok e.
Proof.
  intros P M kind mp cluster d sc tl et s p medoids g fl q Hfit Hq Htl Hg Hfl Hcl Hv Hmed Ht Hpr.
  destruct (solver_train_spec kind mp _ cluster d sc tl et s p medoids _ Hfit Hq Htl Hcl Hv Hmed (default_refits kind mp d sc tl medoids Hq) Ht)
    as (_ & _ & Hm1 & Tr1 & _ & _ & e & func & Ee & We & Xe & Ye & Ef & Herr).
  destruct (predict_in kind s d sc tl fl g q e Hfit Hq Htl Hg Hfl Hm1 Ee We Xe Ye Hpr)
    as (m & tst & E1 & E2 & E3 & W & T & X & Y & _ & _ & _ & S).
  exists tst, func. rewrite E1. unfold t_x, t_y, t_len. cbn [t_data]. do 5 (split; [ assumption | ]).
  intros pt med ms own Hp Hr Ems Eown. pose proof (in_domain_grid _ _ _ _ Hg Hp) as Hd.
  destruct (S pt own Hp Eown) as ((f & f' & A1 & A2 & A3) & (o & B1 & B2) & C1).
  destruct (Herr _ own Hd Eown) as (g0 & g' & t & o' & v & D1 & D2 & D3 & D4 & D5 & D6).
  assert (Hfun : forall s t1 t2, shown sc (in_domain g pt) s t1 -> shown sc (in_domain g pt) s t2 -> t1 = t2).
  { intros s0 t1 t2. destruct sc as [ [ mn mx ] | ]; cbn [shown]; [ | congruence ].
    intros (a & b & Ha & Hb & ->) (a' & b' & Ha' & Hb' & ->). replace a' with a by congruence. replace b' with b by congruence. reflexivity. }
  assert (g0 = f) by congruence. subst g0. assert (g' = f') by eauto. subst g'. assert (o' = o) by eauto. subst o'.
  exists (model_at (so_training s) (in_domain g pt)), f, f', o, t, v.
  split; [ eapply Tr1; eauto | ]. do 7 (split; [ assumption | ]). rewrite C1. exact D6.
Qed.
Print Assumptions C58_in_sample.

(** C58, out-of-sample queries (forecast_len > 0), for the trainers that keep the default refitter: the forecast has
    forecast_len samples and is made by the model trained on the whole series of the medoid. *)
Theorem C58_out_of_sample : forall {P M} (kind : model_kind P M) mp cluster d sc tl et s p medoids g fl q,
  forecasts_fit kind -> qwf d sc -> tl <= a3t d -> rect_in g (a3x d) (a3y d) -> (0 < fl)%Z ->
  cluster (qregion d sc) = Ok (p, medoids) -> valid_partition p (a3x d) (a3y d) -> medoids_of p (a3x d) (a3y d) medoids ->
  solver_train kind (full2 (a3x d) (a3y d) (Some mp)) (default_refitter kind (full2 (a3x d) (a3y d) (Some mp)))
    cluster (qregion d sc) (Z.of_nat tl) et = Ok s ->
  solver_predict kind s (is_scaled sc) (qregion d sc) (Z.of_nat tl) g fl = Ok q ->
  pr_test q = None /\
  t_x (pr_forecast q) = Z.to_nat (x2 g - x1 g) /\ t_y (pr_forecast q) = Z.to_nat (y2 g - y1 g) /\ t_len (pr_forecast q) = Z.to_nat fl /\
  forall pt medoid ms, in_grid (Z.to_nat (x2 g - x1 g)) (Z.to_nat (y2 g - y1 g)) pt ->
    represents p medoids (in_domain g pt) medoid -> series3 d (fst medoid) (snd medoid) = Ok ms ->
    exists model forecast f, training_function kind mp ms = Ok model /\ forecast_by kind model (Z.to_nat fl) = Ok forecast /\
      shown sc (in_domain g pt) forecast f /\ series_at (pr_forecast q) pt = Ok f.
Proof.
  intros P M kind mp cluster d sc tl et s p medoids g fl q Hfit Hq Htl Hg Hfl Hcl Hv Hmed Ht Hpr.
  destruct (solver_train_spec kind mp _ cluster d sc tl et s p medoids _ Hfit Hq Htl Hcl Hv Hmed (default_refits kind mp d sc tl medoids Hq) Ht)
    as (_ & _ & _ & _ & Hm2 & Tr2 & e & func & Ee & We & Xe & Ye & Ef & Herr).
  destruct (predict_out kind s d sc tl fl g q e Hfit Hq Htl Hg Hfl Hm2 Ee We Xe Ye Hpr) as (m & E1 & E2 & E3 & W & T & X & Y & S).
  split; [ exact E2 | ]. rewrite E1. unfold t_x, t_y, t_len. cbn [t_data]. do 3 (split; [ assumption | ]).
  intros pt med ms Hp Hr Ems. pose proof (in_domain_grid _ _ _ _ Hg Hp) as Hd. destruct (S pt Hp) as ((f & f' & A1 & A2 & A3) & _).
  exists (model_at (so_whole s) (in_domain g pt)), f, f'. split; [ eapply Tr2; eauto | auto ].
Qed.
Print Assumptions C58_out_of_sample.

(** C58 for the auto-ARIMA trainer: the order is searched on the series without its last test_len samples, and the
    out-of-sample model is fitted with that same order on the whole series of the medoid; there is no model (so the
    forecast is NaN) if the search or one of the two fits fails with ValueError or LinAlgError.  [fit], [search] and
    [predict] stand for statsmodels and pmdarima; a fitted model remembers its order, which is never negative. *)
Theorem C58_auto_arima : forall {A M} (fit : pdq -> list fnum -> res M) (order_of : M -> pdq) (predict : M -> nat -> res (list fnum))
    (search : A -> list fnum -> res pdq) mp cluster d sc tl et s p medoids g fl q,
  (forall m len f, predict m len = Ok f -> length f = len) ->
  (forall order series m, fit order series = Ok m -> order_of m = order) ->
  (forall params series order, search params series = Ok order -> order <> ORDER_WHEN_NO_MODEL) ->
  qwf d sc -> tl <= a3t d -> rect_in g (a3x d) (a3y d) -> (0 < fl)%Z ->
  cluster (qregion d sc) = Ok (p, medoids) -> valid_partition p (a3x d) (a3y d) -> medoids_of p (a3x d) (a3y d) medoids ->
  solver_train (auto_arima_kind fit predict search) (full2 (a3x d) (a3y d) (Some mp)) (arima_refitter fit order_of predict)
    cluster (qregion d sc) (Z.of_nat tl) et = Ok s ->
  solver_predict (auto_arima_kind fit predict search) s (is_scaled sc) (qregion d sc) (Z.of_nat tl) g fl = Ok q ->
  forall pt medoid ms, in_grid (Z.to_nat (x2 g - x1 g)) (Z.to_nat (y2 g - y1 g)) pt ->
    represents p medoids (in_domain g pt) medoid -> series3 d (fst medoid) (snd medoid) = Ok ms ->
    let start := firstn (length ms - tl) ms in
    (exists order m0 m forecast f,
       search mp start = Ok order /\ fit order start = Ok m0 /\ fit order ms = Ok m /\
       predict m (Z.to_nat fl) = Ok forecast /\ shown sc (in_domain g pt) forecast f /\ series_at (pr_forecast q) pt = Ok f) \/
    ((exists e, (search mp start = Raise e \/ exists order, search mp start = Ok order /\ (fit order start = Raise e \/ fit order ms = Raise e)) /\
                (e = ValueError \/ e = LinAlgError)) /\
     series_at (pr_forecast q) pt = Ok (repeat NaN (Z.to_nat fl))).
Proof.
  intros A M fit order_of predict search mp cluster d sc tl et s p medoids g fl q Hfit Hord Hneg Hq Htl Hg Hfl Hcl Hv Hmed Ht Hpr.
  set (kind := auto_arima_kind fit predict search) in *. assert (Hk : forecasts_fit kind) by exact Hfit.
  destruct (solver_train_spec kind mp _ cluster d sc tl et s p medoids _ Hk Hq Htl Hcl Hv Hmed (arima_refits fit order_of predict search mp d sc tl medoids Hq) Ht)
    as (_ & _ & _ & _ & Hm2 & Tr2 & e & func & Ee & We & Xe & Ye & Ef & Herr).
  destruct (predict_out kind s d sc tl fl g q e Hk Hq Htl Hg Hfl Hm2 Ee We Xe Ye Hpr) as (m & E1 & E2 & E3 & W & T & X & Y & S).
  intros pt med ms Hp Hr Ems start. pose proof (in_domain_grid _ _ _ _ Hg Hp) as Hd. destruct (S pt Hp) as ((f & f' & A1 & A2 & A3) & _).
  rewrite E1. cbn [series_at]. destruct (Tr2 _ _ _ Hd Hr Ems) as (m0 & B1 & B2). fold start in B1.
  assert (Hnone : model_at (so_whole s) (in_domain g pt) = None -> series3 m (fst pt) (snd pt) = Ok (repeat NaN (Z.to_nat fl))).
  { intros E. rewrite E in A1. cbn [forecast_by] in A1. injection A1 as <-. apply shown_nan in A2. congruence. }
  assert (Hnm : forall (r : res M) x, no_model_on_failure r = Ok x ->
            (exists v, r = Ok v /\ x = Some v) \/ (exists e, r = Raise e /\ (e = ValueError \/ e = LinAlgError) /\ x = None)).
  { intros [ v | x0 ] x H; cbn [no_model_on_failure] in H; [ left; eexists; split; [ reflexivity | congruence ] | right ].
    exists x0. destruct x0; try discriminate; injection H as <-; auto. }
  unfold auto_arima_training_function in B1.
  destruct (search mp start) as [ order | x ] eqn:Es; cbn [no_model_on_failure bind] in B1.
  - cbn [arima_training_function] in B1. destruct (Hnm _ _ B1) as [ (v & Ev & ->) | (x & Ex & Hx & ->) ].
    + rewrite (Hord _ _ _ Ev) in B2. replace (pdq_eqb order ORDER_WHEN_NO_MODEL) with false in B2.
      2:{ symmetry. apply not_true_is_false. intros E. apply pdq_eqb_eq in E. eapply Hneg; eauto. }
      destruct (Hnm _ _ B2) as [ (v2 & Ev2 & E) | (x & Ex & Hx & E) ].
      * left. rewrite E in A1. exists order, v, v2, f, f'. auto 10.
      * right. split; [ | auto ]. exists x. split; [ right; exists order; auto | exact Hx ].
    + right. split; [ | auto ]. exists x. split; [ right; exists order; auto | exact Hx ].
  - right. destruct x; try discriminate; injection B1 as <-; (split; [ | auto ]); eexists; split; eauto.
Qed.
Print Assumptions C58_auto_arima.

(** C58, training of one series: a search or a fit that fails with ValueError or LinAlgError leaves no model instead of
    stopping the program; any other failure is passed on; and a fit is asked for the order that was found, on the same series. *)
Theorem C58_fit_failures : forall {A M} (fit : pdq -> list fnum -> res M) (predict : M -> nat -> res (list fnum)) (search : A -> list fnum -> res pdq) mp series,
  let model := training_function (auto_arima_kind fit predict search) mp series in
  (forall e, search mp series = Raise e -> (e = ValueError \/ e = LinAlgError) -> model = Ok None) /\
  (forall order e, search mp series = Ok order -> fit order series = Raise e -> (e = ValueError \/ e = LinAlgError) -> model = Ok None) /\
  (forall order m, search mp series = Ok order -> fit order series = Ok m -> model = Ok (Some m)) /\
  (forall e, e <> ValueError -> e <> LinAlgError ->
     (search mp series = Raise e \/ exists order, search mp series = Ok order /\ fit order series = Raise e) -> model = Raise e) /\
  (forall order, training_function (arima_kind fit predict) (Some order) series =
     match fit order series with Ok m => Ok (Some m) | Raise ValueError | Raise LinAlgError => Ok None | Raise e => Raise e end).
Proof.
  intros A M fit predict search mp series model. unfold model. cbn [training_function auto_arima_kind arima_kind]. unfold auto_arima_training_function. repeat split.
  - intros e -> [ -> | -> ]; reflexivity.
  - intros order e -> E [ -> | -> ]; cbn [no_model_on_failure bind arima_training_function]; rewrite E; reflexivity.
  - intros order m -> E. cbn [no_model_on_failure bind arima_training_function]. rewrite E. reflexivity.
  - intros e N1 N2 [ -> | (order & -> & E) ].
    + destruct e; try congruence; reflexivity.
    + cbn [no_model_on_failure bind arima_training_function]. rewrite E. destruct e; try congruence; reflexivity.
Qed.
Print Assumptions C58_fit_failures.

(** C58: a model that could not be trained gives NaN at every point of the cluster *)
Theorem C58_no_model_is_nan : forall {P M} (kind : model_kind P M) mp cluster d sc tl et s p medoids g fl q pt medoid ms,
  forecasts_fit kind -> qwf d sc -> tl <= a3t d -> rect_in g (a3x d) (a3y d) ->
  cluster (qregion d sc) = Ok (p, medoids) -> valid_partition p (a3x d) (a3y d) -> medoids_of p (a3x d) (a3y d) medoids ->
  solver_train kind (full2 (a3x d) (a3y d) (Some mp)) (default_refitter kind (full2 (a3x d) (a3y d) (Some mp)))
    cluster (qregion d sc) (Z.of_nat tl) et = Ok s ->
  solver_predict kind s (is_scaled sc) (qregion d sc) (Z.of_nat tl) g fl = Ok q ->
  in_grid (Z.to_nat (x2 g - x1 g)) (Z.to_nat (y2 g - y1 g)) pt -> represents p medoids (in_domain g pt) medoid ->
  series3 d (fst medoid) (snd medoid) = Ok ms ->
  training_function kind mp (if (0 <? fl)%Z then ms else firstn (length ms - tl) ms) = Ok None ->
  series_at (pr_forecast q) pt = Ok (repeat NaN (if (0 <? fl)%Z then Z.to_nat fl else tl)).
Proof.
  intros P M kind mp cluster d sc tl et s p medoids g fl q pt medoid ms Hfit Hq Htl Hg Hcl Hv Hmed Ht Hpr Hp Hr Ems Hnone.
  destruct (0 <? fl)%Z eqn:Efl.
  - destruct (C58_out_of_sample kind mp cluster d sc tl et s p medoids g fl q Hfit Hq Htl Hg ltac:(lia) Hcl Hv Hmed Ht Hpr) as (_ & _ & _ & _ & S).
    destruct (S pt medoid ms Hp Hr Ems) as (m & f & f' & E1 & E2 & E3 & E4). rewrite Hnone in E1. injection E1 as <-.
    cbn [forecast_by] in E2. injection E2 as <-. apply shown_nan in E3. congruence.
  - destruct (C58_in_sample kind mp cluster d sc tl et s p medoids g fl q Hfit Hq Htl Hg ltac:(lia) Hcl Hv Hmed Ht Hpr) as (tst & func & _ & _ & _ & _ & _ & S).
    pose proof (in_domain_grid _ _ _ _ Hg Hp) as Hd. destruct (ser_ok d (in_domain g pt) (proj1 Hq) Hd) as (own & Eo & _).
    destruct (S pt medoid ms own Hp Hr Ems Eo) as (m & f & f' & o & t & e & E1 & E2 & E3 & E4 & _). rewrite Hnone in E1. injection E1 as <-.
    cbn [forecast_by] in E2. injection E2 as <-. apply shown_nan in E3. congruence.
Qed.
Print Assumptions C58_no_model_is_nan.

(** C58: every point has a medoid, so the theorems above say something about every point *)
Theorem C58_every_point_represented : forall p x y medoids pt, valid_partition p x y -> medoids_of p x y medoids -> in_grid x y pt ->
  exists medoid, represents p medoids pt medoid /\ forall medoid', represents p medoids pt medoid' -> medoid' = medoid.
Proof.
  intros p x y medoids pt Hv Hm Hg. destruct (represented p x y medoids pt Hv Hm Hg) as [ med Hr ]. exists med. split; [ exact Hr | ].
  intros med' (c' & L' & _ & N'). destruct Hr as (c & L & _ & N). unfold label_at in *. congruence.
Qed.
Print Assumptions C58_every_point_represented.

(** C58: training and predicting succeed, for every region, partition with medoids, test length, prediction region and
    forecast length, if training and forecasting do and the error function accepts series of the lengths at hand; MSE
    always does. *)
Theorem C58_succeeds : forall {P M} (kind : model_kind P M) mp cluster d sc tl et func p medoids,
  forecasts_fit kind -> (forall m len, exists f, forecast_from_model kind m len = Ok f) ->
  (forall series, exists m, training_function kind mp series = Ok m) ->
  qwf d sc -> tl <= a3t d ->
  cluster (qregion d sc) = Ok (p, medoids) -> valid_partition p (a3x d) (a3y d) -> medoids_of p (a3x d) (a3y d) medoids ->
  get_error_func et = Ok func ->
  (et = "MSE"%string \/
   forall f o t, length f = tl -> length o = tl -> length t = a3t d - tl -> exists v, func f o (Some t) = Ok v) ->
  exists s, solver_train kind (full2 (a3x d) (a3y d) (Some mp)) (default_refitter kind (full2 (a3x d) (a3y d) (Some mp)))
              cluster (qregion d sc) (Z.of_nat tl) et = Ok s /\
    forall g fl, rect_in g (a3x d) (a3y d) -> exists q, solver_predict kind s (is_scaled sc) (qregion d sc) (Z.of_nat tl) g fl = Ok q.
Proof.
  intros P M kind mp cluster d sc tl et func p medoids Hfit Hfc Htr Hq Htl Hcl Hv Hmed Ef Hfunc.
  assert (Hfunc' : forall f o t, length f = tl -> length o = tl -> length t = a3t d - tl -> exists v, func f o (Some t) = Ok v).
  { destruct Hfunc as [ -> | H ]; [ | exact H ]. cbn in Ef. injection Ef as <-. intros. eapply mse_total; eauto. }
  destruct (solver_train_ok kind Hfit Hfc mp cluster d sc tl et func p medoids Htr Hq Htl Hcl Hv Hmed Ef Hfunc') as [ s Hs ].
  exists s. split; [ exact Hs | ]. intros g fl Hg.
  destruct (solver_train_spec kind mp _ cluster d sc tl et s p medoids _ Hfit Hq Htl Hcl Hv Hmed (default_refits kind mp d sc tl medoids Hq) Hs)
    as (_ & _ & Hm1 & _ & Hm2 & _ & e & fn & Ee & We & Xe & Ye & _).
  eapply predict_ok; eauto.
Qed.
Print Assumptions C58_succeeds.

(** C58, failures: a medoid that is not in its own cluster, an error type that does not exist *)
Theorem C58_foreign_medoid : forall {P M} (kind : model_kind P M) mp refit cluster d sc tl et p medoids,
  (forall ms, exists m, training_function kind mp ms = Ok m) ->
  qwf d sc -> tl <= a3t d -> cluster (qregion d sc) = Ok (p, medoids) ->
  valid_partition p (a3x d) (a3y d) -> length medoids = Z.to_nat (pk p) -> Forall (in_grid (a3x d) (a3y d)) medoids ->
  (exists i m, nth_error medoids i = Some m /\ ~ label_at p m (Z.of_nat i)) ->
  solver_train kind (full2 (a3x d) (a3y d) (Some mp)) refit cluster (qregion d sc) (Z.of_nat tl) et = Raise ValueError.
Proof. intros. eapply train_foreign_medoid; eauto. Qed.
Print Assumptions C58_foreign_medoid.

(* ---------- a concrete solver ---------- *)
Definition ex_d : arr3 fnum := mk3 4 1 2 (map (fun z => Fin (inject_Z z)) [1; 10; 3; 20; 5; 30; 7; 40]%Z).
Definition ex_sc : option (arr2 fnum * arr2 fnum) :=
  Some (mk2 1 2 [Fin 0; Fin 100], mk2 1 2 [Fin 10; Fin 300]).
Definition ex_p : crisp := Crisp (mk2 1 2 [0; 0]%Z) 1.
Definition ex_cluster (r : stregion fnum) : res (crisp * list point) := Ok (ex_p, [(0, 0)%Z]).
Example C58_example_hypotheses : forecasts_fit mean_kind /\ qwf ex_d ex_sc /\ qwf ex_d None /\ valid_partition ex_p 1 2 /\ medoids_of ex_p 1 2 [(0, 0)%Z].
Proof.
  split; [ intros m len f [= <-]; apply repeat_length | ]. split; [ repeat split; reflexivity | ]. split; [ repeat split; reflexivity | ].
  split.
  - unfold valid_partition, ex_p. cbn. split; [ reflexivity | split; [ reflexivity | split; [ reflexivity | split ] ] ].
    + intros pt l [ H1 H2 ] H. cbn [fst snd] in *. assert (fst pt = 0%Z) by lia. assert (snd pt = 0 \/ snd pt = 1)%Z as D by lia.
      unfold label_at in H. destruct pt as [ a b ]. cbn [fst snd] in *. subst a. destruct D as [ -> | -> ]; cbn in H; injection H as <-; lia.
    + exists (0, 0)%Z. split; [ split; cbn; lia | reflexivity ].
  - split; [ reflexivity | ]. intros [ | [ | i ] ] m E; cbn in E; try discriminate. injection E as <-. split; [ split; cbn; lia | reflexivity ].
Qed.
(** the mean of the first two samples of the medoid (1 and 3), shown with the scaling of the second point *)
Definition ex_run (sc : option (arr2 fnum * arr2 fnum)) (fl : Z) : res (list fnum * fnum) :=
  s <- solver_train mean_kind (full2 1 2 (Some 2%Z)) (default_refitter mean_kind (full2 1 2 (Some 2%Z))) ex_cluster (qregion ex_d sc) 2 "MSE" ;;
  q <- solver_predict mean_kind s (is_scaled sc) (qregion ex_d sc) 2 (Rect 0 1 1 2) fl ;;
  f <- series_at (pr_forecast q) (0, 0)%Z ;;
  e <- value_at (pr_errors q) (0, 0)%Z ;;
  Ok (f, e).
Example C58_example_scaled_in_sample : ex_run ex_sc 0 = Ok ([Fin (1000 # 2); Fin (1000 # 2)], Fin (1425920000 # 32)).
Proof. vm_compute. reflexivity. Qed.
Example C58_example_scaled_out_of_sample : ex_run ex_sc 3 = Ok ([Fin (2600 # 2); Fin (2600 # 2); Fin (2600 # 2)], Fin (1425920000 # 32)).
Proof. vm_compute. reflexivity. Qed.
Example C58_example_unscaled : ex_run None 0 = Ok ([Fin (4 # 2); Fin (4 # 2)], Fin (35648 # 32)) /\
  ex_run None 3 = Ok ([Fin (12 # 2); Fin (12 # 2); Fin (12 # 2)], Fin (35648 # 32)).
Proof. vm_compute. split; reflexivity. Qed.

(** an ARIMA in the sense of the theorem: the order is the length of the series searched, the forecast repeats the
    last sample, and fitting an empty series fails *)
Definition ex_fit (order : pdq) (s : list fnum) : res (pdq * list fnum) := match s with [] => Raise ValueError | _ => Ok (order, s) end.
Definition ex_forecast (m : pdq * list fnum) (len : nat) : res (list fnum) := Ok (repeat (last (snd m) NaN) len).
Definition ex_search (max_p : Z) (s : list fnum) : res pdq := Ok (Z.of_nat (length s), 0, 0)%Z.
Example C58_example_arima_hypotheses :
  (forall m len f, ex_forecast m len = Ok f -> length f = len) /\
  (forall order series m, ex_fit order series = Ok m -> fst m = order) /\
  (forall params series order, ex_search params series = Ok order -> order <> ORDER_WHEN_NO_MODEL).
Proof.
  split; [ | split ].
  - intros m len f [= <-]. apply repeat_length.
  - intros order [ | v l ] m H; cbn in H; [ discriminate | injection H as <-; reflexivity ].
  - intros params series order [= <-] H. unfold ORDER_WHEN_NO_MODEL in H. injection H as H. lia.
Qed.
Definition ex_arima (tl fl : Z) : res (list pdq * list fnum) :=
  s <- solver_train (auto_arima_kind ex_fit ex_forecast ex_search) (full2 1 2 (Some 0%Z)) (arima_refitter ex_fit fst ex_forecast) ex_cluster (qregion ex_d None) tl "MSE" ;;
  q <- solver_predict (auto_arima_kind ex_fit ex_forecast ex_search) s false (qregion ex_d None) tl (Rect 0 1 1 2) fl ;;
  f <- series_at (pr_forecast q) (0, 0)%Z ;;
  Ok (map (extract_pdq fst) (a2d (so_training s) ++ a2d (so_whole s)), f).
(** the order found on 3 samples is used to fit the 4 samples; the last sample of the medoid is 7 *)
Example C58_example_arima : ex_arima 1 2 = Ok ([(3, 0, 0); (3, 0, 0); (3, 0, 0); (3, 0, 0)]%Z, [Fin 7; Fin 7]).
Proof. vm_compute. reflexivity. Qed.
(** nothing left to train with: no model, also out of sample, although the whole series could be fitted *)
Example C58_example_arima_fails : ex_arima 4 2 = Ok (repeat ORDER_WHEN_NO_MODEL 4, [NaN; NaN]).
Proof. vm_compute. reflexivity. Qed.
Example C58_example_foreign_medoid :
  solver_train mean_kind (full2 1 2 (Some 2%Z)) (default_refitter mean_kind (full2 1 2 (Some 2%Z)))
    (fun _ => Ok (Crisp (mk2 1 2 [0; 1]%Z) 2, [(0, 1); (0, 0)]%Z)) (qregion ex_d None) 2 "MSE" = Raise ValueError.
Proof. vm_compute. reflexivity. Qed.
