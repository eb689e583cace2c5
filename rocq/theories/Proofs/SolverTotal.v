(** When training and prediction succeed. *)
From Coq Require Import String Lia.
From Verif Require Import Base.Py Base.PyFacts Base.Arr Base.ArrFacts Base.Float Model.Region Model.Scaling Model.Series Model.Errors Model.Models
  Model.Solver Spec.Grid Spec.Rect Spec.Partition Spec.Regions Spec.Solver Proofs.RegionFacts Proofs.PartitionFacts Proofs.ProperFacts
  Proofs.SubsetFacts Proofs.ScalingFacts Proofs.SeriesFacts Proofs.ModelFacts Proofs.SolverFacts.
From Coq Require Import ZifyBool ZifyNat.
Local Notation length := List.length.

Section Total.
Context {P M : Type} (kind : model_kind P M).
Hypothesis Hfit : forecasts_fit kind.
Hypothesis Hfc : forall m len, exists f, forecast_from_model kind m len = Ok f.

Lemma forecast_by_ok : forall m len, exists f, forecast_by kind m len = Ok f /\ length f = len.
Proof.
  intros m len. assert (exists f, forecast_by kind m len = Ok f) as [ f E ] by (destruct m; cbn [forecast_by]; eauto).
  exists f. split; [ exact E | ]. eapply forecast_by_length; eauto.
Qed.

Lemma calculate_errors_ok : forall models mo d1 d2 sc et func,
  qwf d1 sc -> qwf d2 sc -> a3x d1 = a3x d2 -> a3y d1 = a3y d2 ->
  holds_models models (a3x d2) (a3y d2) mo -> get_error_func et = Ok func ->
  (forall f o t, length f = a3t d2 -> length o = a3t d2 -> length t = a3t d1 -> exists v, func f o (Some t) = Ok v) ->
  exists e, calculate_errors kind models (qregion d1 sc) (qregion d2 sc) et = Ok e.
Proof.
  intros models mo d1 d2 sc et func Hq1 Hq2 X Y (Wm & Xm & Ym & Hm) Ef Hfunc. unfold calculate_errors. rewrite q_len, Ef.
  pose proof (q_proper _ _ Hq2) as Hp2.
  set (g := fun (pt : point) (_ : list fnum) => match forecast_by kind (mo pt) (a3t d2) with Ok f => f | Raise _ => [] end).
  destruct (t_apply_series_spec (Fin 0) (model_function kind models (a3t d2)) (qregion d2 sc) g (a3t d2)) as (m & EF' & W & T & Xf & Yf & S).
  { apply proper_twf, Hp2. } { apply proper_consistent, Hp2. }
  { cbn [model_function f_x]. rewrite q_x. exact Xm. } { cbn [model_function f_y]. rewrite q_y. exact Ym. }
  { intros pt Hg _. rewrite q_x, q_y in Hg. cbn [model_function f_at]. rewrite (Hm pt Hg). cbn [bind]. eexists. split; [ reflexivity | ].
    rewrite forecast_cell. unfold g. destruct (forecast_by_ok (mo pt) (a3t d2)) as (f & Hf & Lf). rewrite Hf. auto. }
  rewrite q_x in Xf, S. rewrite q_y in Yf, S. rewrite EF', q_new_st. cbn [bind].
  assert (Hqm : qwf m sc) by (eapply q_again; eauto).
  destruct (q_descale _ _ Hqm) as (R & mm & ER & -> & Wmm & Tmm & Xmm & Ymm & Smm).
  destruct (q_descale _ _ Hq1) as (R1 & m1 & ER1 & -> & W1 & T1 & X1 & Y1 & S1).
  destruct (q_descale _ _ Hq2) as (R2 & m2 & ER2 & -> & W2 & T2 & X2 & Y2 & S2).
  assert (Eme : mk_measure_error func (qregion d2 sc) (Some (qregion d1 sc)) = Ok (MeasureError func (TPlain m2) (Some (TPlain m1)) (a3x d2) (a3y d2))).
  { unfold mk_measure_error. rewrite q_x, q_y. rewrite !q_scaling in *. destruct sc as [ [ ? ? ] | ].
    - rewrite ER2. cbn [bind]. rewrite ER1. reflexivity.
    - cbn [qregion] in *. congruence. }
  rewrite Eme. cbn [bind]. unfold measure_apply_to. rewrite ER. cbn [bind].
  assert (Hpm : proper_st (TPlain mm)) by (constructor; exact Wmm).
  destruct (apply_cases (Fin 0) (measure_function (MeasureError func (TPlain m2) (Some (TPlain m1)) (a3x d2) (a3y d2))) _ _ Hpm (proper_items _ Hpm))
    as [ (e & Ee & _) | (pt & f & x & Hin & Hx & _) ].
  { unfold t_x. cbn [measure_function f_x me_x t_data]. congruence. } { unfold t_y. cbn [measure_function f_y me_y t_data]. congruence. }
  - eauto.
  - exfalso. apply (in_items _ _ _ _ Hpm (proper_items _ Hpm)) in Hin. destruct Hin as (Hg & _ & ->).
    unfold t_x, t_y in Hg. cbn [t_data] in Hg. rewrite Xmm, Ymm, Xf, Yf in Hg.
    cbn [measure_function f_at me_obs me_train series_at] in Hx.
    destruct (ser_ok m2 pt W2) as (o & Eo & Lo); [ rewrite X2, Y2; exact Hg | ].
    destruct (ser_ok m1 pt W1) as (t & Et & Lt); [ rewrite X1, Y1, X, Y; exact Hg | ].
    destruct (ser_ok mm pt Wmm) as (f & Ef' & Lf); [ rewrite Xmm, Ymm, Xf, Yf; exact Hg | ].
    rewrite Eo, Et in Hx. cbn [bind me_func] in Hx. pose proof (q_ser mm None pt f Ef') as Q. cbn [qregion] in Q. rewrite Q in Hx.
    destruct (Hfunc f o t) as [ v Ev ]; [ lia | lia | lia | ]. congruence.
Qed.

Lemma model_apply_ok : forall models mo x y (e : arr2 fnum) g len,
  holds_models models x y mo -> wf2 e -> a2x e = x -> a2y e = y -> rect_in g x y ->
  exists F, model_apply_to kind (slice2 models (x1 g) (x2 g) (y1 g) (y2 g)) (SPlain (slice2 e (x1 g) (x2 g) (y1 g) (y2 g))) len = Ok (TPlain F) /\
    wf3 F /\ a3t F = len /\ a3x F = Z.to_nat (x2 g - x1 g) /\ a3y F = Z.to_nat (y2 g - y1 g).
Proof.
  intros models mo x y e g len (Wm & Xm & Ym & Hm) We Xe Ye Hg. unfold model_apply_to.
  destruct (slice2_shape' models g) as [ XM YM ]; [ rewrite Xm, Ym; exact Hg | ].
  destruct (slice2_shape' e g) as [ XE YE ]; [ rewrite Xe, Ye; exact Hg | ].
  set (gg := fun (pt : point) (_ : fnum) => match forecast_by kind (mo (in_domain g pt)) len with Ok f => f | Raise _ => [] end).
  destruct (s_apply_series_spec (Fin 0) (model_function kind (slice2 models (x1 g) (x2 g) (y1 g) (y2 g)) len)
              (SPlain (slice2 e (x1 g) (x2 g) (y1 g) (y2 g))) gg len NaN) as (m & EF & W & T & Xf & Yf & S).
  { apply wf2_slice2, We. } { apply s_plain_consistent. }
  { cbn [model_function f_x]. unfold s_x. cbn [s_data]. lia. } { cbn [model_function f_y]. unfold s_y. cbn [s_data]. lia. }
  { unfold s_x, s_y. cbn [s_data]. rewrite XE, YE. intros pt Hp _. cbn [model_function f_at].
    rewrite slice2_get by (auto; rewrite Xm, Ym; exact Hg). rewrite Hm by (eapply in_domain_grid; eauto). cbn [bind]. eexists. split; [ reflexivity | ].
    rewrite forecast_cell. unfold gg. destruct (forecast_by_ok (mo (in_domain g pt)) len) as (f & Hf & Lf). rewrite Hf. auto. }
  unfold s_x, s_y in *. cbn [s_data s_new_st] in *. exists m. repeat split; auto; congruence.
Qed.

Lemma predict_ok : forall s d sc tl fl g e,
  qwf d sc -> tl <= a3t d -> rect_in g (a3x d) (a3y d) ->
  holds_models (so_training s) (a3x d) (a3y d) (model_at (so_training s)) ->
  holds_models (so_whole s) (a3x d) (a3y d) (model_at (so_whole s)) ->
  so_errors s = SPlain e -> wf2 e -> a2x e = a3x d -> a2y e = a3y d ->
  exists q, solver_predict kind s (match sc with None => false | Some _ => true end) (qregion d sc) (Z.of_nat tl) g fl = Ok q.
Proof.
  intros s d sc tl fl g e Hq Htl Hg Hm Hw Ee We Xe Ye. unfold solver_predict, prepare_for_predictions.
  destruct (q_split d sc tl Hq Htl) as (d1 & d2 & Es & Hq1 & Hq2 & T1 & T2 & X1 & Y1 & X2 & Y2 & Ss). rewrite Es.
  destruct (q_descale d2 sc Hq2) as (R2 & m2 & ER2 & -> & W2 & T2' & X2' & Y2' & S2). rewrite ER2, Ee. cbn [bind s_region_subset].
  assert (Htest : exists t, (if (0 <? fl)%Z then Ok None else t <- t_region_subset (TPlain m2) g;; Ok (Some t)) = Ok t).
  { destruct (0 <? fl)%Z; [ eauto | ]. cbn [t_region_subset bind]. eauto. }
  destruct Htest as [ t Et ]. rewrite Et. cbn [bind].
  assert (Hmodels : holds_models (if (0 <? fl)%Z then so_whole s else so_training s) (a3x d) (a3y d)
                      (model_at (if (0 <? fl)%Z then so_whole s else so_training s))) by (destruct (0 <? fl)%Z; assumption).
  replace ((if (0 <? fl)%Z then fl else Z.of_nat tl) <? 0)%Z with false by (destruct (0 <? fl)%Z eqn:E; lia).
  destruct (model_apply_ok _ _ _ _ e g (Z.to_nat (if (0 <? fl)%Z then fl else Z.of_nat tl)) Hmodels We Xe Ye Hg) as (F & EF & WF & TF & XF & YF).
  rewrite EF. cbn [bind]. destruct sc as [ [ mn mx ] | ]; [ | cbn [bind]; eauto ].
  destruct (q_subset d _ g Hq Hg) as (dm & Esub & Hqs & _ & XS & YS & _). rewrite Esub. cbn [bind qregion slice_sc] in *.
  assert (HqF : qwf F (Some (slice2 mn (x1 g) (x2 g) (y1 g) (y2 g), slice2 mx (x1 g) (x2 g) (y1 g) (y2 g)))) by (eapply q_again; eauto; congruence).
  destruct (q_descale_scaled _ _ _ HqF) as (mm & EM & _). cbn [qregion] in EM. rewrite EM. cbn [bind]. eauto.
Qed.

Lemma solver_train_ok : forall mp cluster d sc tl et func p medoids,
  (forall ms, exists m, training_function kind mp ms = Ok m) ->
  qwf d sc -> tl <= a3t d -> cluster (qregion d sc) = Ok (p, medoids) ->
  valid_partition p (a3x d) (a3y d) -> medoids_of p (a3x d) (a3y d) medoids ->
  get_error_func et = Ok func ->
  (forall f o t, length f = tl -> length o = tl -> length t = a3t d - tl -> exists v, func f o (Some t) = Ok v) ->
  exists s, solver_train kind (full2 (a3x d) (a3y d) (Some mp)) (default_refitter kind (full2 (a3x d) (a3y d) (Some mp)))
              cluster (qregion d sc) (Z.of_nat tl) et = Ok s.
Proof.
  intros mp cluster d sc tl et func p medoids Htr Hq Htl Hcl Hv Hmed Ef Hfunc.
  destruct (q_split d sc tl Hq Htl) as (d1 & d2 & Es & Hq1 & Hq2 & T1 & T2 & X1 & Y1 & X2 & Y2 & Ss).
  unfold solver_train. rewrite Es, Hcl. cbn [bind].
  pose proof (q_proper _ _ Hq1) as Hp1. pose proof (q_proper _ _ Hq) as Hp.
  destruct (train_at_reps_ok kind (full2 (a3x d) (a3y d) (Some mp)) medoids (qregion d1 sc) _ Hp1 (proper_items _ Hp1)) as (models & n & Et).
  { rewrite q_x. cbn [full2 a2x]. congruence. } { rewrite q_y. cbn [full2 a2y]. congruence. }
  { intros pt s Hin _. apply (in_items _ _ _ _ Hp1 (proper_items _ Hp1)) in Hin. destruct Hin as (Hg & _ & ->).
    rewrite q_x, q_y, X1, Y1 in Hg. destruct (Htr (t_ser (qregion d1 sc) pt)) as [ m Em ]. exists mp, m. split; [ apply get_full; exact Hg | exact Em ]. }
  rewrite Et. cbn [bind fst]. rewrite <- X1, <- Y1 in Et. destruct (train_medoids_spec kind mp d1 sc medoids models n Hq1 Et) as (Wm & Xm & Ym & Sm).
  rewrite X1 in *. rewrite Y1 in *.
  destruct (replicate_ok models p _ _ medoids Hv Hmed Wm Xm Ym) as [ R ER ]. rewrite ER. cbn [bind].
  destruct (replicated_models models R p (a3x d) (a3y d) medoids (fun _ _ => True) Hv Hmed Wm Xm Ym) as [ HR _ ].
  { intros med G I. destruct (ser_ok d1 med (proj1 Hq1)) as (ms & E1 & _); [ rewrite X1, Y1; exact G | ].
    destruct (Sm med ms G I E1) as (m & _ & E3). eauto. }
  { exact ER. }
  destruct (calculate_errors_ok R _ d1 d2 sc et func Hq1 Hq2 ltac:(congruence) ltac:(congruence) ltac:(rewrite X2, Y2; exact HR) Ef) as [ E EE ].
  { rewrite T1, T2. exact Hfunc. }
  rewrite EE. cbn [bind]. unfold default_refitter, train.
  assert (Hw : exists w k, train_with (trainer_function kind (full2 (a3x d) (a3y d) (Some mp))) (qregion d sc) = Ok (w, k)).
  { unfold train_with. destruct (apply_cases Untouched (trainer_function kind (full2 (a3x d) (a3y d) (Some mp))) _ _ Hp (proper_items _ Hp)) as [ (m & Em & W & X & Y & _) | (pt & s & x & Hin & Hx & _) ].
    { rewrite q_x. reflexivity. } { rewrite q_y. reflexivity. }
    - rewrite Em. cbn [bind]. rewrite q_new_spatial. rewrite (proper_s_items NoModel) by (constructor; exact W). cbn [bind]. eauto.
    - exfalso. apply (in_items _ _ _ _ Hp (proper_items _ Hp)) in Hin. destruct Hin as (Hg & _ & ->). rewrite q_x, q_y in Hg.
      cbn [trainer_function f_at] in Hx. rewrite get_full in Hx by exact Hg. cbn [bind] in Hx.
      destruct (Htr (t_ser (qregion d sc) pt)) as [ m Em ]. rewrite Em in Hx. discriminate. }
  destruct Hw as (w & k & Ew). rewrite Ew. cbn [bind fst].
  destruct (train_all_spec kind _ d sc w k Hq Ew) as (Ww & Xw & Yw & _).
  destruct (replicate_ok w p _ _ medoids Hv Hmed Ww Xw Yw) as [ RW ERW ]. rewrite ERW. cbn [bind]. eauto.
Qed.
End Total.

Lemma mse_total : forall tl f o (t : option (list fnum)), length f = tl -> length o = tl -> exists v, mse f o t = Ok v.
Proof. intros tl f o t H1 H2. unfold mse, np_zip. rewrite H1, H2, Nat.eqb_refl. cbn [bind]. eauto. Qed.

(** a medoid outside its cluster *)
Lemma train_foreign_medoid : forall {P M} (kind : model_kind P M) mp refit cluster d sc tl et p medoids,
  (forall ms, exists m, training_function kind mp ms = Ok m) ->
  qwf d sc -> tl <= a3t d -> cluster (qregion d sc) = Ok (p, medoids) ->
  valid_partition p (a3x d) (a3y d) -> length medoids = Z.to_nat (pk p) -> Forall (in_grid (a3x d) (a3y d)) medoids ->
  (exists i m, nth_error medoids i = Some m /\ ~ label_at p m (Z.of_nat i)) ->
  solver_train kind (full2 (a3x d) (a3y d) (Some mp)) refit cluster (qregion d sc) (Z.of_nat tl) et = Raise ValueError.
Proof.
  intros P M kind mp refit cluster d sc tl et p medoids Htr Hq Htl Hcl Hv Hl Hin Hbad.
  destruct (q_split d sc tl Hq Htl) as (d1 & d2 & Es & Hq1 & Hq2 & T1 & T2 & X1 & Y1 & X2 & Y2 & Ss).
  unfold solver_train. rewrite Es, Hcl. cbn [bind]. pose proof (q_proper _ _ Hq1) as Hp1.
  destruct (train_at_reps_ok kind (full2 (a3x d) (a3y d) (Some mp)) medoids (qregion d1 sc) _ Hp1 (proper_items _ Hp1)) as (models & n & Et).
  { rewrite q_x. cbn [full2 a2x]. congruence. } { rewrite q_y. cbn [full2 a2y]. congruence. }
  { intros pt s Hi _. apply (in_items _ _ _ _ Hp1 (proper_items _ Hp1)) in Hi. destruct Hi as (Hg & _ & ->).
    rewrite q_x, q_y, X1, Y1 in Hg. destruct (Htr (t_ser (qregion d1 sc) pt)) as [ m Em ]. exists mp, m. split; [ apply get_full; exact Hg | exact Em ]. }
  rewrite Et. cbn [bind fst]. rewrite <- X1, <- Y1 in Et. destruct (train_medoids_spec kind mp d1 sc medoids models n Hq1 Et) as (Wm & Xm & Ym & Sm).
  destruct (merge_reps_nonmember NoModel p models (a3x d) (a3y d) medoids Hv Wm ltac:(congruence) ltac:(congruence) Hl Hin Hbad) as (cl & E1 & E2).
  unfold replicate_representative_models. rewrite E1. cbn [bind]. rewrite E2. reflexivity.
Qed.
