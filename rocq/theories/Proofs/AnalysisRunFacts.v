(** Facts about a complete error analysis of a region or of a cluster. *)
From Coq Require Import String Lia.
From Verif Require Import Base.Py Base.PyFacts Base.Arr Base.ArrFacts Base.Str Base.Float Base.FloatFacts Model.Region Model.Arrays Model.Scaling Model.Series Model.Errors Model.Models
  Model.Distance Model.Clustering Model.Solver Model.SolverFiles Model.Forecast Model.Results Model.Reports
  Spec.Grid Spec.Rect Spec.Partition Spec.Regions Spec.Extrema Spec.Distance Spec.Solver Spec.Reports Spec.TrainingErrors Proofs.RegionFacts Proofs.PartitionFacts Proofs.ProperFacts
  Proofs.SubsetFacts Proofs.ScalingFacts Proofs.SeriesFacts Proofs.DistanceFacts Proofs.DistanceObjFacts Proofs.ModelFacts Proofs.ForecastFacts Proofs.SolverFacts Proofs.ReportFacts Proofs.ArraysFacts.
From Coq Require Import ZifyBool ZifyNat.
Local Notation length := List.length.

(** the errors of a forecast region *)
Lemma region_errors : forall d1 d2 m sc pc et func workers (fo : point -> list fnum) (err : point -> fnum),
  qwf d1 sc -> qwf d2 sc -> wf3 m -> a3x d1 = a3x d2 -> a3y d1 = a3y d2 -> a3x m = a3x d2 -> a3y m = a3y d2 -> pc_ok pc (a3x d2) (a3y d2) ->
  get_error_func et = Ok func ->
  (forall pt, in_grid (a3x d2) (a3y d2) pt -> pc_memb pc pt = true -> series3 m (fst pt) (snd pt) = Ok (fo pt)) ->
  (forall pt s1 s2, in_grid (a3x d2) (a3y d2) pt -> pc_memb pc pt = true ->
     series3 d1 (fst pt) (snd pt) = Ok s1 -> series3 d2 (fst pt) (snd pt) = Ok s2 ->
     exists f' s1' s2', shown sc pt (fo pt) f' /\ shown sc pt s1 s1' /\ shown sc pt s2 s2' /\ func f' s2' (Some s1') = Ok (err pt)) ->
  exists E, with_forecast_region (ErrorAnalysis (creg d2 sc pc) (Some (creg d1 sc pc)) workers) (creg m sc pc) et = Ok E /\
    s_items E = Ok (map (fun pt => (pt, err pt)) (filter (pc_memb pc) (grid (a3x d2) (a3y d2)))) /\
    forall pt, in_grid (a3x d2) (a3y d2) pt -> pc_memb pc pt = true -> value_at E pt = Ok (err pt).
Proof.
  intros d1 d2 m sc pc et func workers fo err Hq1 Hq2 Wm X Y Xm Ym Hpc Ef Sm Herr.
  unfold with_forecast_region. cbn [ea_obs ea_train]. rewrite Ef. cbn [bind].
  assert (Hqm : qwf m sc) by (eapply q_again; eauto).
  destruct (c_descale m sc pc Hqm) as (mm & Emm & Hmm & _ & Xmm & Ymm & Smm).
  destruct (c_descale d1 sc pc Hq1) as (m1 & E1 & Hm1 & _ & X1 & Y1 & S1).
  destruct (c_descale d2 sc pc Hq2) as (m2 & E2 & Hm2 & _ & X2 & Y2 & S2).
  assert (Eme : mk_measure_error func (creg d2 sc pc) (Some (creg d1 sc pc)) =
    Ok (MeasureError func (creg m2 (sc_left sc pc) pc) (Some (creg m1 (sc_left sc pc) pc)) (a3x d2) (a3y d2))).
  { unfold mk_measure_error. rewrite c_x, c_y. rewrite !c_scaling in *. destruct sc as [ [ ? ? ] | ].
    - rewrite E2. cbn [bind]. rewrite E1. reflexivity.
    - congruence. }
  rewrite Eme. cbn [bind]. unfold measure_apply_to. rewrite Emm. cbn [bind].
  assert (Hpc' : forall a b, a = a3x d2 -> b = a3y d2 -> pc_ok pc a b) by (intros; subst; assumption).
  assert (Hp : proper_st (creg mm (sc_left sc pc) pc)) by (apply c_proper; [ assumption | apply Hpc'; congruence ]).
  destruct (t_apply_scalar_spec (Fin 0) (measure_function (MeasureError func (creg m2 (sc_left sc pc) pc) (Some (creg m1 (sc_left sc pc) pc)) (a3x d2) (a3y d2)))
              (creg mm (sc_left sc pc) pc) (fun pt _ => err pt)) as (e & Ee & We & Xe & Ye & Pe).
  { apply proper_twf, Hp. } { apply proper_consistent, Hp. }
  { cbn [measure_function f_x me_x]. rewrite c_x. congruence. } { cbn [measure_function f_y me_y]. rewrite c_y. congruence. }
  { intros pt Hg Hmb. rewrite c_x, c_y, Xmm, Ymm, Xm, Ym in Hg. rewrite c_memb in Hmb.
    destruct (ser_ok d1 pt (proj1 Hq1)) as (s1 & Es1 & _); [ rewrite X, Y; exact Hg | ].
    destruct (ser_ok d2 pt (proj1 Hq2) Hg) as (s2 & Es2 & _).
    destruct (Herr pt s1 s2 Hg Hmb Es1 Es2) as (f' & s1' & s2' & Hf & H1 & H2 & Hv).
    destruct (S1 pt s1) as (t1' & Et1 & Ht1 & _); [ rewrite X, Y; exact Hg | exact Es1 | ].
    destruct (S2 pt s2 Hg Es2) as (t2' & Et2 & Ht2 & _).
    destruct (Smm pt (fo pt)) as (tf & Etf & Htf & _); [ rewrite Xm, Ym; exact Hg | apply Sm; assumption | ].
    cbn [measure_function f_at me_obs me_train me_func].
    rewrite c_series_at by (try (apply Hpc'; congruence); rewrite ?X2, ?Y2; assumption). rewrite Et2. cbn [bind].
    rewrite c_series_at by (try (apply Hpc'; congruence); rewrite ?X1, ?Y1, ?X, ?Y; assumption). rewrite Et1. cbn [bind].
    eexists. split; [ reflexivity | ]. rewrite (c_ser mm _ _ pt tf Etf).
    rewrite (shown_unique _ _ _ _ _ Htf Hf), (shown_unique _ _ _ _ _ Ht1 H1), (shown_unique _ _ _ _ _ Ht2 H2). exact Hv. }
  exists (t_new_spatial (creg mm (sc_left sc pc) pc) e). split; [ exact Ee | ].
  rewrite c_x, c_y in *. rewrite Xmm, Ymm, Xm, Ym in *.
  destruct (proper_new_spatial (creg mm (sc_left sc pc) pc) e Hp We) as (Ps & Ds & Ms); [ rewrite c_x; congruence | rewrite c_y; congruence | ].
  set (E := t_new_spatial (creg mm (sc_left sc pc) pc) e) in *.
  assert (Sx : s_x E = a3x d2) by (unfold s_x; rewrite Ds; assumption). assert (Sy : s_y E = a3y d2) by (unfold s_y; rewrite Ds; assumption).
  assert (Vals : forall pt, in_grid (a3x d2) (a3y d2) pt -> pc_memb pc pt = true -> s_val E NaN pt = err pt).
  { intros pt Hg Hmb. pose proof (get2_s_val E NaN pt (proper_s_swf _ Ps)) as G. rewrite Sx, Sy in G. specialize (G Hg). rewrite Ds in G.
    rewrite (Pe pt Hg), c_memb, Hmb in G. congruence. }
  assert (Hi : s_items E = Ok (map (fun pt => (pt, err pt)) (filter (pc_memb pc) (grid (a3x d2) (a3y d2))))).
  { rewrite (proper_s_items NaN E Ps). rewrite Sx, Sy, Ms. f_equal.
    rewrite (filter_ext (t_memb (creg mm (sc_left sc pc) pc)) (pc_memb pc)) by (intros; apply c_memb).
    apply map_ext_in. intros pt Hin. apply filter_In in Hin. destruct Hin as [ Hg Hmb ]. apply in_grid_iff in Hg. rewrite Vals by assumption. reflexivity. }
  split; [ exact Hi | ]. intros pt Hg Hmb.
  refine (proj2 (over_value (creg mm (sc_left sc pc) pc) E _ pt _ Hi _ (err pt)) _).
  - unfold over. rewrite c_x, c_y, Xmm, Ymm. auto.
  - rewrite c_x, c_y, Xmm, Ymm. exact Hg.
  - apply in_map_iff. exists pt. split; [ reflexivity | ]. apply filter_In. split; [ apply in_grid_iff; exact Hg | exact Hmb ].
Qed.

Section Run.
Context {P M : Type} (kind : model_kind P M) (sqrt : fnum -> fnum) (workers : option Z) (junk : fnum).
Context (d : arr3 fnum) (sc : option (arr2 fnum * arr2 fnum)) (pc : option (crisp * Z)) (ap : P) (n : nat).
Local Notation x := (a3x d).
Local Notation y := (a3y d).
Local Notation members := (filter (pc_memb pc) (grid x y)).
Context (Hq : qwf d sc) (Hpc : pc_ok pc x y) (Hn : n <= a3t d).

Lemma in_members pt : In pt members <-> in_grid x y pt /\ pc_memb pc pt = true.
Proof. rewrite filter_In, in_grid_iff. tauto. Qed.

Lemma creg_items d' : qwf d' sc -> a3x d' = x -> a3y d' = y -> proper_st (creg d' sc pc) /\ t_items (creg d' sc pc) = Ok (map (fun pt => (pt, t_ser (creg d' sc pc) pt)) members).
Proof.
  intros Hq' X Y. assert (Hp : proper_st (creg d' sc pc)) by (apply c_proper; [ exact Hq' | rewrite X, Y; exact Hpc ]). split; [ exact Hp | ].
  rewrite (proper_items _ Hp), c_x, c_y, X, Y. rewrite (filter_ext (t_memb (creg d' sc pc)) (pc_memb pc)) by (intros; apply c_memb). reflexivity.
Qed.

Lemma train_all d1 (mo : point -> option M) : qwf d1 sc -> a3x d1 = x -> a3y d1 = y ->
  (forall pt s, In pt members -> series3 d1 (fst pt) (snd pt) = Ok s -> training_function kind ap s = Ok (mo pt)) ->
  exists models, train kind (full2 x y (Some ap)) (creg d1 sc pc) = Ok (models, without_model mo members) /\ a2x models = x /\ a2y models = y /\
    forall pt, In pt members -> get2 models (fst pt) (snd pt) = Ok (cell_of (mo pt)).
Proof.
  intros Hq1 X1 Y1 Ht. destruct (creg_items d1 Hq1 X1 Y1) as [ Hp Ei ].
  assert (Hin : forall pt s, In (pt, s) (map (fun pt => (pt, t_ser (creg d1 sc pc) pt)) members) -> In pt members /\ training_function kind ap s = Ok (mo pt)).
  { intros pt s H. apply in_map_iff in H. destruct H as (q & E & H). injection E as -> <-. split; [ exact H | ]. apply in_members in H as Hg. destruct Hg as [ Hg _ ].
    destruct (ser_ok d1 pt (proj1 Hq1)) as (s & Es & _); [ rewrite X1, Y1; exact Hg | ]. rewrite (c_ser _ _ _ _ _ Es). apply Ht; assumption. }
  assert (E : exists models k, train kind (full2 x y (Some ap)) (creg d1 sc pc) = Ok (models, k)).
  { unfold train, train_with.
    destruct (apply_cases Untouched (trainer_function kind (full2 x y (Some ap))) (creg d1 sc pc) _ Hp Ei) as [ (m & E & W & X & Y & _) | (pt & s & e & H & He & _) ].
    - cbn. rewrite c_x. congruence.
    - cbn. rewrite c_y. congruence.
    - rewrite E. cbn [bind]. destruct (proper_new_spatial _ m Hp W X Y) as (Hs & Hd & Hm). rewrite (proper_s_items NoModel) by assumption. cbn [bind]. eauto.
    - exfalso. destruct (Hin pt s H) as [ Hm Htr ]. apply in_members in Hm. destruct Hm as [ Hg _ ]. cbn [trainer_function f_at] in He. rewrite (get_full _ _ _ _ Hg) in He. cbn [bind] in He. rewrite Htr in He. discriminate. }
  destruct E as (models & k & E). destruct (train_with_cases _ _ _ _ _ Hp Ei E) as (W & X & Y & _ & _ & Hk). rewrite c_x, X1 in X. rewrite c_y, Y1 in Y.
  destruct (train_everywhere kind _ _ _ _ _ Hp Ei E) as (Hall & _ & _).
  assert (G : forall pt, In pt members -> get2 models (fst pt) (snd pt) = Ok (cell_of (mo pt))).
  { intros pt H. destruct (Hall pt (t_ser (creg d1 sc pc) pt)) as (p & m & Ep & Em & Eg); [ apply in_map_iff; exists pt; auto | ].
    apply in_members in H as Hg. destruct Hg as [ Hg _ ]. rewrite (get_full _ _ _ _ Hg) in Ep. injection Ep as <-.
    destruct (Hin pt (t_ser (creg d1 sc pc) pt)) as [ _ Et ]; [ apply in_map_iff; exists pt; auto | ]. rewrite Et in Em. injection Em as <-. exact Eg. }
  exists models. split; [ | auto ]. rewrite E. f_equal. f_equal. rewrite Hk, map_map. cbn [fst]. rewrite map_id. unfold without_model. f_equal.
  apply filter_ext_in. intros pt H. unfold no_model. rewrite (G pt H). destruct (mo pt); reflexivity.
Qed.

Lemma forecast_all d1 d2 models (mo : point -> option M) (fo : point -> list fnum) : qwf d1 sc -> a3x d1 = x -> a3y d1 = y -> a2x models = x -> a2y models = y ->
  (forall pt, In pt members -> get2 models (fst pt) (snd pt) = Ok (cell_of (mo pt)) /\ forecast_by kind (mo pt) n = Ok (fo pt) /\ length (fo pt) = n) ->
  exists m, forecast_region kind junk (Data (creg d sc pc) (creg d1 sc pc) d2 n) models n = Ok (creg m sc pc) /\ wf3 m /\ a3x m = x /\ a3y m = y /\
    forall pt, In pt members -> series3 m (fst pt) (snd pt) = Ok (fo pt).
Proof.
  intros Hq1 X1 Y1 Xm Ym Hf. destruct (creg_items d1 Hq1 X1 Y1) as [ Hp _ ]. unfold forecast_region. cbn [da_training da_region].
  set (E := t_new_spatial (creg d1 sc pc) (full2 (t_x (creg d1 sc pc)) (t_y (creg d1 sc pc)) junk)).
  destruct (over_new_spatial (creg d1 sc pc) (full2 (t_x (creg d1 sc pc)) (t_y (creg d1 sc pc)) junk) Hp (wf2_full _ _ _) eq_refl eq_refl) as (Ps & Sx & Sy & Sm). fold E in Ps, Sx, Sy, Sm.
  rewrite c_x, X1 in Sx. rewrite c_y, Y1 in Sy.
  assert (Mb : forall pt, in_grid x y pt -> s_memb E pt = true -> In pt members) by (intros pt Hg H; apply in_members; split; [ exact Hg | ]; rewrite Sm, c_memb in H; exact H).
  destruct (s_apply_series_spec (Fin 0) (model_function (A := fnum) kind models n) E (fun pt _ => fo pt) n NaN) as (m & E2 & W & T & X & Y & Q).
  - apply proper_s_swf; assumption.
  - apply proper_s_consistent; assumption.
  - cbn. congruence.
  - cbn. congruence.
  - intros q Hg Hmb. rewrite Sx, Sy in Hg. destruct (Hf q (Mb q Hg Hmb)) as (H1 & H2 & H3). cbn [model_function f_at]. rewrite H1. cbn [bind]. eexists. split; [ reflexivity | ].
    split; [ | exact H3 ]. destruct (mo q); exact H2.
  - exists m. unfold model_apply_to. rewrite E2. cbn [bind]. destruct (proper_new_st E m Ps W X Y) as (Pf & Df & Mf). rewrite Sx in X. rewrite Sy in Y.
    split; [ | split; [ exact W | split; [ exact X | split; [ exact Y | ] ] ] ].
    + rewrite c_scaling. destruct sc as [ [ mn mx ] | ]; [ rewrite c_new_st, Df; reflexivity | ]. unfold E. destruct pc as [ [ p c ] | ]; reflexivity.
    + intros pt Hin. apply in_members in Hin as [ Hg Hmb ]. rewrite Q by (rewrite Sx, Sy; exact Hg). rewrite Sm, c_memb, Hmb. reflexivity.
Qed.

Context (et : string) (func : error_fn) (Hfunc : get_error_func et = Ok func).
Context (mo : point -> option M) (fo : point -> list fnum) (err : point -> point -> fnum).
Context (Hmo : forall pt, In pt members -> forecast_at kind ap d n pt (mo pt) (Ok (fo pt)) /\ length (fo pt) = n).
Context (Herr : forall q pt, In q members -> In pt members -> error_of func d sc n (fo q) pt (err q pt)).
Local Notation trainer := (train kind (full2 x y (Some ap))).

Lemma generic_error d1 d2 q (Hq1 : qwf d1 sc) (Hq2 : qwf d2 sc) (X1 : a3x d1 = x) (Y1 : a3y d1 = y) (X2 : a3x d2 = x) (Y2 : a3y d2 = y)
  (S : forall pt s, in_grid x y pt -> series3 d (fst pt) (snd pt) = Ok s ->
      series3 d1 (fst pt) (snd pt) = Ok (firstn (length s - n) s) /\ series3 d2 (fst pt) (snd pt) = Ok (skipn (length s - n) s)) : In q members ->
  overall_error_generic sqrt func (fo q) (creg d2 sc pc) (Some (creg d1 sc pc)) = Ok (overall sqrt members fo err q).
Proof.
  intros Hin. unfold overall_error_generic, overall. destruct (forallb is_nan (fo q)); [ reflexivity | ].
  destruct (repeated_errors d1 d2 sc pc (fo q) et func workers (err q) Hq1 Hq2) as (E & Ew & Ei & _); try congruence; try (rewrite ?X2, ?Y2; assumption).
  { intros pt s1 s2 Hg Hmb Es1 Es2. rewrite X2, Y2 in Hg. destruct (Herr q pt Hin) as (s & f' & tr & ob & Es & A & B & C & F); [ apply in_members; auto | ].
    destruct (S pt s Hg Es) as [ Q1 Q2 ]. rewrite Es1 in Q1. rewrite Es2 in Q2. injection Q1 as ->. injection Q2 as ->. eauto 8. }
  unfold with_repeated_forecast, with_forecast_region in Ew. cbn [ea_obs ea_train] in Ew. destruct (repeat_series (creg d2 sc pc) (fo q)) as [ rep | ]; [ | discriminate ]. cbn [bind] in *.
  rewrite Hfunc in Ew. cbn [bind] in Ew. destruct (mk_measure_error func (creg d2 sc pc) (Some (creg d1 sc pc))) as [ me | ]; [ | discriminate ]. cbn [bind] in *. rewrite Ew. cbn [bind].
  unfold overall_error. rewrite Ei. cbn [bind]. rewrite map_map, X2, Y2. reflexivity.
Qed.

Definition summary (med : point) : forecast_errors :=
  let over_all := overall sqrt members fo err in
  let items := map (fun q => (q, over_all q)) members in
  FE (root_mean_squared sqrt (map (fun pt => err pt pt) members)) (snd (fold_left min_step items (None, PInf)))
     (match fst (fold_left min_step (map (fun q => (q, err q q)) members) (None, PInf)) with Some q => over_all q | None => NaN end)
     (over_all med) (snd (fold_left max_step items (None, NInf))).

Lemma summary_spec med : error_summary sqrt members fo err med (summary med).
Proof.
  unfold error_summary, summary. cbn [fe_each fe_minimum fe_min_local fe_centroid fe_maximum]. split; [ reflexivity | ]. split; [ | split; [ | split; [ reflexivity | ] ] ].
  - exists (fst (fold_left min_step (map (fun q => (q, overall sqrt members fo err q)) members) (None, PInf))). rewrite <- surjective_pairing. apply min_fold.
  - exists (fst (fold_left min_step (map (fun q => (q, err q q)) members) (None, PInf))), (snd (fold_left min_step (map (fun q => (q, err q q)) members) (None, PInf))).
    rewrite <- surjective_pairing. split; [ apply min_fold | reflexivity ].
  - exists (fst (fold_left max_step (map (fun q => (q, overall sqrt members fo err q)) members) (None, NInf))). rewrite <- surjective_pairing. apply max_fold.
Qed.

Lemma analysis_run med result a' : workers_ok workers -> In med members ->
  (analyze_errors kind sqrt trainer workers junk (creg d sc pc) (Some med) et n new_analysis result a' -> result = Ok (summary med)) /\
  (exists a', analyze_errors kind sqrt trainer workers junk (creg d sc pc) (Some med) et n new_analysis (Ok (summary med)) a') /\
  exists models, train kind (full2 x y (Some ap)) (fst (split_training_and_test_last (Z.of_nat n) (creg d sc pc))) = Ok (models, without_model mo members) /\
    forall pt, In pt members -> get2 models (fst pt) (snd pt) = Ok (cell_of (mo pt)).
Proof.
  intros Hw Hmed. destruct (c_split d sc pc n Hq Hn) as (d1 & d2 & Es & Hq1 & Hq2 & _ & _ & X1 & Y1 & X2 & Y2 & S).
  destruct (train_all d1 mo Hq1 X1 Y1) as (models & Et & Xm & Ym & G).
  { intros pt s Hin Es1. destruct (Hmo pt Hin) as [ (s0 & Es0 & Ht & _) _ ]. apply in_members in Hin as Hg. destruct (S pt s0 (proj1 Hg) Es0) as [ Q _ ]. rewrite Es1 in Q. injection Q as ->. exact Ht. }
  destruct (forecast_all d1 (creg d2 sc pc) models mo fo Hq1 X1 Y1 Xm Ym) as (m & Ef & Wm & Xf & Yf & Sf).
  { intros pt Hin. split; [ apply G, Hin | ]. destruct (Hmo pt Hin) as [ (s0 & _ & _ & H) L ]. auto. }
  destruct (region_errors d1 d2 m sc pc et func workers fo (fun pt => err pt pt) Hq1 Hq2 Wm) as (E & Ee & Ei & Ev); try congruence; try (rewrite ?X2, ?Y2; assumption).
  { intros pt Hg Hmb. rewrite X2, Y2 in Hg. apply Sf, in_members. auto. }
  { intros pt s1 s2 Hg Hmb Es1 Es2. rewrite X2, Y2 in Hg. assert (Hin : In pt members) by (apply in_members; auto).
    destruct (Herr pt pt Hin Hin) as (s & f' & tr & ob & Es' & A & B & C & F).
    destruct (S pt s Hg Es') as [ Q1 Q2 ]. rewrite Es1 in Q1. rewrite Es2 in Q2. injection Q1 as ->. injection Q2 as ->. eauto 8. }
  rewrite X2, Y2 in Ei, Ev.
  assert (Hqm : qwf m sc) by (apply (q_again d); assumption).
  destruct (creg_items m Hqm Xf Yf) as [ Hpm Eim ].
  set (ea := ErrorAnalysis (creg d2 sc pc) (Some (creg d1 sc pc)) workers) in *.
  assert (Ex : t_x (creg m sc pc) = t_x (ea_obs ea)) by (cbn [ea ea_obs]; rewrite !c_x; congruence).
  assert (Ey : t_y (creg m sc pc) = t_y (ea_obs ea)) by (cbn [ea ea_obs]; rewrite !c_y; congruence).
  assert (Hserial : exists R, overall_serial sqrt func ea (creg m sc pc) = Ok R /\ s_items R = Ok (map (fun q => (q, overall sqrt members fo err q)) members) /\
     forall pt, In pt members -> value_at R pt = Ok (overall sqrt members fo err pt)).
  { assert (Hpt : forall pt s, In (pt, s) (map (fun pt => (pt, t_ser (creg m sc pc) pt)) members) -> overall_error_generic sqrt func s (ea_obs ea) (ea_train ea) = Ok (overall sqrt members fo err pt)).
    { intros pt s H. apply in_map_iff in H. destruct H as (q & Eq & H). injection Eq as -> <-. rewrite (c_ser _ _ _ _ _ (Sf pt H)). apply generic_error; auto. }
    destruct (serial_cases sqrt func ea (creg m sc pc) _ Hpm Eim Ex Ey) as [ (r & Er & Wr & Xr & Yr & Hin & _) | (pt & s & e & H & He & _) ]; [ | rewrite (Hpt pt s H) in He; discriminate ].
    exists (t_new_spatial (creg m sc pc) r). split; [ exact Er | ]. pose proof (over_new_spatial _ r Hpm Wr Xr Yr) as Ov.
    destruct (proper_new_spatial _ r Hpm Wr Xr Yr) as (Ps & Ds & Ms). set (R := t_new_spatial (creg m sc pc) r) in *.
    assert (Vals : forall pt, In pt members -> get2 r (fst pt) (snd pt) = Ok (overall sqrt members fo err pt)).
    { intros pt H. destruct (Hin pt (t_ser (creg m sc pc) pt)) as (v & Hv & Hg); [ apply in_map_iff; exists pt; auto | ].
      rewrite (Hpt pt (t_ser (creg m sc pc) pt)) in Hv; [ congruence | apply in_map_iff; exists pt; auto ]. }
    assert (Ei' : s_items R = Ok (map (fun q => (q, overall sqrt members fo err q)) members)).
    { rewrite (proper_s_items NaN R Ps). f_equal. destruct Ov as (_ & Ox & Oy & _). rewrite Ox, Oy, Ms, c_x, c_y, Xf, Yf.
      rewrite (filter_ext (t_memb (creg m sc pc)) (pc_memb pc)) by (intros; apply c_memb). apply map_ext_in. intros pt H.
      pose proof (get2_s_val R NaN pt (proper_s_swf _ Ps)) as G'. rewrite Ox, Oy, c_x, c_y, Xf, Yf, Ds, (Vals pt H) in G'.
      apply in_members in H. specialize (G' (proj1 H)). congruence. }
    split; [ exact Ei' | ]. intros pt H. apply (over_value _ R _ pt Ov Ei'); [ rewrite c_x, c_y, Xf, Yf; apply in_members in H; apply H | ].
    apply in_map_iff. exists pt. auto. }
  destruct Hserial as (R & Er & Eir & Vr).
  set (dat := Data (creg d sc pc) (creg d1 sc pc) (creg d2 sc pc) n) in *.
  assert (Etm : train_models trainer (creg d sc pc) n new_analysis = (Ok models, Analysis (Some dat) (Some models) None)).
  { unfold train_models. rewrite Es, Et. reflexivity. }
  assert (Efe : forecast_at_each_point kind workers junk n et (Analysis (Some dat) (Some models) None) = (Ok (creg m sc pc, E), Analysis (Some dat) (Some models) (Some (creg m sc pc)))).
  { unfold forecast_at_each_point, check_forecast_request. cbn [an_data an_models dat da_len]. rewrite Nat.eqb_refl. cbn [py_assert bind]. fold dat. rewrite Ef.
    unfold error_analysis_of. cbn [da_test da_training dat]. fold ea. rewrite Ee. reflexivity. }
  assert (Ere : reuse_forecast kind workers junk n et (Analysis (Some dat) (Some models) (Some (creg m sc pc))) = (Ok (dat, creg m sc pc), Analysis (Some dat) (Some models) (Some (creg m sc pc)))).
  { unfold reuse_forecast, check_forecast_request. cbn [an_data an_models an_forecast dat da_len]. rewrite Nat.eqb_refl. reflexivity. }
  assert (Ean : forall result a', analyze_errors kind sqrt trainer workers junk (creg d sc pc) (Some med) et n new_analysis result a' <->
     exists o, overall_with_each_forecast sqrt ea (creg m sc pc) et o /\ a' = Analysis (Some dat) (Some models) (Some (creg m sc pc)) /\
       result = (overall_error_region <- o ;;
             minimum <- find_minimum overall_error_region ;;
             overall_error_min_local <- value_at_opt overall_error_region (fst (fold_left min_step (map (fun pt => (pt, err pt pt)) members) (None, PInf))) ;;
             overall_error_centroid <- value_at_opt overall_error_region (Some med) ;;
             maximum <- find_maximum overall_error_region ;;
             Ok (FE (root_mean_squared sqrt (map (fun pt => err pt pt) members)) (snd minimum) overall_error_min_local overall_error_centroid (snd maximum)))).
  { intros result' a''. unfold analyze_errors. rewrite Etm, Efe. unfold forecast_whole_region_with_all_models. rewrite Ere.
    unfold overall_error. rewrite Ei. cbn [bind value_at_opt]. rewrite map_map. cbn [snd].
    apply in_members in Hmed as Hm2. rewrite (Ev med (proj1 Hm2) (proj2 Hm2)). cbn [bind].
    assert (El : find_minimum E = Ok (fold_left min_step (map (fun pt => (pt, err pt pt)) members) (None, PInf))) by (unfold find_minimum; rewrite Ei; reflexivity).
    rewrite El. cbn [bind]. unfold error_analysis_of. cbn [da_test da_training dat]. fold ea. split.
    - intros (o & a3 & [ H -> ] & -> & ->). exists o. repeat split; auto.
    - intros (o & H & -> & ->). exists o, (Analysis (Some dat) (Some models) (Some (creg m sc pc))). repeat split; auto. }
  assert (Eres : (overall_error_region <- Ok R ;;
             minimum <- find_minimum overall_error_region ;;
             overall_error_min_local <- value_at_opt overall_error_region (fst (fold_left min_step (map (fun pt => (pt, err pt pt)) members) (None, PInf))) ;;
             overall_error_centroid <- value_at_opt overall_error_region (Some med) ;;
             maximum <- find_maximum overall_error_region ;;
             Ok (FE (root_mean_squared sqrt (map (fun pt => err pt pt) members)) (snd minimum) overall_error_min_local overall_error_centroid (snd maximum))) = Ok (summary med)).
  { cbn [bind]. unfold find_minimum, find_maximum. rewrite Eir. cbn [bind].
    assert (Eml : value_at_opt R (fst (fold_left min_step (map (fun pt => (pt, err pt pt)) members) (None, PInf))) =
       Ok (match fst (fold_left min_step (map (fun q => (q, err q q)) members) (None, PInf)) with Some q => overall sqrt members fo err q | None => NaN end)).
    { pose proof (min_fold (map (fun pt => (pt, err pt pt)) members)) as F. unfold Extrema.first_least in F.
      destruct (fst (fold_left min_step (map (fun pt => (pt, err pt pt)) members) (None, PInf))) as [ q | ]; [ | reflexivity ].
      destruct F as (pre & post & F & _). cbn [value_at_opt]. apply Vr. revert F. generalize (snd (fold_left min_step (map (fun pt => (pt, err pt pt)) members) (None, PInf))). intros v F.
      assert (H : In (q, v) (map (fun pt => (pt, err pt pt)) members)) by (rewrite F; apply in_or_app; right; left; reflexivity).
      apply in_map_iff in H. destruct H as (q' & Eq & H). injection Eq as -> _. exact H. }
    rewrite Eml. cbn [bind value_at_opt]. rewrite (Vr med Hmed). reflexivity. }
  split; [ | split ].
  - intros H. apply Ean in H. destruct H as (o & Ho & _ & ->). assert (o = Ok R) as ->; [ | exact Eres ].
    unfold overall_with_each_forecast in Ho. rewrite Hfunc in Ho. cbn [ea ea_workers] in Ho. unfold workers_ok in Hw. destruct workers as [ w | ]; [ | congruence ].
    destruct w as [ | w | w ]; [ congruence | | lia ]. cbn [Z.ltb Z.compare] in Ho. rewrite Eim in Ho. destruct Ho as (final & H1 & H2 & ->).
    pose proof (parallel_serial sqrt func ea (creg m sc pc) _ Hpm Eim Ex Ey _ _ H1 H2) as Q. destruct (error_collect (creg m sc pc) final) as [ R' | e ]; [ congruence | ].
    destruct Q as [ _ [ e' Q ] ]. rewrite Er in Q. discriminate.
  - exists (Analysis (Some dat) (Some models) (Some (creg m sc pc))). apply Ean. exists (Ok R). split; [ | split; [ reflexivity | symmetry; exact Eres ] ].
    unfold overall_with_each_forecast. rewrite Hfunc. cbn [ea ea_workers]. unfold workers_ok in Hw. destruct workers as [ w | ]; [ | symmetry; exact Er ].
    destruct w as [ | w | w ]; [ symmetry; exact Er | | lia ]. cbn [Z.ltb Z.compare]. rewrite Eim.
    destruct (parallel_completes sqrt func ea (creg m sc pc) _ Hpm Eim Ex Ey (Z.to_nat (Z.pos w)) ltac:(lia)) as (final & H1 & H2). exists final. split; [ exact H1 | ]. split; [ exact H2 | ].
    pose proof (parallel_serial sqrt func ea (creg m sc pc) _ Hpm Eim Ex Ey _ _ H1 H2) as Q. destruct (error_collect (creg m sc pc) final) as [ R' | e ]; [ congruence | ].
    destruct Q as [ _ [ e' Q ] ]. rewrite Er in Q. discriminate.
  - exists models. rewrite Es. auto.
Qed.
End Run.
