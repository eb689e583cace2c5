(** Facts about the programs that write CSV tables. *)
From Coq Require Import String Lia.
From Verif Require Import Base.Py Base.PyFacts Base.Arr Base.ArrFacts Base.Str Base.Float Base.FloatFacts Model.Region Model.Scaling Model.Series Model.Errors Model.Models
  Model.Distance Model.Clustering Model.Solver Model.SolverFiles Model.Forecast Model.Results Model.Reports
  Spec.Grid Spec.Rect Spec.Partition Spec.Regions Spec.Distance Spec.Solver Proofs.RegionFacts Proofs.PartitionFacts Proofs.ProperFacts
  Proofs.SubsetFacts Proofs.ScalingFacts Proofs.SeriesFacts Proofs.DistanceFacts Proofs.DistanceObjFacts Proofs.ModelFacts Proofs.ForecastFacts Proofs.SolverFacts.
From Coq Require Import ZifyBool ZifyNat.
Local Notation length := List.length.

(* ---------- a region, or one of its clusters ---------- *)
Definition creg (d : arr3 fnum) (sc : option (arr2 fnum * arr2 fnum)) (pc : option (crisp * Z)) : stregion fnum :=
  match pc with None => qregion d sc | Some (p, c) => TCluster (qregion d sc) p c end.
Definition pc_ok (pc : option (crisp * Z)) (x y : nat) : Prop := match pc with None => True | Some (p, _) => valid_partition p x y end.
Definition pc_memb (pc : option (crisp * Z)) (pt : point) : bool := match pc with None => true | Some (p, c) => has_lab p c pt end.

Lemma c_data : forall d sc pc, t_data (creg d sc pc) = d.
Proof. intros d sc [ [ p c ] | ]; cbn [creg t_data]; apply q_data. Qed.
Lemma c_x : forall d sc pc, t_x (creg d sc pc) = a3x d.
Proof. intros. unfold t_x. rewrite c_data. reflexivity. Qed.
Lemma c_y : forall d sc pc, t_y (creg d sc pc) = a3y d.
Proof. intros. unfold t_y. rewrite c_data. reflexivity. Qed.
Lemma c_len : forall d sc pc, t_len (creg d sc pc) = a3t d.
Proof. intros. unfold t_len. rewrite c_data. reflexivity. Qed.
Lemma c_memb : forall d sc pc pt, t_memb (creg d sc pc) pt = pc_memb pc pt.
Proof. intros d sc [ [ p c ] | ] pt; [ reflexivity | apply q_memb ]. Qed.
Lemma c_new_st : forall d sc pc m, t_new_st (creg d sc pc) m = creg m sc pc.
Proof. intros d sc [ [ p c ] | ] m; cbn [creg t_new_st]; rewrite q_new_st; reflexivity. Qed.
Lemma c_scaling : forall d sc pc, has_scaling (creg d sc pc) = match sc with None => false | Some _ => true end.
Proof. intros d sc [ [ p c ] | ]; apply q_scaling. Qed.
Lemma c_proper : forall d sc pc, qwf d sc -> pc_ok pc (a3x d) (a3y d) -> proper_st (creg d sc pc).
Proof.
  intros d sc [ [ p c ] | ] Hq H; cbn [creg]; [ | apply q_proper; assumption ]. destruct H as (X & Y & W & _).
  constructor; [ apply q_proper; assumption | apply q_unclustered | ]. unfold covers. rewrite q_x, q_y. auto.
Qed.
Lemma c_ser : forall d sc pc pt s, series3 d (fst pt) (snd pt) = Ok s -> t_ser (creg d sc pc) pt = s.
Proof. intros d sc pc pt s H. unfold t_ser. rewrite c_data, H. reflexivity. Qed.

Lemma has_lab_iff : forall p x y c pt, valid_partition p x y -> in_grid x y pt -> (has_lab p c pt = true <-> label_at p pt c).
Proof.
  intros p x y c pt (X & Y & W & _) Hg. rewrite <- X, <- Y in Hg. destruct (get2_lab p pt W Hg) as (l & E & L).
  unfold has_lab, label_at. rewrite E, L. split; [ intros H; f_equal; lia | intros [= ->]; lia ].
Qed.

Lemma c_series_at : forall d sc pc pt, pc_ok pc (a3x d) (a3y d) -> in_grid (a3x d) (a3y d) pt -> pc_memb pc pt = true ->
  series_at (creg d sc pc) pt = series3 d (fst pt) (snd pt).
Proof.
  intros d sc [ [ p c ] | ] pt Hp Hg Hm; cbn [creg]; [ | apply q_series_at ].
  apply (has_lab_iff p _ _ c pt Hp Hg) in Hm. destruct (cluster_series_at p (qregion d sc) c pt c Hm) as [ E _ ]. rewrite E by reflexivity. apply q_series_at.
Qed.

Definition sc_left (sc : option (arr2 fnum * arr2 fnum)) (pc : option (crisp * Z)) := match pc with None => None | Some _ => sc end.
Lemma c_descale : forall d sc pc, qwf d sc ->
  exists m, (if has_scaling (creg d sc pc) then descale (creg d sc pc) else Ok (creg d sc pc)) = Ok (creg m (sc_left sc pc) pc) /\
    qwf m (sc_left sc pc) /\ a3t m = a3t d /\ a3x m = a3x d /\ a3y m = a3y d /\
    forall pt s, in_grid (a3x d) (a3y d) pt -> series3 d (fst pt) (snd pt) = Ok s ->
      exists t, series3 m (fst pt) (snd pt) = Ok t /\ shown sc pt s t /\ length t = length s.
Proof.
  intros d sc pc Hq. destruct (q_descale d sc Hq) as (R & m & E & -> & W & T & X & Y & S). exists m. split; [ | split; [ | auto ] ].
  - destruct pc as [ [ p c ] | ]; cbn [creg sc_left]; [ | exact E ]. cbn [has_scaling]. destruct (has_scaling (qregion d sc)) eqn:Hs.
    + cbn [descale]. rewrite E. cbn [bind t_new_st t_data]. rewrite q_new_st. reflexivity.
    + injection E as E. assert (d = m) as -> by (rewrite <- (q_data d sc), E; reflexivity). reflexivity.
  - destruct pc as [ [ p c ] | ]; cbn [sc_left]; [ eapply q_again; eauto | split; auto ].
Qed.

Lemma shown_unique : forall sc pt s t t', shown sc pt s t -> shown sc pt s t' -> t = t'.
Proof.
  intros [ [ mn mx ] | ] pt s t t'; cbn [shown]; [ | congruence ].
  intros (a & b & E1 & E2 & ->) (a' & b' & E1' & E2' & ->).
  assert (a = a') as -> by congruence. assert (b = b') as -> by congruence. reflexivity.
Qed.

(** the errors of one forecast used at every point *)
Lemma repeated_errors : forall d1 d2 sc pc f et func workers (err : point -> fnum),
  qwf d1 sc -> qwf d2 sc -> a3x d1 = a3x d2 -> a3y d1 = a3y d2 -> pc_ok pc (a3x d2) (a3y d2) ->
  get_error_func et = Ok func ->
  (forall pt s1 s2, in_grid (a3x d2) (a3y d2) pt -> pc_memb pc pt = true ->
     series3 d1 (fst pt) (snd pt) = Ok s1 -> series3 d2 (fst pt) (snd pt) = Ok s2 ->
     exists f' s1' s2', shown sc pt f f' /\ shown sc pt s1 s1' /\ shown sc pt s2 s2' /\ func f' s2' (Some s1') = Ok (err pt)) ->
  exists E, with_repeated_forecast (ErrorAnalysis (creg d2 sc pc) (Some (creg d1 sc pc)) workers) f et = Ok E /\
    s_items E = Ok (map (fun pt => (pt, err pt)) (filter (pc_memb pc) (grid (a3x d2) (a3y d2)))) /\
    forall pt, in_grid (a3x d2) (a3y d2) pt -> pc_memb pc pt = true -> value_at E pt = Ok (err pt).
Proof.
  intros d1 d2 sc pc f et func workers err Hq1 Hq2 X Y Hpc Ef Herr.
  unfold with_repeated_forecast, repeat_series, with_forecast_region. cbn [ea_obs ea_train]. rewrite c_x, c_y.
  destruct (copy_array_spec f (a3x d2) (a3y d2)) as (m & Em & Wm & Tm & Xm & Ym & Sm). rewrite Em. cbn [bind]. rewrite c_new_st, Ef. cbn [bind].
  assert (Hqm : qwf m sc) by (eapply q_again; eauto).
  destruct (c_descale m sc pc Hqm) as (mm & Emm & Hmm & _ & Xmm & Ymm & Smm).
  destruct (c_descale d1 sc pc Hq1) as (m1 & E1 & Hm1 & _ & X1 & Y1 & S1).
  destruct (c_descale d2 sc pc Hq2) as (m2 & E2 & Hm2 & _ & X2 & Y2 & S2).
  assert (Eme : mk_measure_error func (creg d2 sc pc) (Some (creg d1 sc pc)) =
    Ok (MeasureError func (creg m2 (sc_left sc pc) pc) (Some (creg m1 (sc_left sc pc) pc)) (a3x d2) (a3y d2))).
  { unfold mk_measure_error. rewrite c_x, c_y. rewrite !c_scaling in *. destruct sc as [ [ ? ? ] | ].
    - rewrite E2. cbn [bind]. rewrite E1. reflexivity.
    - congruence. }
  rewrite Eme. cbn [bind]. unfold measure_apply_to. rewrite Emm. cbn [bind].
  assert (Hpc' : forall a b, a = a3x d2 -> b = a3y d2 -> pc_ok pc a b) by (intros; subst; assumption).
  assert (Hp : proper_st (creg mm (sc_left sc pc) pc)) by (apply c_proper; [ assumption | apply Hpc'; congruence ]).
  destruct (t_apply_scalar_spec (Fin 0) (measure_function (MeasureError func (creg m2 (sc_left sc pc) pc) (Some (creg m1 (sc_left sc pc) pc)) (a3x d2) (a3y d2)))
              (creg mm (sc_left sc pc) pc) (fun pt _ => err pt)) as (e & Ee & We & Xe & Ye & Pe).
  { apply proper_twf, Hp. } { apply proper_consistent, Hp. }
  { cbn [measure_function f_x me_x]. rewrite c_x. congruence. } { cbn [measure_function f_y me_y]. rewrite c_y. congruence. }
  { intros pt Hg Hmb. rewrite c_x, c_y, Xmm, Ymm, Xm, Ym in Hg. rewrite c_memb in Hmb.
    destruct (ser_ok d1 pt (proj1 Hq1)) as (s1 & Es1 & _); [ rewrite X, Y; exact Hg | ].
    destruct (ser_ok d2 pt (proj1 Hq2) Hg) as (s2 & Es2 & _).
    destruct (Herr pt s1 s2 Hg Hmb Es1 Es2) as (f' & s1' & s2' & Hf & H1 & H2 & Hv).
    destruct (S1 pt s1) as (t1' & Et1 & Ht1 & _); [ rewrite X, Y; exact Hg | exact Es1 | ].
    destruct (S2 pt s2 Hg Es2) as (t2' & Et2 & Ht2 & _).
    destruct (Smm pt f) as (tf & Etf & Htf & _); [ rewrite Xm, Ym; exact Hg | apply Sm; exact Hg | ].
    cbn [measure_function f_at me_obs me_train me_func].
    rewrite c_series_at by (try (apply Hpc'; congruence); rewrite ?X2, ?Y2; assumption). rewrite Et2. cbn [bind].
    rewrite c_series_at by (try (apply Hpc'; congruence); rewrite ?X1, ?Y1, ?X, ?Y; assumption). rewrite Et1. cbn [bind].
    eexists. split; [ reflexivity | ]. rewrite (c_ser mm _ _ pt tf Etf).
    rewrite (shown_unique _ _ _ _ _ Htf Hf), (shown_unique _ _ _ _ _ Ht1 H1), (shown_unique _ _ _ _ _ Ht2 H2). exact Hv. }
  exists (t_new_spatial (creg mm (sc_left sc pc) pc) e). split; [ exact Ee | ].
  rewrite c_x, c_y in *. rewrite Xmm, Ymm, Xm, Ym in *.
  destruct (proper_new_spatial (creg mm (sc_left sc pc) pc) e Hp We) as (Ps & Ds & Ms); [ rewrite c_x; congruence | rewrite c_y; congruence | ].
  set (E := t_new_spatial (creg mm (sc_left sc pc) pc) e) in *.
  assert (Sx : s_x E = a3x d2) by (unfold s_x; rewrite Ds; assumption). assert (Sy : s_y E = a3y d2) by (unfold s_y; rewrite Ds; assumption).
  assert (Vals : forall pt, in_grid (a3x d2) (a3y d2) pt -> pc_memb pc pt = true -> s_val E NaN pt = err pt).
  { intros pt Hg Hmb. pose proof (get2_s_val E NaN pt (proper_s_swf _ Ps)) as G. rewrite Sx, Sy in G. specialize (G Hg). rewrite Ds in G.
    rewrite (Pe pt Hg), c_memb, Hmb in G. congruence. }
  assert (Hi : s_items E = Ok (map (fun pt => (pt, err pt)) (filter (pc_memb pc) (grid (a3x d2) (a3y d2))))).
  { rewrite (proper_s_items NaN E Ps). rewrite Sx, Sy, Ms. f_equal.
    rewrite (filter_ext (t_memb (creg mm (sc_left sc pc) pc)) (pc_memb pc)) by (intros; apply c_memb).
    apply map_ext_in. intros pt Hin. apply filter_In in Hin. destruct Hin as [ Hg Hmb ]. apply in_grid_iff in Hg. rewrite Vals by assumption. reflexivity. }
  split; [ exact Hi | ]. intros pt Hg Hmb.
  refine (proj2 (over_value (creg mm (sc_left sc pc) pc) E _ pt _ Hi _ (err pt)) _).
  - unfold over. rewrite c_x, c_y, Xmm, Ymm. auto.
  - rewrite c_x, c_y, Xmm, Ymm. exact Hg.
  - apply in_map_iff. exists pt. split; [ reflexivity | ]. apply filter_In. split; [ apply in_grid_iff; exact Hg | exact Hmb ].
Qed.

Lemma c_split : forall d sc pc n, qwf d sc -> n <= a3t d ->
  exists d1 d2, split_training_and_test_last (Z.of_nat n) (creg d sc pc) = (creg d1 sc pc, creg d2 sc pc) /\
    qwf d1 sc /\ qwf d2 sc /\ a3t d1 = a3t d - n /\ a3t d2 = n /\
    a3x d1 = a3x d /\ a3y d1 = a3y d /\ a3x d2 = a3x d /\ a3y d2 = a3y d /\
    forall pt s, in_grid (a3x d) (a3y d) pt -> series3 d (fst pt) (snd pt) = Ok s ->
      series3 d1 (fst pt) (snd pt) = Ok (firstn (length s - n) s) /\ series3 d2 (fst pt) (snd pt) = Ok (skipn (length s - n) s).
Proof.
  intros d sc pc n Hq Hn. destruct (q_split d sc n Hq Hn) as (d1 & d2 & E & H). exists d1, d2. split; [ | exact H ].
  destruct pc as [ [ p c ] | ]; cbn [creg]; [ | exact E ]. revert E. unfold split_training_and_test_last.
  rewrite !interval_subset_eq. unfold t_len. cbn [t_data t_new_st t1 t2]. intros E. injection E as E1 E2. cbn [t1 t2] in E1, E2. rewrite E1, E2. reflexivity.
Qed.

(** training at some points of a region or cluster *)
Section Training.
Context {P M : Type} (kind : model_kind P M).
Lemma c_train : forall ap d sc pc reps (mo : point -> option M), qwf d sc -> pc_ok pc (a3x d) (a3y d) ->
  (forall pt s, in_grid (a3x d) (a3y d) pt -> pc_memb pc pt = true -> In pt reps -> series3 d (fst pt) (snd pt) = Ok s ->
     training_function kind ap s = Ok (mo pt)) ->
  exists models n, train_at_representatives kind (full2 (a3x d) (a3y d) (Some ap)) reps (creg d sc pc) = Ok (models, n) /\
    forall pt, in_grid (a3x d) (a3y d) pt -> pc_memb pc pt = true -> In pt reps -> get2 models (fst pt) (snd pt) = Ok (cell_of (mo pt)).
Proof.
  intros ap d sc pc reps mo Hq Hpc Ht. pose proof (c_proper d sc pc Hq Hpc) as Hp. pose proof (proper_items _ Hp) as Ei.
  assert (In_ : forall pt s, In (pt, s) (map (fun q => (q, t_ser (creg d sc pc) q)) (filter (t_memb (creg d sc pc)) (grid (t_x (creg d sc pc)) (t_y (creg d sc pc))))) ->
                in_grid (a3x d) (a3y d) pt /\ pc_memb pc pt = true /\ series3 d (fst pt) (snd pt) = Ok s).
  { intros pt s Hin. apply (in_items (creg d sc pc) _ pt s Hp Ei) in Hin. rewrite c_x, c_y, c_memb in Hin. destruct Hin as (Hg & Hm & ->).
    split; [ exact Hg | split; [ exact Hm | ] ]. destruct (ser_ok d pt (proj1 Hq) Hg) as (s & Es & _). rewrite (c_ser _ _ _ _ _ Es). exact Es. }
  destruct (train_at_reps_ok kind (full2 (a3x d) (a3y d) (Some ap)) reps (creg d sc pc) _ Hp Ei) as (models & n & E).
  { rewrite c_x. reflexivity. } { rewrite c_y. reflexivity. }
  { intros pt s Hin Hr. destruct (In_ pt s Hin) as (Hg & Hm & Es). exists ap, (mo pt). split; [ apply get_full; exact Hg | eapply Ht; eauto ]. }
  exists models, n. split; [ exact E | ]. intros pt Hg Hm Hr.
  destruct (ser_ok d pt (proj1 Hq) Hg) as (s & Es & _).
  destruct (train_at_reps kind _ _ _ _ _ _ Hp Ei E) as (H & _).
  destruct (H pt s) as (p & m & Ep & Em & Eg).
  - apply (in_items (creg d sc pc) _ pt s Hp Ei). rewrite c_x, c_y, c_memb. split; [ exact Hg | split; [ exact Hm | ] ]. symmetry. apply c_ser. exact Es.
  - exact Hr.
  - rewrite get_full in Ep by exact Hg. injection Ep as <-. rewrite (Ht pt s Hg Hm Hr Es) in Em. injection Em as <-. exact Eg.
Qed.
End Training.

Lemma getitem_map : forall {A B} (f : A -> B) l i x, nth_error l i = Some x -> getitem (map f l) (Z.of_nat i) = Ok (f x).
Proof. intros A B f l i x H. apply getitem_in. apply map_nth_error. exact H. Qed.

Lemma enumerate_rows : forall {A R} (f : nat * A -> res R) (g : A -> R) (l : list A),
  (forall i a, nth_error l i = Some a -> f (i, a) = Ok (g a)) -> mapM f (enumerate l) = Ok (map g l).
Proof.
  intros A R f g l H. rewrite (mapM_ok f (fun it => g (snd it))).
  - f_equal. rewrite <- (map_map snd g). f_equal. clear H. unfold enumerate. generalize 0. induction l as [ | a l IH ]; intros n; cbn; [ reflexivity | ].
    f_equal. apply IH.
  - intros [ i a ] Hin. apply In_nth_error in Hin. destruct Hin as [ n Hn ]. rewrite nth_error_enumerate in Hn.
    destruct (nth_error l n) eqn:E; [ | discriminate ]. cbn in Hn. injection Hn as <- <-. apply H. exact E.
Qed.

Lemma append_rows_ok : forall rows file, append_rows (map Ok rows) file = (app file rows, None).
Proof.
  induction rows as [ | r rows IH ]; intros file; cbn [map append_rows]; [ rewrite app_nil_r; reflexivity | ].
  rewrite IH, <- app_assoc. reflexivity.
Qed.
Lemma append_rows_app : forall rows more file, append_rows (app (map Ok rows) more) file = append_rows more (app file rows).
Proof.
  induction rows as [ | r rows IH ]; intros more file; cbn [map app append_rows]; [ rewrite app_nil_r; reflexivity | ].
  rewrite IH, <- app_assoc. reflexivity.
Qed.
Lemma append_rows_cases : forall rows file, exists done, 
  append_rows rows file = (app file done, None) /\ rows = map Ok done \/
  exists e rest, append_rows rows file = (app file done, Some e) /\ rows = app (map Ok done) (Raise e :: rest).
Proof.
  induction rows as [ | [ r | e ] rows IH ]; intros file.
  - exists []. left. rewrite app_nil_r. auto.
  - destruct (IH (app file [r])) as (done & [ [ E -> ] | (e & rest & E & ->) ]); exists (r :: done); cbn [append_rows map app];
      rewrite E, <- app_assoc; [ left; auto | right; exists e, rest; auto ].
  - exists []. right. exists e, rows. rewrite app_nil_r. auto.
Qed.

(* ---------- medoid distances ---------- *)
Lemma medoid_indices_row : forall o M x y m medoids, d_matrix o = Some M -> square (x * y) M -> in_grid x y m -> Forall (in_grid x y) medoids ->
  exists l, distances_with_matrix o y m (map (encode_point y) medoids) = Ok l /\ row_at M (index_of y m) (map (index_of y) medoids) l.
Proof.
  intros o M x y m medoids Ho Hs Hm Hms. rewrite Forall_forall in Hms.
  destruct (with_matrix_row o M (x * y) x y m (map (index_of y) medoids) Ho Hs Hm (le_n _)) as (l & E & H).
  { intros j Hj. apply in_map_iff in Hj. destruct Hj as (q & <- & Hq). apply (index_of_encode x y q (Hms q Hq)). }
  exists l. split; [ | exact H ]. unfold distances_with_matrix, distances_to_point_with_matrix in *. rewrite Ho in E. rewrite Ho. cbv beta iota in E |- *.
  rewrite mapM_map in E. rewrite mapM_map. rewrite <- E. apply mapM_ext. intros q Hq. destruct (index_of_encode x y q (Hms q Hq)) as [ -> _ ]. reflexivity.
Qed.
