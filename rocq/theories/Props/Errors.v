(** C119: what the named errors are, and the errors of one forecast used at every point of a region. *)
From Coq Require Import String QArith Qabs Lqa Lia.
From Verif Require Import Base.Py Base.PyFacts Base.Arr Base.ArrFacts Base.Float Base.FloatFacts Model.Region Model.Scaling Model.Errors
  Spec.Grid Spec.Regions Spec.Partition Spec.Forecast Spec.Solver Spec.Errors
  Proofs.RegionFacts Proofs.PartitionFacts Proofs.ProperFacts Proofs.KMedoidsFacts Proofs.BarycenterFacts Proofs.ErrorFacts Proofs.SolverFacts Proofs.ReportFacts
  Props.Forecast.
From Coq Require Import ZifyBool ZifyNat.
Local Close Scope Q_scope.
Local Open Scope nat_scope.
Local Open Scope string_scope.
Local Notation length := List.length.

Lemma fold_qsum : forall l, fold_right Qplus 0%Q l = qsum l.
Proof. reflexivity. Qed.
Lemma average_q : forall l, average l = (qsum l / len_q (length l))%Q.
Proof. reflexivity. Qed.
Lemma combine_map2 : forall {A B} (g : A -> B) (a b : list A), combine (map g a) (map g b) = map (fun '(x, y) => (g x, g y)) (combine a b).
Proof. intros A B g. induction a as [ | x a IH ]; intros [ | y b ]; cbn; [ reflexivity.. | ]. rewrite IH. reflexivity. Qed.
Lemma combine_nil_iff : forall {A B} (a : list A) (b : list B), length a = length b -> a <> [] -> combine a b <> [].
Proof. intros A B [ | x a ] [ | y b ] L H; [ congruence | discriminate | discriminate | discriminate ]. Qed.

Lemma finite_fin : forall l, finite (map Fin l).
Proof. intros l v H. apply in_map_iff in H. destruct H as (q & <- & _). reflexivity. Qed.

Lemma qsum_const_div : forall {A} (g : A -> Q) s l, (qsum (map (fun x => g x / s) l) == qsum (map g l) / s)%Q.
Proof.
  intros A g s l. induction l as [ | a l IH ]; cbn [map qsum fold_right].
  - unfold Qdiv. rewrite Qmult_0_l. reflexivity.
  - fold (qsum (map (fun x => g x / s)%Q l)). fold (qsum (map g l)). rewrite IH. unfold Qdiv. ring.
Qed.

Lemma steps_of_nth : forall t, map Qabs (steps_of t) = map (qstep (map Fin t)) (seq 0 (length t - 1)).
Proof.
  intros t. destruct t as [ | a t ]; [ reflexivity | ]. cbn [length]. replace (S (length t) - 1) with (length t) by lia.
  unfold steps_of, differences. cbn [tl].
  revert a. induction t as [ | b t IH ]; intros a; [ reflexivity | ]. cbn [combine map length seq]. f_equal.
  rewrite IH. rewrite <- seq_shift, map_map. apply map_ext. intros i. reflexivity.
Qed.

Lemma length_steps_of : forall t, length (steps_of t) = length t - 1.
Proof. intros t. pose proof (f_equal (@List.length Q) (steps_of_nth t)) as E. rewrite !map_length, seq_length in E. exact E. Qed.

(** The three names select these three formulas; on series of numbers of equal length: *)
Theorem C119_named_errors : forall f o t, length f = length o -> f <> [] ->
  (~ (average (map Qabs (steps_of t)) == 0)%Q -> 2 <= length t ->
     exists func v, get_error_func "MASE" = Ok func /\ func (map Fin f) (map Fin o) (Some (map Fin t)) = Ok v /\ feqv v (Fin (mase_of f o t))) /\
  ((forall x y, In (x, y) (combine f o) -> ~ (x + y == 0)%Q) ->
     exists func v, get_error_func "sMAPE" = Ok func /\ func (map Fin f) (map Fin o) (Some (map Fin t)) = Ok v /\ feqv v (Fin (smape_of f o))) /\
  (exists func v, get_error_func "MSE" = Ok func /\ func (map Fin f) (map Fin o) (Some (map Fin t)) = Ok v /\ feqv v (Fin (mse_of f o))).
Proof.
  intros f o t L Hne. pose proof (combine_nil_iff f o L Hne) as Hc. split; [ | split ].
  - intros Hz Ht. exists mase. destruct (mase_eq (map Fin f) (map Fin o) (map Fin t) (finite_fin t)) as (s & Es & E); [ rewrite map_length; lia | ].
    unfold zip_pairs in E. rewrite !map_length, L, Nat.eqb_refl in E. rewrite combine_map2, map_map in E.
    assert (Eq : (s == average (map Qabs (steps_of t)))%Q).
    { rewrite Es. unfold qscale. rewrite average_q, steps_of_nth, !map_length, seq_length. unfold len_q.
      replace (Z.of_nat (length t - 1)) with (Z.of_nat (length t) - 1)%Z by lia. reflexivity. }
    assert (Ps : (0 < s)%Q).
    { assert (0 <= s)%Q.
      { rewrite Eq, average_q. apply mean_nonneg, qsum_nonneg. intros v Hv. apply in_map_iff in Hv. destruct Hv as (u & <- & _). apply Qabs_nonneg. }
      destruct (Qlt_le_dec 0 s) as [ P | P ]; [ exact P | ]. exfalso. apply Hz. rewrite <- Eq. apply Qle_antisym; assumption. }
    eexists. split; [ reflexivity | ]. split; [ exact E | ].
    rewrite (fmean_map_fin _ (fun p => let '(x, y) := p in (Qabs (x - y) / s)%Q) (combine f o) Hc).
    + cbn [feqv]. unfold mase_of. rewrite average_q. unfold differences. rewrite !map_map, map_length.
      rewrite (map_ext (fun p : Q * Q => let '(x, y) := p in (Qabs (x - y) / s)%Q) (fun p => ((fun p : Q * Q => Qabs (let '(x, y) := p in (x - y)%Q)) p / s)%Q)) by (intros [ x y ]; reflexivity).
      rewrite qsum_const_div. rewrite <- Eq. unfold Qdiv. ring.
    + intros [ x y ] _. unfold fsub. cbn [fopp fadd fdiv]. destruct (Qeq_bool s 0) eqn:Z; [ apply Qeq_bool_eq in Z; lra | ].
      cbn [fabs feqv]. unfold Qdiv. rewrite Qabs_Qmult. rewrite (Qabs_pos (/ s)) by (apply Qlt_le_weak, Qinv_lt_0_compat; assumption). reflexivity.
  - intros Hz. exists smape. eexists. split; [ reflexivity | ]. split.
    + rewrite smape_eq. unfold zip_pairs. rewrite !map_length, L, Nat.eqb_refl. rewrite combine_map2, map_map. reflexivity.
    + rewrite (fmean_map_fin _ (fun p => let '(x, y) := p in (200 * (Qabs (x - y) / (x + y)))%Q) (combine f o) Hc).
      * cbn [feqv]. unfold smape_of. rewrite average_q, map_length. reflexivity.
      * intros [ x y ] Hin. unfold smape_term, fsub. cbn [fopp fadd fabs fdiv].
        destruct (Qeq_bool (x + y) 0) eqn:Z; [ apply Qeq_bool_eq in Z; exfalso; exact (Hz x y Hin Z) | ]. cbn [fmul feqv]. reflexivity.
  - exists mse. eexists. split; [ reflexivity | ]. split.
    + apply mse_eq; [ rewrite !map_length; exact L | | ]; intros v Hv; apply in_map_iff in Hv; destruct Hv as (q & <- & _); reflexivity.
    + rewrite combine_map2.
      assert (Ef : forall l : list (Q * Q), filter present (map (fun '(x, y) => (Fin x, Fin y)) l) = map (fun '(x, y) => (Fin x, Fin y)) l).
      { induction l as [ | [ x y ] l IH ]; [ reflexivity | ]. cbn. rewrite IH. reflexivity. }
      rewrite Ef, map_map. rewrite (fmean_map_fin _ (fun p => let '(x, y) := p in ((x - y) * (x - y))%Q) (combine f o) Hc).
      * cbn [feqv]. unfold mse_of. rewrite average_q. unfold differences. rewrite !map_map, map_length.
        rewrite (map_ext (fun p : Q * Q => let '(x, y) := p in ((x - y) * (x - y))%Q) (fun p => ((let '(x, y) := p in (x - y)%Q) * (let '(x, y) := p in (x - y)%Q))%Q)) by (intros [ x y ]; reflexivity).
        reflexivity.
      * intros [ x y ] _. unfold pair_sq. cbn. ring.
Qed.
Print Assumptions C119_named_errors.

(** Any other name is refused, before anything is computed. *)
Theorem C119_unknown_name : forall name obs train workers forecast series sqrt,
  name <> "MASE" -> name <> "sMAPE" -> name <> "MSE" ->
  get_error_func name = Raise ValueError /\
  with_forecast_region (ErrorAnalysis obs train workers) forecast name = Raise ValueError /\
  (forall result, overall_with_each_forecast sqrt (ErrorAnalysis obs train workers) forecast name result -> result = Raise ValueError) /\
  (0 < t_x obs -> 0 < t_y obs -> with_repeated_forecast (ErrorAnalysis obs train workers) series name = Raise ValueError).
Proof.
  intros name obs train workers forecast series sqrt N1 N2 N3.
  assert (E : get_error_func name = Raise ValueError).
  { unfold get_error_func. apply String.eqb_neq in N1, N2, N3. rewrite N1, N2, N3. reflexivity. }
  split; [ exact E | ]. split; [ unfold with_forecast_region; rewrite E; reflexivity | ]. split.
  - intros result H. unfold overall_with_each_forecast in H. rewrite E in H. exact H.
  - intros Hx Hy. unfold with_repeated_forecast, repeat_series. cbn [ea_obs].
    destruct (SubsetFacts.copy_array_spec series (t_x obs) (t_y obs)) as (m & -> & _). cbn [bind]. unfold with_forecast_region. rewrite E. reflexivity.
Qed.
Print Assumptions C119_unknown_name.

Lemma repeated_forecast_grid : forall sqrt d1 d2 sc pc s name func workers (err : point -> fnum),
  qwf d1 sc -> qwf d2 sc -> a3x d1 = a3x d2 -> a3y d1 = a3y d2 -> partitioned pc (a3x d2) (a3y d2) -> get_error_func name = Ok func ->
  (forall pt train test train' test' s', counted pc (a3x d2) (a3y d2) pt ->
     series3 d1 (fst pt) (snd pt) = Ok train -> series3 d2 (fst pt) (snd pt) = Ok test ->
     shown sc pt train train' -> shown sc pt test test' -> shown sc pt s s' -> func s' test' (Some train') = Ok (err pt)) ->
  let points := filter (pc_memb pc) (grid (a3x d2) (a3y d2)) in
  exists E, with_repeated_forecast (ErrorAnalysis (region_or_cluster d2 sc pc) (Some (region_or_cluster d1 sc pc)) workers) s name = Ok E /\
    NoDup points /\ (forall pt, In pt points <-> counted pc (a3x d2) (a3y d2) pt) /\
    s_items E = Ok (map (fun pt => (pt, err pt)) points) /\
    (forall pt, counted pc (a3x d2) (a3y d2) pt -> value_at E pt = Ok (err pt)) /\
    (forallb is_nan s = false ->
     overall_error_generic sqrt func s (region_or_cluster d2 sc pc) (Some (region_or_cluster d1 sc pc)) =
       Ok (sqrt (fmean (map (fun v => fmul v v) (present_values (map err points)))))).
Proof.
  intros sqrt d1 d2 sc pc s name func workers err Hq1 Hq2 X Y Hpc Ef Herr.
  assert (Hm : forall pt, in_grid (a3x d2) (a3y d2) pt -> (pc_memb pc pt = true <-> match pc with None => True | Some (p, c) => label_at p pt c end)).
  { intros pt Hg. destruct pc as [ [ p c ] | ]; cbn [pc_memb]; [ apply (has_lab_iff p _ _ c pt Hpc Hg) | tauto ]. }
  assert (Hsh : forall pt l, in_grid (a3x d2) (a3y d2) pt -> exists l', shown sc pt l l').
  { intros pt l Hg. destruct sc as [ [ mn mx ] | ]; cbn [shown]; [ | eauto ]. destruct Hq2 as (_ & W1 & X1 & Y1 & W2 & X2 & Y2). unfold in_grid in Hg.
    destruct (get2_ok mn (fst pt) (snd pt) W1) as (a & Ea & _); [ lia | lia | ]. destruct (get2_ok mx (fst pt) (snd pt) W2) as (b & Eb & _); [ lia | lia | ]. eauto 6. }
  destruct (repeated_errors d1 d2 sc pc s name func workers err Hq1 Hq2 X Y Hpc Ef) as (E & EE & Hi & Hv).
  { intros pt s1 s2 Hg Hmb E1 E2. destruct (Hsh pt s Hg) as [ s' Hs ]. destruct (Hsh pt s1 Hg) as [ s1' Hs1 ]. destruct (Hsh pt s2 Hg) as [ s2' Hs2 ].
    exists s', s1', s2'. repeat (split; [ assumption | ]). apply (Herr pt s1 s2 s1' s2' s'); auto. split; [ exact Hg | apply Hm; assumption ]. }
  intros points. exists E. split; [ exact EE | ]. split; [ apply NoDup_filter, grid_nodup | ]. split; [ | split; [ exact Hi | split ] ].
  - intros pt. unfold points. rewrite filter_In, in_grid_iff. unfold counted. split; intros [ Hg H ]; (split; [ exact Hg | apply Hm; assumption ]).
  - intros pt [ Hg H ]. apply Hv; [ exact Hg | apply Hm; assumption ].
  - intros Hn. unfold overall_error_generic. rewrite Hn.
    unfold with_repeated_forecast, with_forecast_region in EE. cbn [ea_obs ea_train] in EE. rewrite Ef in EE. cbn [bind] in EE.
    change (region_or_cluster d2 sc pc) with (creg d2 sc pc). change (region_or_cluster d1 sc pc) with (creg d1 sc pc).
    destruct (repeat_series (creg d2 sc pc) s) as [ R | ] eqn:ER; [ | discriminate ]. cbn [bind] in EE |- *.
    destruct (mk_measure_error func (creg d2 sc pc) (Some (creg d1 sc pc))) as [ me | ]; [ | discriminate ]. cbn [bind] in EE |- *. rewrite EE. cbn [bind].
    rewrite (C54_root_mean_square sqrt E _ Hi). rewrite map_map. reflexivity.
Qed.

(** One forecast used at every point: the error of each counted point is the named error of the forecast against that
    point's own observation and training series, all three with the scaling of the point removed; and the overall
    error is the root of the mean square of those that are not NaN. *)
Theorem C119_repeated_forecast : forall sqrt d1 d2 sc pc s name func workers (err : point -> fnum),
  qwf d1 sc -> qwf d2 sc -> a3x d1 = a3x d2 -> a3y d1 = a3y d2 -> partitioned pc (a3x d2) (a3y d2) -> get_error_func name = Ok func ->
  (forall pt train test train' test' s', counted pc (a3x d2) (a3y d2) pt ->
     series3 d1 (fst pt) (snd pt) = Ok train -> series3 d2 (fst pt) (snd pt) = Ok test ->
     shown sc pt train train' -> shown sc pt test test' -> shown sc pt s s' -> func s' test' (Some train') = Ok (err pt)) ->
  exists E points, with_repeated_forecast (ErrorAnalysis (region_or_cluster d2 sc pc) (Some (region_or_cluster d1 sc pc)) workers) s name = Ok E /\
    NoDup points /\ (forall pt, In pt points <-> counted pc (a3x d2) (a3y d2) pt) /\
    s_items E = Ok (map (fun pt => (pt, err pt)) points) /\
    (forall pt, counted pc (a3x d2) (a3y d2) pt -> value_at E pt = Ok (err pt)) /\
    (forallb is_nan s = false ->
     overall_error_generic sqrt func s (region_or_cluster d2 sc pc) (Some (region_or_cluster d1 sc pc)) =
       Ok (sqrt (fmean (map (fun v => fmul v v) (present_values (map err points)))))).
Proof.
  intros sqrt d1 d2 sc pc s name func workers err Hq1 Hq2 X Y Hpc Ef Herr.
  destruct (repeated_forecast_grid sqrt d1 d2 sc pc s name func workers err Hq1 Hq2 X Y Hpc Ef Herr) as (E & H). eauto.
Qed.
Print Assumptions C119_repeated_forecast.

(** A forecast that is NaN everywhere (no model) has overall error NaN, whatever the regions; one number is enough for the errors to be computed. *)
Theorem C119_no_forecast : forall sqrt func s obs train, (forall v, In v s -> v = NaN) -> overall_error_generic sqrt func s obs train = Ok NaN.
Proof.
  intros sqrt func s obs train H. unfold overall_error_generic. replace (forallb is_nan s) with true; [ reflexivity | ].
  symmetry. apply forallb_forall. intros v Hv. rewrite (H v Hv). reflexivity.
Qed.
Print Assumptions C119_no_forecast.

(** The table of overall errors: the entry of each point is the overall error of its forecast. *)
Theorem C119_each_forecast : forall sqrt d1 d2 sc name func workers forecast table items (err : list fnum -> point -> fnum),
  qwf d1 sc -> qwf d2 sc -> a3x d1 = a3x d2 -> a3y d1 = a3y d2 -> get_error_func name = Ok func ->
  proper_st forecast -> t_items forecast = Ok items -> t_x forecast = a3x d2 -> t_y forecast = a3y d2 ->
  (forall at_pt s pt train test train' test' s', In (at_pt, s) items -> in_grid (a3x d2) (a3y d2) pt ->
     series3 d1 (fst pt) (snd pt) = Ok train -> series3 d2 (fst pt) (snd pt) = Ok test ->
     shown sc pt train train' -> shown sc pt test test' -> shown sc pt s s' -> func s' test' (Some train') = Ok (err s pt)) ->
  overall_with_each_forecast sqrt (ErrorAnalysis (qregion d2 sc) (Some (qregion d1 sc)) workers) forecast name (Ok table) ->
  exists points, NoDup points /\ (forall pt, In pt points <-> in_grid (a3x d2) (a3y d2) pt) /\
    forall at_pt s, In (at_pt, s) items ->
      value_at table at_pt = Ok (if forallb is_nan s then NaN else sqrt (fmean (map (fun v => fmul v v) (present_values (map (err s) points))))).
Proof.
  intros sqrt d1 d2 sc name func workers forecast table items err Hq1 Hq2 X Y Ef Hf Ei Fx Fy Herr H.
  exists (grid (a3x d2) (a3y d2)). split; [ apply grid_nodup | ]. split; [ intros pt; apply in_grid_iff | ].
  intros apt s Hin.
  destruct (C55_each_entry sqrt (qregion d2 sc) (Some (qregion d1 sc)) workers forecast name table items Hf Ei ltac:(rewrite q_x; exact Fx) ltac:(rewrite q_y; exact Fy) H apt s Hin)
    as (func' & v & Ef' & Ev & Hv). assert (func' = func) as -> by congruence. rewrite Hv. f_equal.
  destruct (forallb is_nan s) eqn:Hn.
  - unfold overall_error_generic in Ev. rewrite Hn in Ev. congruence.
  - destruct (repeated_forecast_grid sqrt d1 d2 sc None s name func None (err s) Hq1 Hq2 X Y I Ef) as (E & _ & ND & Hp & Hi & _ & Ho).
    { intros pt a b a' b' s' [ Hg _ ]. intros. eapply Herr; eauto. }
    specialize (Ho Hn). cbn [region_or_cluster] in Ho. rewrite Ev in Ho. injection Ho as ->.
    replace (filter (pc_memb None) (grid (a3x d2) (a3y d2))) with (grid (a3x d2) (a3y d2)); [ reflexivity | ].
    symmetry. clear. generalize (grid (a3x d2) (a3y d2)). induction l as [ | a l IH ]; [ reflexivity | ]. cbn. rewrite IH. reflexivity.
Qed.
Print Assumptions C119_each_forecast.

Definition ex119_test : arr3 fnum := mk3 2 1 2 (map Fin [1; 2; 3; 4]%Q).
Definition ex119_train : arr3 fnum := mk3 3 1 2 (map Fin [0; 1; 2; 3; 1; 2]%Q).
(** the error of each point of a 1x2 region for the forecast 1, 2 *)
Example C119_ex : qwf ex119_train None /\ qwf ex119_test None /\ get_error_func "MSE" = Ok mse /\
  with_repeated_forecast (ErrorAnalysis (qregion ex119_test None) (Some (qregion ex119_train None)) None) [Fin 1; Fin 2] "MSE" =
    Ok (SPlain (mk2 1 2 [Fin (1 # 2); Fin (5 # 2)])) /\
  (mase_of [1; 2] [1; 3] [0; 2; 1] == 1 # 3)%Q /\ (smape_of [1; 2] [1; 2 # 1] == 0)%Q.
Proof. repeat split; vm_compute; reflexivity. Qed.
(** the same forecast over the second of two clusters, one per point *)
Example C119_cluster_ex : let p := Crisp (mk2 1 2 [0; 1]%Z) 2 in valid_partition p 1 2 /\
  exists E, with_repeated_forecast (ErrorAnalysis (region_or_cluster ex119_test None (Some (p, 1%Z))) (Some (region_or_cluster ex119_train None (Some (p, 1%Z)))) None)
    [Fin 1; Fin 2] "MSE" = Ok E /\ s_items E = Ok [((0, 1)%Z, Fin (5 # 2))].
Proof.
  cbn zeta. split.
  - split; [ reflexivity | ]. split; [ reflexivity | ]. split; [ reflexivity | ]. split.
    + intros [ x y ] l Hg Hl. unfold in_grid in Hg. cbn [fst snd] in Hg. unfold label_at in Hl. cbn [fst snd labels pk] in *.
      assert (x = 0)%Z as -> by lia. assert (y = 0 \/ y = 1)%Z as [ -> | -> ] by lia; vm_compute in Hl; injection Hl as <-; lia.
    + exists (0, 1)%Z. split; [ unfold in_grid; cbn; lia | reflexivity ].
  - eexists. split; vm_compute; reflexivity.
Qed.
