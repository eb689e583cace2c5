(** Properties C50-C57 and C78: nearest neighbours, forecasting models, error measures and error analysis. *)
From Coq Require Import QArith Qround Lia Permutation Sorted String.
From Verif Require Import Base.Py Base.PyFacts Base.Arr Base.Float Base.FloatFacts Spec.Grid Spec.Regions Spec.Scaling Spec.Forecast
     Model.Region Model.Arrays Model.Scaling Model.Series Model.Pool Model.Errors Model.Models Model.Forecast
     Proofs.ProperFacts Proofs.ErrorFacts Proofs.ModelFacts Proofs.ForecastFacts.
From Coq Require Import ZifyBool ZifyNat.
Local Close Scope Q_scope. Local Close Scope string_scope. Local Open Scope nat_scope.
Local Notation length := List.length.

Definition fl (l : list Z) : list fnum := map (fun z => Fin (inject_Z z)) l.
Definition manhattan (a b : list fnum) : fnum := fsum (map (fun '(x, y) => fabs (fsub x y)) (combine a b)).

(* an implementation of np.argpartition: all positions in order of their values *)
Definition boe (a b : fnum) : bool := (is_nan b || fle a b)%bool.
Fixpoint insert (values : list fnum) (i : nat) (l : list nat) : list nat :=
  match l with
  | [] => [i]
  | j :: rest => if boe (nth i values NaN) (nth j values NaN) then i :: l else j :: insert values i rest
  end.
Definition argsort (values : list fnum) (kth : nat) : list nat := fold_right (insert values) [] (seq 0 (length values)).

Lemma boe_iff : forall a b, boe a b = true <-> before_or_equal a b.
Proof. intros a b. unfold boe, before_or_equal. rewrite orb_true_iff. reflexivity. Qed.
Lemma boe_trans : forall a b c, before_or_equal a b -> before_or_equal b c -> before_or_equal a c.
Proof.
  intros a b c [ H1 | H1 ] [ H2 | H2 ]; try (left; assumption).
  - apply fle_not_nan in H2. destruct H2; congruence.
  - right. eapply fle_trans; eauto.
Qed.
Lemma boe_total : forall a b, boe a b = false -> before_or_equal b a.
Proof.
  intros a b H. unfold boe in H. apply orb_false_iff in H. destruct H as [ H1 H2 ]. destruct (is_nan a) eqn:N; [ left; auto | ].
  right. destruct (fle_total a b N H1); congruence.
Qed.
Lemma argsort_ok : forall values n, is_argpartition values n (argsort values n).
Proof.
  intros values n. set (R := fun i j => before_or_equal (nth i values NaN) (nth j values NaN)).
  assert (IP : forall i l, Permutation (insert values i l) (i :: l)).
  { intros i l. induction l as [ | j l IH ]; cbn [insert]; [ reflexivity | ]. destruct (boe _ _); [ reflexivity | ].
    rewrite IH. apply perm_swap. }
  assert (IS : forall i l, StronglySorted R l -> StronglySorted R (insert values i l)).
  { intros i l. induction l as [ | j l IH ]; intros H; cbn [insert]; [ repeat constructor | ].
    inversion H as [ | ? ? S F ]; subst. destruct (boe (nth i values NaN) (nth j values NaN)) eqn:E.
    - apply boe_iff in E. constructor; [ assumption | ]. constructor; [ exact E | ]. eapply Forall_impl; [ | exact F ].
      intros k Hk. eapply boe_trans; eauto.
    - constructor; [ apply IH; assumption | ]. eapply Permutation_Forall; [ symmetry; apply IP | ]. constructor; [ apply boe_total; exact E | exact F ]. }
  split.
  - unfold argsort. induction (seq 0 (length values)) as [ | i l IH ]; cbn; [ reflexivity | ]. rewrite IP. constructor. exact IH.
  - assert (SS : StronglySorted R (argsort values n)).
    { unfold argsort. induction (seq 0 (length values)) as [ | i l IH ]; cbn; [ constructor | apply IS; exact IH ]. }
    intros a b i j [ Ha Hb ] Hi Hj. destruct (Nat.eq_dec a b) as [ -> | Hne ].
    + assert (i = j) as -> by congruence. destruct (is_nan (nth j values NaN)) eqn:N; [ left; exact N | right; apply fle_refl; exact N ].
    + assert (a < b) as Hlt by lia. clear Ha Hb Hne. revert a b Hi Hj Hlt. induction SS as [ | k l S IH F ]; intros a b Hi Hj Hlt; [ destruct a; discriminate | ].
      destruct b as [ | b ]; [ lia | ]. cbn [nth_error] in Hj. destruct a as [ | a ]; cbn [nth_error] in Hi.
      * injection Hi as ->. rewrite Forall_forall in F. apply F. eapply nth_error_In; eauto.
      * apply (IH a b); auto; lia.
Qed.

(* ---------------------------------------------------------------- C50 *)
(** Whatever the distance measure, and however argpartition breaks ties: k different neighbours, and nobody left out
    is nearer than somebody selected. *)
Theorem C50_selects_k_nearest : forall measure argpartition array k neighbors,
  (forall values n, n < length values -> is_argpartition values n (argpartition values n)) ->
  (forall nb, In nb neighbors -> length nb = length array) -> k <= length neighbors ->
  exists sel, find_k_nearest_neighbors measure argpartition array (Z.of_nat k) neighbors = Ok sel /\
    k_least (map (measure array) neighbors) k sel.
Proof. exact knn_select. Qed.
Print Assumptions C50_selects_k_nearest.

Theorem C50_too_few_neighbors : forall measure argpartition array k neighbors, (Z.of_nat (length neighbors) < k)%Z ->
  find_k_nearest_neighbors measure argpartition array k neighbors = Raise ValueError.
Proof. exact knn_too_few. Qed.
Print Assumptions C50_too_few_neighbors.

Theorem C50_wrong_length : forall measure argpartition array k neighbors nb, In nb neighbors -> length nb <> length array ->
  find_k_nearest_neighbors measure argpartition array k neighbors = Raise ValueError.
Proof. exact knn_wrong_length. Qed.
Print Assumptions C50_wrong_length.

Example C50_ex : (forall values n, n < length values -> is_argpartition values n (argsort values n)) /\
  find_k_nearest_neighbors manhattan argsort (fl [5; 5]%Z) 2 [fl [0; 9]; fl [4; 5]; fl [9; 9]; fl [6; 6]]%Z = Ok [1; 3].
Proof. split; [ intros; apply argsort_ok | vm_compute; reflexivity ]. Qed.

(* ---------------------------------------------------------------- C51 *)
(** The k selected windows are the nearest to the last window among all earlier windows, and each forecast sample is
    the mean of the samples of the selected windows at its place (the windows themselves, not what follows them). *)
Theorem C51_knn_forecast : forall measure argpartition series k L,
  (forall values n, n < length values -> is_argpartition values n (argpartition values n)) -> L + k <= length series ->
  exists sel f, predict_future_values_with_knn measure argpartition series (Z.of_nat k) L = Ok f /\
    k_least (map (fun i => measure (window series L (length series - L)) (window series L i)) (seq 0 (length series - L))) k sel /\
    length f = L /\ forall j, j < L -> nth_error f j = Some (fmean (map (fun i => nth (i + j) series NaN) sel)).
Proof. exact knn_forecast. Qed.
Print Assumptions C51_knn_forecast.

Theorem C51_within_bounds : forall measure argpartition series k L lo hi f,
  (forall values n, n < length values -> is_argpartition values n (argpartition values n)) ->
  0 < k -> L + k <= length series -> finite series -> within (Fin lo) (Fin hi) series ->
  predict_future_values_with_knn measure argpartition series (Z.of_nat k) L = Ok f ->
  within (Fin lo) (Fin hi) f.
Proof.
  intros measure argpartition series k L lo hi f Harg Hk HL Hfin Hw E.
  destruct (knn_forecast measure argpartition series k L Harg HL) as (sel & f' & E' & (ND & Lsel & Bsel & _) & Lf & Hf).
  rewrite E in E'. injection E' as <-. intros v Hv. apply In_nth_error in Hv. destruct Hv as [ j Hj ].
  assert (j < L) as HjL by (rewrite <- Lf; apply nth_error_Some; congruence). rewrite (Hf j HjL) in Hj. injection Hj as <-.
  apply fmean_within.
  - destruct sel; [ cbn in Lsel; lia | discriminate ].
  - intros u Hu. apply in_map_iff in Hu. destruct Hu as (i & <- & Hi). apply Bsel in Hi. rewrite map_length, seq_length in Hi.
    assert (Hin : In (nth (i + j) series NaN) series) by (apply nth_In; lia). split; [ apply Hfin, Hin | apply Hw, Hin ].
Qed.
Print Assumptions C51_within_bounds.

Theorem C51_too_short : forall measure argpartition series k L,
  (length series < L -> predict_future_values_with_knn measure argpartition series (Z.of_nat k) L = Raise IndexError) /\
  (L <= length series < L + k -> predict_future_values_with_knn measure argpartition series (Z.of_nat k) L = Raise ValueError).
Proof. intros. split; [ apply knn_forecast_short | apply knn_forecast_few ]. Qed.
Print Assumptions C51_too_short.

(** The windows that are averaged are not continued: on a series that repeats with period 3 the forecast repeats the
    last window instead of continuing the period. *)
Theorem C51_forecasts_what_followed_refuted : exists series,
  (forall i, i + 3 < length series -> nth_error series (i + 3) = nth_error series i) /\
  predict_future_values_with_knn manhattan argsort series 1 2 <> Ok (fl [7; 1]%Z) /\
  nth_error series (length series) = None /\ nth_error series (length series - 3) = Some (Fin 7).
Proof.
  exists (fl [7; 1; 2; 7; 1; 2; 7; 1; 2]%Z). split; [ | split; [ vm_compute; discriminate | split; reflexivity ] ].
  cbn [length fl map]. intros i Hi. do 6 (destruct i as [ | i ]; [ reflexivity | ]). lia.
Qed.
Print Assumptions C51_forecasts_what_followed_refuted.

Example C51_ex : predict_future_values_with_knn manhattan argsort (fl [1; 2; 10; 3; 2; 11; 1; 2]%Z) 2 2 = Ok [Fin (4 # 2); Fin (4 # 2)] /\
  2 + 2 <= length (fl [1; 2; 10; 3; 2; 11; 1; 2]%Z).
Proof. split; [ vm_compute; reflexivity | cbn; lia ]. Qed.

(* ---------------------------------------------------------------- C52 *)
Theorem C52_mean_of_past : forall past series L,
  mean_forecast (mean_of_past (Z.of_nat past) series) L =
  repeat (fmean (if past =? 0 then series else skipn (length series - past) series)) L.
Proof. intros. unfold mean_forecast. rewrite mean_of_past_eq. reflexivity. Qed.
Print Assumptions C52_mean_of_past.

Theorem C52_within_bounds : forall past series L lo hi, series <> [] -> finite series ->
  within (Fin lo) (Fin hi) (if past =? 0 then series else skipn (length series - past) series) ->
  within (Fin lo) (Fin hi) (mean_forecast (mean_of_past (Z.of_nat past) series) L).
Proof.
  intros past series L lo hi Hne Hfin Hw v Hv. rewrite C52_mean_of_past in Hv. apply repeat_spec in Hv. subst v. apply fmean_within.
  - destruct (past =? 0) eqn:E; [ exact Hne | ]. intros H. apply (f_equal (@length fnum)) in H. rewrite skipn_length in H. cbn [length] in H.
    apply Nat.eqb_neq in E. destruct series; [ congruence | cbn [length] in H; lia ].
  - intros u Hu. split; [ | apply Hw, Hu ]. apply Hfin. destruct (past =? 0); [ exact Hu | ].
    rewrite <- (firstn_skipn (length series - past) series). apply in_or_app. right. exact Hu.
Qed.
Print Assumptions C52_within_bounds.

Example C52_ex : mean_forecast (mean_of_past 2 (fl [9; 1; 3]%Z)) 3 = [Fin (4 # 2); Fin (4 # 2); Fin (4 # 2)] /\
  mean_of_past 0 (fl [9; 1; 2]%Z) = Fin (12 # 3) /\ mean_of_past 7 (fl [9; 1; 2]%Z) = Fin (12 # 3).
Proof. vm_compute. auto. Qed.

(* ---------------------------------------------------------------- C53 *)
(** MSE: non-negative, and zero exactly if forecast and observation agree wherever both are present. *)
Theorem C53_mse : forall f o t, length f = length o -> no_inf f -> no_inf o ->
  (exists i a b, nth_error f i = Some a /\ nth_error o i = Some b /\ is_nan a = false /\ is_nan b = false) ->
  exists v, mse f o t = Ok v /\ fle (Fin 0) v = true /\
    (feqb v (Fin 0) = true <->
     forall i a b, nth_error f i = Some a -> nth_error o i = Some b -> is_nan a = false -> is_nan b = false -> feqb a b = true).
Proof. exact mse_spec. Qed.
Print Assumptions C53_mse.

Theorem C53_mse_nothing_to_compare : forall f o t, length f = length o -> no_inf f -> no_inf o ->
  (forall i a b, nth_error f i = Some a -> nth_error o i = Some b -> is_nan a = true \/ is_nan b = true) -> mse f o t = Ok NaN.
Proof. exact mse_nothing. Qed.
Print Assumptions C53_mse_nothing_to_compare.

Theorem C53_mse_lengths : forall f o t, length f <> length o -> length f <> 1 -> length o <> 1 -> mse f o t = Raise ValueError.
Proof. exact mse_length. Qed.
Print Assumptions C53_mse_lengths.

(** MASE: for a training series that is not constant, finite, non-negative, and zero exactly on perfect forecasts. *)
Theorem C53_mase : forall f o t, length f = length o -> f <> [] -> finite f -> finite o -> finite t ->
  (exists i a b, nth_error t i = Some a /\ nth_error t (S i) = Some b /\ feqb a b = false) ->
  exists v, mase f o (Some t) = Ok v /\ is_fin v = true /\ fle (Fin 0) v = true /\
    (feqb v (Fin 0) = true <-> forall i a b, nth_error f i = Some a -> nth_error o i = Some b -> feqb a b = true).
Proof. exact mase_spec. Qed.
Print Assumptions C53_mase.

(** MASE does not change when all three series are rescaled and shifted together. *)
Theorem C53_mase_scale_free : forall a b f o t, ~ (a == 0)%Q -> finite f -> finite o -> finite t ->
  res_eqv (mase (map (affine a b) f) (map (affine a b) o) (Some (map (affine a b) t))) (mase f o (Some t)).
Proof. exact mase_affine. Qed.
Print Assumptions C53_mase_scale_free.

Theorem C53_smape_symmetric : forall f o t t', res_eqv (smape f o t) (smape o f t').
Proof. exact smape_swap. Qed.
Print Assumptions C53_smape_symmetric.

Theorem C53_smape_perfect : forall f t, f <> [] -> finite f -> (forall v, In v f -> feqb v (Fin 0) = false) ->
  res_eqv (smape f f t) (Ok (Fin 0)).
Proof. exact smape_perfect. Qed.
Print Assumptions C53_smape_perfect.

Theorem C53_smape_bounds : forall f o t, length f = length o -> f <> [] ->
  (forall v, In v f \/ In v o -> is_fin v = true /\ flt (Fin 0) v = true) ->
  exists v, smape f o t = Ok v /\ fle (Fin 0) v = true /\ fle v (Fin 200) = true.
Proof. exact smape_bounds. Qed.
Print Assumptions C53_smape_bounds.

(** A perfect forecast of a series with a zero sample has error NaN, not 0 ... *)
Theorem C53_smape_perfect_is_zero_refuted : forall f t, In (Fin 0) f -> smape f f t = Ok NaN.
Proof. exact smape_zero_sample. Qed.
Print Assumptions C53_smape_perfect_is_zero_refuted.
(** ... and on negative samples (temperatures below zero) the error is negative. *)
Theorem C53_smape_nonnegative_refuted : exists f o v, finite f /\ finite o /\ smape f o None = Ok v /\ flt v (Fin 0) = true.
Proof.
  exists (fl [-1]%Z), (fl [-3]%Z). eexists. split; [ intros v [ <- | [] ]; reflexivity | ]. split; [ intros v [ <- | [] ]; reflexivity | ].
  split; vm_compute; reflexivity.
Qed.
Print Assumptions C53_smape_nonnegative_refuted.

Example C53_ex :
  mse (fl [1; 2]%Z ++ [NaN]) (fl [1; 4; 9]%Z) None = Ok (Fin (4 # 2)) /\
  mase (fl [3; 5]%Z) (fl [4; 5]%Z) (Some (fl [1; 3; 2]%Z)) = Ok (Fin (6 # 18)) /\
  res_eqv (mase (fl [13; 23]%Z) (fl [18; 23]%Z) (Some (fl [3; 13; 8]%Z))) (mase (fl [3; 5]%Z) (fl [4; 5]%Z) (Some (fl [1; 3; 2]%Z))) /\
  smape (fl [1; 2]%Z) (fl [3; 2]%Z) None = Ok (Fin (1600 # 32)) /\
  mase (fl [3]%Z) (fl [4]%Z) (Some (fl [1]%Z)) = Raise ZeroDivisionError /\ mase (fl [3]%Z) (fl [4]%Z) None = Raise TypeError.
Proof. vm_compute. auto 10. Qed.

(* ---------------------------------------------------------------- C54 *)
(** The overall error is the root of the mean square of the point errors that are present; NaN if there are none. *)
Theorem C54_root_mean_square : forall sqrt errors items, s_items errors = Ok items ->
  overall_error sqrt errors = Ok (sqrt (fmean (map (fun v => fmul v v) (filter (fun v => negb (is_nan v)) (map snd items))))).
Proof.
  intros sqrt errors items E. unfold overall_error. rewrite E. cbn [bind]. unfold root_mean_squared, mean_squared, squared, fnanmean.
  rewrite KMedoidsFacts.filter_map. do 4 f_equal. apply filter_ext. intros [ | | | q ]; reflexivity.
Qed.
Print Assumptions C54_root_mean_square.

(** It lies between the least and the greatest absolute point error (seen through the same square root). *)
Theorem C54_between_extremes : forall sqrt errors items lo hi v, sqrt_like sqrt -> s_items errors = Ok items ->
  no_inf (map snd items) -> (exists v, In v (map snd items) /\ is_nan v = false) -> (0 <= lo)%Q ->
  (forall v, In v (map snd items) -> is_nan v = false -> fle (Fin lo) (fabs v) = true /\ fle (fabs v) (Fin hi) = true) ->
  overall_error sqrt errors = Ok v ->
  fle (sqrt (Fin (lo * lo)%Q)) v = true /\ fle v (sqrt (Fin (hi * hi)%Q)) = true.
Proof.
  intros sqrt errors items lo hi v Hs E Hi Hex Hlo Hb H. unfold overall_error in H. rewrite E in H. injection H as <-.
  apply rms_bounds; assumption.
Qed.
Print Assumptions C54_between_extremes.

(** It does not decrease when point errors grow. *)
Theorem C54_monotone : forall sqrt errors errors' items items' v v', sqrt_like sqrt ->
  s_items errors = Ok items -> s_items errors' = Ok items' -> no_inf (map snd items) -> no_inf (map snd items') ->
  (exists v, In v (map snd items) /\ is_nan v = false) ->
  Forall2 (fun a b => is_nan (snd a) = is_nan (snd b) /\ (is_nan (snd a) = false -> fle (fabs (snd a)) (fabs (snd b)) = true)) items items' ->
  overall_error sqrt errors = Ok v -> overall_error sqrt errors' = Ok v' -> fle v v' = true.
Proof.
  intros sqrt errors errors' items items' v v' Hs E E' Hi Hi' Hex F H H'. unfold overall_error in H, H'. rewrite E in H. rewrite E' in H'.
  injection H as <-. injection H' as <-. apply rms_mono; auto. clear - F. induction F; cbn [map]; constructor; auto.
Qed.
Print Assumptions C54_monotone.

Theorem C54_no_errors : forall sqrt errors items, sqrt NaN = NaN -> s_items errors = Ok items ->
  (forall it, In it items -> is_nan (snd it) = true) -> overall_error sqrt errors = Ok NaN.
Proof.
  intros sqrt errors items Hs E H. unfold overall_error. rewrite E. cbn [bind]. unfold root_mean_squared. rewrite mean_squared_none; [ rewrite Hs; reflexivity | ].
  intros v Hv. apply in_map_iff in Hv. destruct Hv as (it & <- & Hit). auto.
Qed.
Print Assumptions C54_no_errors.

(* a square root over the rationals: the integer part of the root *)
Definition isqrt (v : fnum) : fnum :=
  match v with Fin q => Fin (inject_Z (Z.sqrt (Qfloor q))) | PInf => PInf | NInf => NaN | NaN => NaN end.
Lemma isqrt_like : sqrt_like isqrt.
Proof.
  split; [ reflexivity | split ].
  - intros [ | | | a ] [ | | | b ] Ha Hab; try discriminate; try reflexivity. apply fle_Fin in Hab. cbn [isqrt]. apply fle_Fin.
    rewrite <- Zle_Qle. apply Z.sqrt_le_mono. apply Qfloor_resp_le. exact Hab.
  - intros [ | | | a ] [ | | | b ] H; cbn in *; try contradiction; auto. rewrite H. reflexivity.
Qed.
Example C54_ex : sqrt_like isqrt /\
  overall_error isqrt (SPlain (mk2 1 3 [Fin 3; NaN; Fin (-5)])) = Ok (Fin 4) /\
  overall_error isqrt (SPlain (mk2 1 2 [NaN; NaN])) = Ok NaN.
Proof. split; [ exact isqrt_like | split; vm_compute; reflexivity ]. Qed.

(* ---------------------------------------------------------------- C55 *)
(** With any number of workers and any schedule, the table of overall errors is the serial one; it raises exactly if
    the serial one raises, with the exception of one of the points. *)
Theorem C55_parallel_equals_serial : forall sqrt obs train n forecast error_type result items,
  proper_st forecast -> t_items forecast = Ok items -> t_x forecast = t_x obs -> t_y forecast = t_y obs -> (0 < n)%Z ->
  overall_with_each_forecast sqrt (ErrorAnalysis obs train (Some n)) forecast error_type result ->
  forall serial, overall_with_each_forecast sqrt (ErrorAnalysis obs train None) forecast error_type serial ->
  match result with
  | Ok table => serial = Ok table
  | Raise e => (exists e', serial = Raise e') /\
      (get_error_func error_type = Raise e \/
       exists func pt s, get_error_func error_type = Ok func /\ In (pt, s) items /\ overall_error_generic sqrt func s obs train = Raise e)
  end.
Proof.
  intros sqrt obs train n forecast et result items Hf Ei Ex Ey Hn H serial Hs. unfold overall_with_each_forecast in H, Hs.
  destruct (get_error_func et) as [ func | e ].
  - cbn [ea_workers] in H, Hs. destruct n as [ | n | n ]; [ lia | | lia ]. cbn [Z.ltb Z.compare] in H. rewrite Ei in H.
    destruct H as (final & Hst & Hd & Hr).
    pose proof (parallel_serial sqrt func (ErrorAnalysis obs train (Some (Z.pos n))) forecast items Hf Ei Ex Ey _ _ Hst Hd) as G.
    rewrite <- Hr in G. subst serial. destruct result as [ table | e ]; [ exact G | ].
    destruct G as [ (pt & s & Hin & He) (e' & Hse) ]. split; [ exists e'; exact Hse | right; exists func, pt, s; auto ].
  - subst result serial. split; [ eauto | left; reflexivity ].
Qed.
Print Assumptions C55_parallel_equals_serial.

(** The entry of each iterated point is the overall error of that point's forecast, used at all points. *)
Theorem C55_each_entry : forall sqrt obs train workers forecast error_type table items, 
  proper_st forecast -> t_items forecast = Ok items -> t_x forecast = t_x obs -> t_y forecast = t_y obs ->
  overall_with_each_forecast sqrt (ErrorAnalysis obs train workers) forecast error_type (Ok table) ->
  forall pt s, In (pt, s) items -> exists func v, get_error_func error_type = Ok func /\
    overall_error_generic sqrt func s obs train = Ok v /\ value_at table pt = Ok v.
Proof.
  intros sqrt obs train workers forecast et table items Hf Ei Ex Ey H pt s Hin.
  destruct (overall_cases sqrt (ErrorAnalysis obs train workers) forecast et _ _ Hf Ei Ex Ey H table eq_refl) as (func & Efn & Es). exists func.
  destruct (serial_cases sqrt func (ErrorAnalysis obs train workers) forecast items Hf Ei Ex Ey) as [ (m & E & W & X & Y & Hi & _) | (? & ? & ? & _ & _ & E) ]; [ | congruence ].
  destruct (Hi _ _ Hin) as (v & Hv & Hg). exists v. split; [ exact Efn | split; [ exact Hv | ] ].
  rewrite Es in E. injection E as ->. pose proof (over_new_spatial forecast m Hf W X Y) as Ov.
  pose proof (proper_s_items NaN (t_new_spatial forecast m) (proj1 Ov)) as Ei'.
  apply (in_items forecast) in Hin; auto. destruct Hin as (Hg' & Hm & _).
  apply (over_value forecast _ _ pt Ov Ei' Hg'). apply (in_s_items NaN _ _ pt v (proj1 Ov) Ei').
  destruct Ov as (Pr & X' & Y' & M'). rewrite X', Y', M'. split; [ exact Hg' | split; [ exact Hm | ] ].
  pose proof (RegionFacts.get2_s_val (t_new_spatial forecast m) NaN pt (proper_s_swf _ Pr)) as G. rewrite X', Y' in G. specialize (G Hg').
  destruct (proper_new_spatial forecast m Hf W X Y) as (_ & Dm & _). rewrite Dm in G. congruence.
Qed.
Print Assumptions C55_each_entry.

(** A parallel computation always has a result: the workers cannot deadlock. *)
Theorem C55_completes : forall sqrt obs train n forecast error_type, proper_st forecast ->
  t_x forecast = t_x obs -> t_y forecast = t_y obs -> (0 < n)%Z ->
  exists result, overall_with_each_forecast sqrt (ErrorAnalysis obs train (Some n)) forecast error_type result.
Proof.
  intros sqrt obs train n forecast et Hf Ex Ey Hn. unfold overall_with_each_forecast. destruct (get_error_func et) as [ func | e ]; [ | eauto ].
  cbn [ea_workers]. destruct n as [ | n | n ]; [ lia | | lia ]. cbn [Z.ltb Z.compare]. rewrite (proper_items forecast Hf).
  destruct (parallel_completes sqrt func (ErrorAnalysis obs train (Some (Z.pos n))) forecast _ Hf (proper_items forecast Hf) Ex Ey (Z.to_nat (Z.pos n)) ltac:(lia)) as (final & H1 & H2).
  exists (error_collect forecast final), final. auto.
Qed.
Print Assumptions C55_completes.

Definition ex_obs : stregion fnum := TPlain (mk3 2 1 2 (fl [1; 2; 3; 4]%Z)).
Definition ex_train : stregion fnum := TPlain (mk3 2 1 2 (fl [0; 1; 2; 3]%Z)).
Definition ex_forecast : stregion fnum := TPlain (mk3 2 1 2 (fl [1; 1; 1; 4]%Z)).
Example C55_ex : proper_st ex_forecast /\ overall_with_each_forecast isqrt (ErrorAnalysis ex_obs (Some ex_train) None) ex_forecast "MSE"%string
    (Ok (SPlain (mk2 1 2 [Fin 3; Fin 0]))) /\
  exists items, t_items ex_forecast = Ok items /\ length items = 2.
Proof. split; [ constructor; reflexivity | ]. split; [ vm_compute; reflexivity | eexists; split; vm_compute; reflexivity ]. Qed.

(* ---------------------------------------------------------------- C56 *)
(** For every region, trainer, error type and number of workers: the reported minimum and maximum bound the overall
    error of every model that is not NaN, and the error reported for the centroid is the overall error of its model. *)
Theorem C56_summary_ordered : forall P M (kind : model_kind P M) sqrt trainer workers junk r centroid error_type len a fe a',
  proper_st r -> len <= t_len r -> (forall c, centroid = Some c -> in_grid (t_x r) (t_y r) c) ->
  analyze_errors kind sqrt trainer workers junk r centroid error_type len a (Ok fe) a' ->
  exists training test f R items func,
    split_training_and_test_last (Z.of_nat len) r = (training, test) /\ an_forecast a' = Some f /\ get_error_func error_type = Ok func /\
    s_items R = Ok items /\ (forall pt, In pt (map fst items) <-> exists s, t_items r = Ok s /\ In pt (map fst s)) /\
    (forall pt v, In (pt, v) items -> exists s, series_at f pt = Ok s /\ overall_error_generic sqrt func s test (Some training) = Ok v) /\
    (forall it, In it items -> is_nan (snd it) = false -> fle (fe_minimum fe) (snd it) = true /\ fle (snd it) (fe_maximum fe) = true) /\
    (fe_min_local fe = NaN \/ exists q, In (q, fe_min_local fe) items) /\
    match centroid with None => fe_centroid fe = NaN | Some c => In (c, fe_centroid fe) items end.
Proof. intros P M. exact (@summary_ordered P M). Qed.
Print Assumptions C56_summary_ordered.

Theorem C56_minimum_centroid_maximum : forall P M (kind : model_kind P M) sqrt trainer workers junk r c error_type len a fe a',
  proper_st r -> len <= t_len r -> in_grid (t_x r) (t_y r) c ->
  analyze_errors kind sqrt trainer workers junk r (Some c) error_type len a (Ok fe) a' ->
  (is_nan (fe_centroid fe) = false -> fle (fe_minimum fe) (fe_centroid fe) = true /\ fle (fe_centroid fe) (fe_maximum fe) = true) /\
  (is_nan (fe_min_local fe) = false -> fle (fe_minimum fe) (fe_min_local fe) = true /\ fle (fe_min_local fe) (fe_maximum fe) = true).
Proof.
  intros P M kind sqrt trainer workers junk r c et len a fe a' Hr Hl Hc H.
  destruct (summary_ordered kind sqrt trainer workers junk r (Some c) et len a fe a' Hr Hl) as (tr & te & f & R & items & func & _ & _ & _ & _ & _ & _ & B & L & C); auto.
  - intros c' [= <-]. exact Hc.
  - split; intros N.
    + apply (B _ C). exact N.
    + destruct L as [ L | (q & L) ]; [ rewrite L in N; discriminate | apply (B _ L); exact N ].
Qed.
Print Assumptions C56_minimum_centroid_maximum.

Definition ex_r : stregion fnum := TPlain (mk3 4 1 2 (fl [0; 1; 2; 3; 1; 2; 3; 4]%Z)).
Definition ex_trainer (tr : stregion fnum) := train mean_kind (full2 1 2 (Some 0%Z)) tr.
Example C56_ex : proper_st ex_r /\ 2 <= t_len ex_r /\ in_grid (t_x ex_r) (t_y ex_r) (0, 1)%Z /\ exists fe a',
  analyze_errors mean_kind isqrt ex_trainer None (Fin 0) ex_r (Some (0, 1)%Z) "MSE"%string 2 new_analysis (Ok fe) a'.
Proof.
  split; [ constructor; reflexivity | ]. split; [ vm_compute; lia | ]. split; [ vm_compute; intuition congruence | ].
  eexists. eexists. unfold analyze_errors. cbn [ex_r]. unfold train_models, forecast_at_each_point.
  match goal with |- match ?e with _ => _ end => let v := eval vm_compute in e in change e with v end. cbn iota.
  match goal with |- match ?e with _ => _ end => let v := eval vm_compute in e in change e with v end. cbn iota beta.
  eexists. eexists. split; [ | split; [ reflexivity | ] ].
  - unfold forecast_whole_region_with_all_models. match goal with |- match ?e with _ => _ end => let v := eval vm_compute in e in change e with v end. cbn iota beta.
    split; [ unfold overall_with_each_forecast; cbn [get_error_func String.eqb Ascii.eqb Bool.eqb error_analysis_of ea_workers]; vm_compute; reflexivity | reflexivity ].
  - vm_compute. reflexivity.
Qed.

(* ---------------------------------------------------------------- C57 *)
(** Training at representatives: every iterated representative gets the model trained on its own series with its own
    parameters, every other iterated point gets none, and missing_count counts the iterated points without model. *)
Theorem C57_train_at_representatives : forall P M (kind : model_kind P M) params reps r items models missing_count,
  proper_st r -> t_items r = Ok items -> train_at_representatives kind params reps r = Ok (models, missing_count) ->
  (forall pt s, In (pt, s) items -> In pt reps ->
     exists p m, get2 params (fst pt) (snd pt) = Ok (Some p) /\ training_function kind p s = Ok m /\
                 get2 models (fst pt) (snd pt) = Ok (match m with Some m => Trained m | None => NoModel end)) /\
  (forall pt s, In (pt, s) items -> ~ In pt reps -> get2 models (fst pt) (snd pt) = Ok NoModel) /\
  (forall pt, in_grid (t_x r) (t_y r) pt -> ~ In pt (map fst items) -> get2 models (fst pt) (snd pt) = Ok Untouched) /\
  missing_count = length (filter (fun pt => match get2 models (fst pt) (snd pt) with Ok NoModel => true | _ => false end) (map fst items)).
Proof. intros P M. exact (@train_at_reps P M). Qed.
Print Assumptions C57_train_at_representatives.

Theorem C57_train : forall P M (kind : model_kind P M) params r items models missing_count,
  proper_st r -> t_items r = Ok items -> train kind params r = Ok (models, missing_count) ->
  (forall pt s, In (pt, s) items ->
     exists p m, get2 params (fst pt) (snd pt) = Ok (Some p) /\ training_function kind p s = Ok m /\
                 get2 models (fst pt) (snd pt) = Ok (match m with Some m => Trained m | None => NoModel end)) /\
  (forall pt, in_grid (t_x r) (t_y r) pt -> ~ In pt (map fst items) -> get2 models (fst pt) (snd pt) = Ok Untouched) /\
  missing_count = length (filter (fun pt => match get2 models (fst pt) (snd pt) with Ok NoModel => true | _ => false end) (map fst items)).
Proof. intros P M. exact (@train_everywhere P M). Qed.
Print Assumptions C57_train.

Theorem C57_training_succeeds : forall P M (kind : model_kind P M) params reps r items, proper_st r -> t_items r = Ok items ->
  a2x params = t_x r -> a2y params = t_y r ->
  (forall pt s, In (pt, s) items -> In pt reps -> exists p m, get2 params (fst pt) (snd pt) = Ok (Some p) /\ training_function kind p s = Ok m) ->
  exists models missing_count, train_at_representatives kind params reps r = Ok (models, missing_count).
Proof. intros P M. exact (@train_at_reps_ok P M). Qed.
Print Assumptions C57_training_succeeds.

Example C57_ex : train_at_representatives mean_kind (full2 1 2 (Some 0%Z)) [(0, 1)%Z] ex_r = Ok (mk2 1 2 [NoModel; Trained (Fin (10 # 4))], 1).
Proof. vm_compute. reflexivity. Qed.

(* ---------------------------------------------------------------- C78 *)
(** After training and forecasting at each point, the forecasts used for the whole region are those of the models just
    trained, whatever happened before. *)
Theorem C78_forecasts_of_current_models : forall P M (kind : model_kind P M) trainer workers junk r len a models a1 error_type f errors a2,
  proper_st r -> len <= t_len r ->
  train_models trainer r len a = (Ok models, a1) ->
  forecast_at_each_point kind workers junk len error_type a1 = (Ok (f, errors), a2) ->
  (forall items pt s c, t_items r = Ok items -> In (pt, s) items -> get2 models (fst pt) (snd pt) = Ok c ->
     exists v, forecast_of_cell kind c len = Ok v /\ length v = len) ->
  a2x models = t_x r -> a2y models = t_y r -> wf2 models ->
  an_forecast a2 = Some f /\
  (forall pt items s, t_items r = Ok items -> In (pt, s) items ->
     exists c v, get2 models (fst pt) (snd pt) = Ok c /\ forecast_of_cell kind c len = Ok v /\ series_at f pt = Ok v) /\
  forall pt, fst (forecast_whole_region_with_single_model kind workers junk pt len error_type a2) =
    (s <- series_at f pt ;; with_repeated_forecast (ErrorAnalysis (snd (split_training_and_test_last (Z.of_nat len) r))
                                                                  (Some (fst (split_training_and_test_last (Z.of_nat len) r))) workers) s error_type).
Proof.
  intros P M kind trainer workers junk r len a models a1 et f errors a2 Hr Hl Et Ef Hk Mx My Mw.
  destruct (each_ok kind trainer workers junk r len a models a1 et f errors a2 Et Ef) as (d & _ & Er & Es & Efr & Eerr & -> & Ere).
  destruct (split_alike r len _ _ Hr Hl Es) as [ (Pt & Tx & Ty & Tm) _ ]. split; [ reflexivity | split ].
  - intros pt items s Ei Hin.
    pose proof (proper_items (da_training d) Pt) as Eit.
    apply (forecast_region_series kind junk d models len f _ Pt ltac:(congruence) ltac:(congruence) ltac:(congruence) ltac:(congruence) Eit) with (s := RegionFacts.t_ser (da_training d) pt).
    + intros q u Hq. apply (in_items (da_training d) _ q u Pt Eit) in Hq. destruct Hq as (Hg & Hmb & _). rewrite Tx, Ty in Hg. rewrite Tm in Hmb.
      assert (Ec : exists c, get2 models (fst q) (snd q) = Ok c).
      { unfold in_grid in Hg. destruct (ArrFacts.get2_ok models (fst q) (snd q) Mw) as (c & Ec & _); [ lia | lia | eauto ]. }
      destruct Ec as (c & Ec). destruct (Hk items q (RegionFacts.t_ser r q) c Ei) as (v & Hv & Lv); [ apply (in_items r _ q _ Hr Ei); auto | exact Ec | ]. exists c, v. auto.
    + exact Efr.
    + apply (in_items (da_training d) _ pt _ Pt Eit). apply (in_items r _ pt s Hr Ei) in Hin. rewrite Tx, Ty, Tm. tauto.
  - intros pt. unfold forecast_whole_region_with_single_model. rewrite Ere, Es. reflexivity.
Qed.
Print Assumptions C78_forecasts_of_current_models.

(** But training again does not discard the stored forecast: the next whole-region forecast silently uses the forecasts
    of the old models. *)
Definition ex_r2 : stregion fnum := TPlain (mk3 4 1 2 (fl [10; 11; 12; 13; 11; 12; 13; 14]%Z)).
Definition run_single (a : analysis) := forecast_whole_region_with_single_model (P := Z) mean_kind None (Fin 0) (0, 0)%Z 2 "MSE"%string a.
Theorem C78_forecasts_follow_retraining_refuted : ~ (forall r1 r2 : stregion fnum,
  let a1 := snd (train_models ex_trainer r1 2 new_analysis) in
  let a2 := snd (forecast_at_each_point mean_kind None (Fin 0) 2 "MSE"%string a1) in
  let a3 := snd (train_models ex_trainer r2 2 a2) in
  let fresh := snd (train_models ex_trainer r2 2 new_analysis) in
  fst (run_single a3) = fst (run_single fresh)).
Proof. intros H. specialize (H ex_r ex_r2). vm_compute in H. discriminate. Qed.
Print Assumptions C78_forecasts_follow_retraining_refuted.

Example C78_ex : exists models a1 f errors a2,
  train_models ex_trainer ex_r 2 new_analysis = (Ok models, a1) /\
  forecast_at_each_point mean_kind None (Fin 0) 2 "MSE"%string a1 = (Ok (f, errors), a2) /\ a2x models = 1 /\ a2y models = 2 /\ wf2 models.
Proof.
  eexists _, _, _, _, _. split; [ vm_compute; reflexivity | ]. split; [ vm_compute; reflexivity | ]. vm_compute. auto.
Qed.
