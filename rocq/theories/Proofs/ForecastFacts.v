(** Forecast analysis: parallel errors, their summary, and the stored forecast. *)
From Coq Require Import String.
From Verif Require Import Base.Py Base.PyFacts Base.Arr Base.ArrFacts Base.Float Base.FloatFacts Model.Region Model.Arrays Model.Scaling Model.Series
  Model.Pool Model.Errors Model.Models Model.Forecast
  Spec.Grid Spec.Regions Spec.Extrema Spec.Forecast Proofs.RegionFacts Proofs.PartitionFacts Proofs.ProperFacts Proofs.ArraysFacts Proofs.ScalingFacts Proofs.SeriesFacts
  Proofs.PoolFacts.
From Coq Require Import ZifyBool ZifyNat.
Local Notation length := List.length.

Lemma NoDup_map_inj_in : forall {A B} (f : A -> B) l, (forall a b, In a l -> In b l -> f a = f b -> a = b) -> NoDup l -> NoDup (map f l).
Proof.
  intros A B f l. induction l as [ | a l IH ]; intros Hf H; cbn; constructor; inversion H as [ | ? ? N ND ]; subst.
  - intros Hin. apply in_map_iff in Hin. destruct Hin as (b & E & Hb). rewrite (Hf b a) in Hb; [ contradiction | right; assumption | left; reflexivity | exact E ].
  - apply IH; [ intros; apply Hf; try (right; assumption); assumption | assumption ].
Qed.

(* ---------- shapes of results ---------- *)
Lemma setseries3_shape : forall {A} (a a' : arr3 A) i j s, setseries3 a i j s = Ok a' -> wf3 a ->
  wf3 a' /\ a3t a' = a3t a /\ a3x a' = a3x a /\ a3y a' = a3y a.
Proof.
  intros A a a' i j s H W. unfold setseries3 in H. destruct (norm_index (a3x a) i) as [ i' | ]; [ | discriminate ].
  destruct (norm_index (a3y a) j) as [ j' | ]; [ | discriminate ]. destruct (Nat.eqb _ _); [ | discriminate ]. injection H as <-. cbn.
  split; [ | auto ]. unfold wf3 in *. cbn. rewrite <- W. generalize (enumerate match s with [v] => repeat v (a3t a) | _ => s end). intros l.
  generalize (a3d a). induction l as [ | [ t v ] l IH ]; intros d; cbn; [ reflexivity | ]. rewrite IH. apply replace_nth_length.
Qed.

Lemma series_steps_shape : forall {A B} (f : fregion A (list B)) items (m m' : arr3 B),
  foldM (apply_series_step f) items m = Ok m' -> wf3 m -> wf3 m' /\ a3t m' = a3t m /\ a3x m' = a3x m /\ a3y m' = a3y m.
Proof.
  intros A B f items. induction items as [ | [ pt v ] items IH ]; intros m m' H W; cbn [foldM] in H.
  - injection H as <-. auto.
  - unfold apply_series_step at 1 in H. destruct (f_at f pt) as [ fn | ]; [ | discriminate ]. cbn [bind] in H.
    destruct (fn v) as [ s | ]; [ | discriminate ]. cbn [bind] in H.
    destruct (setseries3 m (fst pt) (snd pt) s) as [ m1 | ] eqn:E; [ | discriminate ]. cbn [bind] in H.
    destruct (setseries3_shape _ _ _ _ _ E W) as (W1 & T1 & X1 & Y1). destruct (IH _ _ H W1) as (W2 & T2 & X2 & Y2).
    repeat split; congruence.
Qed.

Lemma s_apply_series_shape : forall {A B} (zero : B) (f : fregion A (list B)) r len R, s_apply_series zero f r len = Ok R ->
  exists m, R = s_new_st r m /\ wf3 m /\ a3t m = len /\ a3x m = s_x r /\ a3y m = s_y r.
Proof.
  intros A B zero f r len R H. unfold s_apply_series in H. destruct (py_assert _); [ | discriminate ]. cbn [bind] in H.
  destruct (py_assert _); [ | discriminate ]. cbn [bind] in H. destruct (s_items r) as [ items | ]; [ | discriminate ]. cbn [bind] in H.
  destruct (foldM _ _ _) as [ m | ] eqn:E; [ | discriminate ]. cbn [bind] in H. injection H as <-.
  apply series_steps_shape in E; [ | apply wf3_full ]. exists m. cbn in E. tauto.
Qed.
Lemma t_apply_series_shape : forall {A} (zero : A) (f : fregion (list A) (list A)) r len R, t_apply_series zero f r len = Ok R ->
  exists m, R = t_new_st r m /\ wf3 m /\ a3t m = len /\ a3x m = t_x r /\ a3y m = t_y r.
Proof.
  intros A zero f r len R H. unfold t_apply_series in H. destruct (py_assert _); [ | discriminate ]. cbn [bind] in H.
  destruct (py_assert _); [ | discriminate ]. cbn [bind] in H. destruct (t_items r) as [ items | ]; [ | discriminate ]. cbn [bind] in H.
  destruct (foldM _ _ _) as [ m | ] eqn:E; [ | discriminate ]. cbn [bind] in H. injection H as <-.
  apply series_steps_shape in E; [ | apply wf3_full ]. exists m. cbn in E. tauto.
Qed.

(** same grid and same iterated points *)
Definition alike (r r' : stregion fnum) : Prop := proper_st r' /\ t_x r' = t_x r /\ t_y r' = t_y r /\ t_memb r' = t_memb r.

Lemma alike_new_st : forall (r : stregion fnum) m, proper_st r -> wf3 m -> a3x m = t_x r -> a3y m = t_y r -> alike r (t_new_st r m).
Proof.
  intros r m H W X Y. destruct (proper_t_new_st r m H W X Y) as (P & D & M & _). unfold alike, t_x, t_y in *. rewrite D. auto.
Qed.
Lemma alike_trans : forall a b c, alike a b -> alike b c -> alike a c.
Proof. intros a b c (_ & X & Y & M) (P' & X' & Y' & M'). unfold alike. repeat split; congruence. Qed.

Lemma descale_alike : forall r R, proper_st r -> descale r = Ok R -> alike r R.
Proof.
  intros r R H. revert R. induction H as [ d H | r mn mx H IH Hn Hm | r p c H IH U C ]; intros R E; cbn [descale] in E.
  - discriminate.
  - destruct (t_apply_series _ _ _ _) as [ R' | ] eqn:E'; [ | discriminate ]. cbn [bind] in E. injection E as <-.
    apply t_apply_series_shape in E'. destruct E' as (m & -> & W & _ & X & Y).
    assert (E : t_data (t_new_st (TScaled r mn mx) m) = m) by (cbn; apply t_data_new_st). rewrite E.
    exact (alike_new_st r m H W X Y).
  - destruct (descale r) as [ R' | ] eqn:E'; [ | discriminate ]. cbn [bind] in E. injection E as <-.
    destruct (IH _ eq_refl) as (P & X & Y & M).
    apply (alike_new_st (TCluster r p c)); [ constructor; assumption | apply twf_data, proper_twf; exact P | exact X | exact Y ].
Qed.

Lemma interval_alike : forall r (a b : Z), proper_st r -> (0 <= a <= b)%Z -> (b <= Z.of_nat (t_len r))%Z ->
  alike r (interval_subset r (Interval a b)).
Proof.
  intros r a b H Ha Hb. rewrite interval_subset_eq. cbn [t1 t2].
  destruct (slice3_spec (t_data r) (Some (a, b)) None None) as (W & _ & X & Y & _).
  - apply twf_data, proper_twf, H.
  - cbn. unfold t_len in Hb. lia.
  - exact I.
  - exact I.
  - cbn [srng fst snd] in X, Y. apply alike_new_st; [ assumption .. | rewrite X; unfold t_x; lia | rewrite Y; unfold t_y; lia ].
Qed.

Lemma split_alike : forall r n training test, proper_st r -> n <= t_len r -> split_training_and_test_last (Z.of_nat n) r = (training, test) ->
  alike r training /\ alike r test.
Proof. intros r n training test H L E. injection E as <- <-. split; apply interval_alike; auto; lia. Qed.

(* ---------- spatial results ---------- *)
(** an error region over the iterated points of [r] *)
Definition over (r : stregion fnum) (R : sregion fnum) : Prop := proper_s R /\ s_x R = t_x r /\ s_y R = t_y r /\ s_memb R = t_memb r.

Lemma over_new_spatial : forall (r : stregion fnum) m, proper_st r -> wf2 m -> a2x m = t_x r -> a2y m = t_y r -> over r (t_new_spatial r m).
Proof.
  intros r m H W X Y. destruct (proper_new_spatial r m H W X Y) as (P & D & M). unfold over, s_x, s_y. rewrite D. auto.
Qed.
Lemma over_alike : forall r r' R, alike r r' -> over r' R -> over r R.
Proof. intros r r' R (_ & X & Y & M) (P' & X' & Y' & M'). unfold over. repeat split; congruence. Qed.

Lemma over_value : forall r R items pt, over r R -> s_items R = Ok items -> in_grid (t_x r) (t_y r) pt -> 
  (forall v, value_at R pt = Ok v <-> In (pt, v) items).
Proof.
  intros r R items pt (P & X & Y & M) E Hg v. rewrite <- X, <- Y in Hg. rewrite (in_s_items NaN R) by assumption.
  pose proof (proper_s_swf _ P) as W. pose proof (get2_s_val R NaN pt W Hg) as G.
  destruct (s_memb R pt) eqn:Em.
  - rewrite value_at_readable by (auto; apply proper_s_consistent; assumption). rewrite G. split; [ intros [= <-]; auto | intros (_ & _ & ->); reflexivity ].
  - rewrite value_at_unreadable; auto; [ split; [ discriminate | intros (_ & H & _); discriminate ] | ].
    clear - P Em. destruct P; cbn in *; [ discriminate | rewrite Em; reflexivity ].
Qed.

Lemma apply_over : forall zero f r R, proper_st r -> t_apply_scalar zero f r = Ok R -> over r R.
Proof.
  intros zero f r R H E. destruct (apply_shape _ _ _ _ E) as [ Ex Ey ].
  destruct (apply_cases zero f r _ H (proper_items r H) Ex Ey) as [ (m & E' & W & X & Y & _) | (? & ? & ? & _ & _ & E') ]; [ | congruence ].
  rewrite E in E'. injection E' as ->. apply over_new_spatial; assumption.
Qed.

Lemma measure_over : forall me forecast R, proper_st forecast -> measure_apply_to me forecast = Ok R -> over forecast R.
Proof.
  intros me forecast R H E. unfold measure_apply_to in E. destruct (has_scaling forecast).
  - destruct (descale forecast) as [ d | ] eqn:Ed; [ | discriminate ]. cbn [bind] in E. pose proof (descale_alike _ _ H Ed) as Al.
    apply (over_alike _ d); [ exact Al | ]. eapply apply_over; [ apply Al | exact E ].
  - cbn [bind] in E. eapply apply_over; eauto.
Qed.

Lemma forecast_errors_over : forall ea forecast et R, proper_st forecast -> with_forecast_region ea forecast et = Ok R -> over forecast R.
Proof.
  intros ea forecast et R H E. unfold with_forecast_region in E. destruct (get_error_func et); [ | discriminate ]. cbn [bind] in E.
  destruct (mk_measure_error _ _ _); [ | discriminate ]. cbn [bind] in E. eapply measure_over; eauto.
Qed.

(* ---------- parallel and serial ---------- *)
Section Parallel.
Context (sqrt : fnum -> fnum) (func : error_fn) (ea : error_analysis) (forecast : stregion fnum) (items : list (point * list fnum)).
Context (Hf : proper_st forecast) (Ei : t_items forecast = Ok items).
Context (Ex : t_x forecast = t_x (ea_obs ea)) (Ey : t_y forecast = t_y (ea_obs ea)).

Let point_error (s : list fnum) : res fnum := overall_error_generic sqrt func s (ea_obs ea) (ea_train ea).

Lemma error_slot_facts : NoDup (map (error_slot forecast) (map fst items)) /\
  (forall pt, In pt (map fst items) -> error_slot forecast pt < length (repeat (Fin 0) (t_x forecast * t_y forecast))).
Proof.
  split.
  - rewrite (items_points forecast) by assumption. apply NoDup_map_inj_in.
    + intros [ a b ] [ c d ] H1 H2 E. apply filter_In in H1, H2. destruct H1 as [ H1 _ ], H2 as [ H2 _ ]. apply in_grid_iff in H1, H2.
      unfold in_grid, error_slot in *. cbn [fst snd] in *.
      destruct (flat_inj (t_y forecast) (Z.to_nat a) (Z.to_nat b) (Z.to_nat c) (Z.to_nat d)) as [ E1 E2 ]; [ lia | lia | exact E | ]. f_equal; lia.
    + apply NoDup_filter, grid_nodup.
  - intros pt H. apply (in_item_points forecast) in H; auto. destruct H as [ [ H1 H2 ] _ ]. rewrite repeat_length. unfold error_slot.
    apply flat_lt; lia.
Qed.

Lemma error_task_eq : forall pt s, In (pt, s) items -> error_task sqrt func ea forecast pt = point_error s.
Proof.
  intros pt s H. apply (in_items forecast) in H; auto. destruct H as (Hg & Hm & ->). unfold error_task.
  rewrite series_at_readable by (auto using proper_twf; apply proper_consistent; auto). rewrite series3_t_ser by (auto using proper_twf). reflexivity.
Qed.

Lemma item_of_point : forall pt, In pt (map fst items) -> exists s, In (pt, s) items.
Proof. intros pt H. apply in_map_iff in H. destruct H as ([ q s ] & <- & H). eauto. Qed.

Lemma serial_cases :
  (exists m, overall_serial sqrt func ea forecast = Ok (t_new_spatial forecast m) /\ wf2 m /\ a2x m = t_x forecast /\ a2y m = t_y forecast /\
     (forall pt s, In (pt, s) items -> exists v, point_error s = Ok v /\ get2 m (fst pt) (snd pt) = Ok v) /\
     (forall pt, in_grid (t_x forecast) (t_y forecast) pt -> ~ In pt (map fst items) -> get2 m (fst pt) (snd pt) = Ok (Fin 0))) \/
  (exists pt s e, In (pt, s) items /\ point_error s = Raise e /\ overall_serial sqrt func ea forecast = Raise e).
Proof. exact (apply_cases (Fin 0) (FRegion (t_x (ea_obs ea)) (t_y (ea_obs ea)) (fun _ => Ok point_error)) forecast items Hf Ei (eq_sym Ex) (eq_sym Ey)). Qed.

Lemma parallel_serial : forall n final,
  psteps (error_slot forecast) (error_task sqrt func ea forecast) (error_start n forecast (map fst items)) final -> pool_done final ->
  match error_collect forecast final with
  | Ok R => overall_serial sqrt func ea forecast = Ok R
  | Raise e => (exists pt s, In (pt, s) items /\ point_error s = Raise e) /\ exists e', overall_serial sqrt func ea forecast = Raise e'
  end.
Proof.
  intros n final Hs Hd. destruct error_slot_facts as [ Hnd Hlt ].
  pose proof (pool_failure (error_slot forecast) (error_task sqrt func ea forecast) _ _ n 10 final ltac:(lia) Hnd Hlt Hs Hd) as [ F1 F2 ].
  unfold error_collect. destruct (pool_outcome final) as [ out | e ] eqn:Eo; cbn [bind].
  - destruct (pool_result (error_slot forecast) (error_task sqrt func ea forecast) _ _ n 10 final out ltac:(lia) Hnd Hlt Hs Hd Eo) as (L & R1 & R2).
    rewrite repeat_length in L. unfold reshape2. rewrite L, Nat.eqb_refl. cbn [bind].
    destruct serial_cases as [ (m & E & W & X & Y & Hin & Hout) | (pt & s & e & Hin & He & _) ].
    + rewrite E. f_equal. f_equal. apply arr2_ext_get; auto.
      intros i j Hi Hj. rewrite X in Hi. rewrite Y in Hj.
      assert (G : get2 (mk2 (t_x forecast) (t_y forecast) out) i j =
                  match nth_error out (error_slot forecast (i, j)) with Some v => Ok v | None => Raise IndexError end).
      { unfold get2. cbn [a2x a2y a2d]. rewrite !norm_index_in by assumption. reflexivity. }
      assert (Hg : in_grid (t_x forecast) (t_y forecast) (i, j)) by (split; assumption).
      rewrite G. destruct (in_dec (fun a b : point => ltac:(decide equality; apply Z.eq_dec)) (i, j) (map fst items)) as [ Hp | Hp ].
      * destruct (item_of_point _ Hp) as [ s Hs' ]. destruct (Hin _ _ Hs') as (v & Hv & Hv').
        destruct (R1 _ Hp) as (w & Hw & Hw'). rewrite (error_task_eq _ _ Hs') in Hw. rewrite Hw'. cbn [fst snd] in Hv'. congruence.
      * rewrite R2.
        -- pose proof (Hout _ Hg Hp) as Ho. cbn [fst snd] in Ho. rewrite Ho. rewrite nth_error_repeat_eq.
           replace (error_slot forecast (i, j) <? t_x forecast * t_y forecast)%nat with true; [ reflexivity | ].
           symmetry. apply Nat.ltb_lt. unfold error_slot. cbn [fst snd]. apply flat_lt; lia.
        -- intros [ a b ] Ht E'. apply Hp. apply (in_item_points forecast) in Ht as Ht'; auto. destruct Ht' as [ [ H1 H2 ] _ ].
           unfold error_slot in E'. cbn [fst snd] in *.
           destruct (flat_inj (t_y forecast) (Z.to_nat a) (Z.to_nat b) (Z.to_nat i) (Z.to_nat j)) as [ E1 E2 ]; [ lia | lia | exact E' | ].
           replace (i, j) with (a, b); [ exact Ht | f_equal; lia ].
    + exfalso. destruct (R1 pt) as (v & Hv & _); [ apply in_map_iff; exists (pt, s); auto | ]. rewrite (error_task_eq _ _ Hin) in Hv. congruence.
  - destruct (F1 e eq_refl) as (pt & Hp & He). destruct (item_of_point _ Hp) as [ s Hs' ]. rewrite (error_task_eq _ _ Hs') in He. split; [ eauto | ].
    destruct serial_cases as [ (m & E & W & X & Y & Hin & Hout) | (pt' & s' & e' & _ & _ & E) ]; [ | eauto ].
    destruct (Hin _ _ Hs') as (v & Hv & _). congruence.
Qed.

Lemma parallel_completes : forall n, 0 < n -> exists final,
  psteps (error_slot forecast) (error_task sqrt func ea forecast) (error_start n forecast (map fst items)) final /\ pool_done final.
Proof.
  intros n Hn. destruct error_slot_facts as [ Hnd Hlt ].
  apply (pool_completes (error_slot forecast) (error_task sqrt func ea forecast) (map fst items) (repeat (Fin 0) (t_x forecast * t_y forecast)) n 10); auto; try lia. constructor.
Qed.
End Parallel.

Lemma overall_cases : forall sqrt ea forecast et result items, proper_st forecast -> t_items forecast = Ok items ->
  t_x forecast = t_x (ea_obs ea) -> t_y forecast = t_y (ea_obs ea) ->
  overall_with_each_forecast sqrt ea forecast et result ->
  forall R, result = Ok R -> exists func, get_error_func et = Ok func /\ overall_serial sqrt func ea forecast = Ok R.
Proof.
  intros sqrt ea forecast et result items Hf Ei Ex Ey H R ->. unfold overall_with_each_forecast in H.
  destruct (get_error_func et) as [ func | ]; [ | discriminate ]. exists func. split; [ reflexivity | ].
  destruct (ea_workers ea) as [ [ | n | n ] | ]; [ congruence | | discriminate | congruence ].
  cbn [Z.ltb Z.compare] in H. rewrite Ei in H. destruct H as (final & Hs & Hd & Hr).
  pose proof (parallel_serial sqrt func ea forecast items Hf Ei Ex Ey _ _ Hs Hd) as G. rewrite <- Hr in G. exact G.
Qed.

Lemma find_minimum_first : forall R items b, s_items R = Ok items -> find_minimum R = Ok b -> first_least items b.
Proof. intros R items b E H. unfold find_minimum in H. rewrite E in H. injection H as <-. apply min_fold. Qed.
Lemma find_maximum_first : forall R items b, s_items R = Ok items -> find_maximum R = Ok b -> first_greatest items b.
Proof. intros R items b E H. unfold find_maximum in H. rewrite E in H. injection H as <-. apply max_fold. Qed.

Lemma first_least_le : forall items b, first_least items b -> forall it, In it items -> is_nan (snd it) = false -> fle (snd b) (snd it) = true.
Proof.
  intros items b H it Hin N. unfold first_least in H. destruct (fst b) as [ p | ].
  - destruct H as (pre & post & -> & Hb & H1 & H2). apply in_app_or in Hin. destruct Hin as [ Hin | [ <- | Hin ] ].
    + destruct (H1 _ Hin) as [ L | L ]; [ apply flt_fle; exact L | congruence ].
    + cbn [snd]. apply fle_refl. apply flt_not_nan in Hb. tauto.
    + destruct (H2 _ Hin) as [ L | L ]; [ exact L | congruence ].
  - destruct H as [ -> H ]. specialize (H it Hin). destruct (snd it); try discriminate. reflexivity.
Qed.
Lemma first_greatest_ge : forall items b, first_greatest items b -> forall it, In it items -> is_nan (snd it) = false -> fle (snd it) (snd b) = true.
Proof.
  intros items b H it Hin N. unfold first_greatest in H. destruct (fst b) as [ p | ].
  - destruct H as (pre & post & -> & Hb & H1 & H2). apply in_app_or in Hin. destruct Hin as [ Hin | [ <- | Hin ] ].
    + destruct (H1 _ Hin) as [ L | L ]; [ apply flt_fle; exact L | congruence ].
    + cbn [snd]. apply fle_refl. apply flt_not_nan in Hb. tauto.
    + destruct (H2 _ Hin) as [ L | L ]; [ exact L | congruence ].
  - destruct H as [ -> H ]. specialize (H it Hin). destruct (snd it); try discriminate. reflexivity.
Qed.

Section Analysis.
Context {P M : Type} (kind : model_kind P M) (sqrt : fnum -> fnum).
Context (trainer : stregion fnum -> res (arr2 (cell M) * nat)) (workers : option Z) (junk : fnum).

Lemma forecast_region_alike : forall d models len f r, proper_st r -> da_region d = r -> alike r (da_training d) ->
  forecast_region kind junk d models len = Ok f -> alike r f.
Proof.
  intros d models len f r Hr Er Al E. unfold forecast_region in E.
  destruct (model_apply_to _ _ _ _) as [ f0 | ] eqn:E0; [ | discriminate ]. cbn [bind] in E. injection E as <-.
  unfold model_apply_to in E0. apply s_apply_series_shape in E0. destruct E0 as (m & -> & W & T & X & Y).
  destruct Al as (Ht & Tx & Ty & Tm).
  destruct (over_new_spatial (da_training d) (full2 (t_x (da_training d)) (t_y (da_training d)) junk) Ht (wf2_full _ _ _) eq_refl eq_refl) as (Ps & Sx & Sy & Sm).
  destruct (proper_new_st _ m Ps W X Y) as (Pf & Df & Mf).
  destruct (has_scaling (da_region d)).
  - rewrite Df, Er. apply alike_new_st; auto; congruence.
  - unfold alike, t_x, t_y in *. rewrite Df. repeat split; try congruence.
Qed.

Lemma train_models_ok : forall r len a models a1, train_models trainer r len a = (Ok models, a1) ->
  exists training test n, split_training_and_test_last (Z.of_nat len) r = (training, test) /\ trainer training = Ok (models, n) /\
    a1 = Analysis (Some (Data r training test len)) (Some models) (an_forecast a).
Proof.
  intros r len a models a1 H. unfold train_models in H. destruct (split_training_and_test_last (Z.of_nat len) r) as [ tr te ].
  destruct (trainer tr) as [ [ m n ] | ] eqn:E; [ | discriminate ]. injection H as <- <-. eauto 8.
Qed.

(** training followed by the forecast at each point *)
Lemma each_ok : forall r len a models a1 et f errors a2, train_models trainer r len a = (Ok models, a1) ->
  forecast_at_each_point kind workers junk len et a1 = (Ok (f, errors), a2) ->
  exists d, an_data a1 = Some d /\ da_region d = r /\ split_training_and_test_last (Z.of_nat len) r = (da_training d, da_test d) /\
    forecast_region kind junk d models len = Ok f /\ with_forecast_region (error_analysis_of workers d) f et = Ok errors /\
    a2 = Analysis (Some d) (Some models) (Some f) /\
    reuse_forecast kind workers junk len et a2 = (Ok (d, f), a2).
Proof.
  intros r len a models a1 et f errors a2 Ht He. apply train_models_ok in Ht. destruct Ht as (tr & te & n & Es & Et & ->).
  unfold forecast_at_each_point, check_forecast_request in He. cbn [an_data da_len an_models] in He. rewrite Nat.eqb_refl in He. cbn [py_assert bind] in He.
  set (d := Data r tr te len) in *. exists d. destruct (forecast_region kind junk d models len) as [ f0 | ] eqn:Ef; [ | discriminate ].
  destruct (with_forecast_region (error_analysis_of workers d) f0 et) as [ errs | ] eqn:Ee; cbn [bind] in He; [ | discriminate ].
  injection He as <- <- <-. repeat split; auto.
  unfold reuse_forecast, check_forecast_request. cbn [an_data d da_len an_models an_forecast]. rewrite Nat.eqb_refl. cbn [py_assert bind]. reflexivity.
Qed.

Lemma summary_ordered : forall r centroid et len a fe a', proper_st r -> len <= t_len r ->
  (forall c, centroid = Some c -> in_grid (t_x r) (t_y r) c) ->
  analyze_errors kind sqrt trainer workers junk r centroid et len a (Ok fe) a' ->
  exists training test f R items func,
    split_training_and_test_last (Z.of_nat len) r = (training, test) /\ an_forecast a' = Some f /\ get_error_func et = Ok func /\
    s_items R = Ok items /\ (forall pt, In pt (map fst items) <-> exists s, t_items r = Ok s /\ In pt (map fst s)) /\
    (forall pt v, In (pt, v) items -> exists s, series_at f pt = Ok s /\ overall_error_generic sqrt func s test (Some training) = Ok v) /\
    (forall it, In it items -> is_nan (snd it) = false -> fle (fe_minimum fe) (snd it) = true /\ fle (snd it) (fe_maximum fe) = true) /\
    (fe_min_local fe = NaN \/ exists q, In (q, fe_min_local fe) items) /\
    match centroid with None => fe_centroid fe = NaN | Some c => In (c, fe_centroid fe) items end.
Proof.
  intros r centroid et len a fe a' Hr Hlen Hc H. unfold analyze_errors in H.
  destruct (train_models trainer r len a) as [ [ models | ] a1 ] eqn:Et; [ | destruct H; discriminate ].
  destruct (forecast_at_each_point kind workers junk len et a1) as [ [ [ f errors ] | ] a2 ] eqn:Ef; [ | destruct H; discriminate ].
  destruct H as (overall & a3 & Hall & -> & Hres).
  destruct (each_ok _ _ _ _ _ _ _ _ _ Et Ef) as (d & _ & Er & Es & Efr & Eerr & -> & Ere).
  destruct (split_alike r len _ _ Hr Hlen Es) as [ Atr Ate ].
  pose proof (forecast_region_alike d models len f r Hr Er Atr Efr) as Af.
  pose proof (forecast_errors_over _ _ _ _ (proj1 Af) Eerr) as Oe. apply (over_alike _ _ _ Af) in Oe.
  unfold forecast_whole_region_with_all_models in Hall. rewrite Ere in Hall. destruct Hall as [ Hall -> ].
  destruct (overall_error sqrt errors) as [ oe | ]; [ | discriminate ]. cbn [bind] in Hres.
  destruct (value_at_opt errors centroid); [ | discriminate ]. cbn [bind] in Hres.
  destruct overall as [ R | ]; [ | discriminate ]. cbn [bind] in Hres.
  destruct (find_minimum R) as [ mn | ] eqn:Emin; [ | discriminate ]. cbn [bind] in Hres.
  destruct (find_minimum errors) as [ ml | ] eqn:Eml; [ | discriminate ]. cbn [bind] in Hres.
  destruct (value_at_opt R (fst ml)) as [ vl | ] eqn:Evl; [ | discriminate ]. cbn [bind] in Hres.
  destruct (value_at_opt R centroid) as [ vc | ] eqn:Evc; [ | discriminate ]. cbn [bind] in Hres.
  destruct (find_maximum R) as [ mx | ] eqn:Emax; [ | discriminate ]. cbn [bind] in Hres. injection Hres as ->. cbn [fe_minimum fe_maximum fe_min_local fe_centroid].
  destruct Af as (Pf & Fx & Fy & Fm). destruct Ate as (Pte & Tx & Ty & Tm).
  destruct (overall_cases sqrt (error_analysis_of workers d) f et (Ok R) _ Pf (proper_items f Pf)) with (R := R) as (func & Efn & Eser).
  - unfold error_analysis_of. cbn [ea_obs]. congruence.
  - unfold error_analysis_of. cbn [ea_obs]. congruence.
  - exact Hall.
  - reflexivity.
  - destruct (serial_cases sqrt func (error_analysis_of workers d) f _ Pf (proper_items f Pf)) as [ (m & E' & W & X & Y & Hin & _) | (? & ? & ? & _ & _ & E') ];
      [ unfold error_analysis_of; cbn [ea_obs]; congruence | unfold error_analysis_of; cbn [ea_obs]; congruence | | congruence ].
    rewrite Eser in E'. injection E' as E'.
    assert (Or : over r R).
    { rewrite E'. apply (over_alike r f); [ split; auto | ]. apply over_new_spatial; auto. }
    pose proof (proper_s_items NaN R (proj1 Or)) as Ei.
    set (items := map (fun p => (p, s_val R NaN p)) (filter (s_memb R) (grid (s_x R) (s_y R)))) in *. clearbody items.
    exists (da_training d), (da_test d), f, R, items, func. repeat split; auto.
    + intros Hp. apply in_map_iff in Hp. destruct Hp as ([ q v ] & <- & Hv). apply (in_s_items NaN R) in Hv; [ | apply Or | assumption ].
      destruct Or as (_ & X' & Y' & M'). eexists. split; [ apply proper_items; assumption | ]. apply (in_item_points r); auto using proper_items. cbn [fst]. rewrite <- X', <- Y', <- M'. tauto.
    + intros (its & Eits & Hp). apply (in_item_points r) in Hp; auto. destruct Or as (Pr & X' & Y' & M').
      apply in_map_iff. exists (pt, s_val R NaN pt). split; [ reflexivity | ]. apply (in_s_items NaN R); auto. rewrite X', Y', M'. tauto.
    + intros pt v Hv. pose proof Hv as Hv'. apply (in_s_items NaN R) in Hv'; [ | apply Or | assumption ]. destruct Hv' as (Hg & Hm & Ev).
      destruct Or as (Pr & X' & Y' & M'). assert (Hf : In (pt, t_ser f pt) (map (fun p => (p, t_ser f p)) (filter (t_memb f) (grid (t_x f) (t_y f))))).
      { apply (in_items f); auto using proper_items. rewrite Fx, Fy, Fm, <- X', <- Y', <- M'. auto. }
      destruct (Hin _ _ Hf) as (w & Hw & Hg'). exists (t_ser f pt). split.
      * rewrite series_at_readable; [ apply series3_t_ser | .. ]; auto using proper_twf; try (rewrite Fx, Fy, <- X', <- Y'; exact Hg).
        apply proper_consistent; auto; [ rewrite Fx, Fy, <- X', <- Y'; exact Hg | rewrite Fm, <- M'; exact Hm ].
      * cbn [error_analysis_of ea_obs ea_train] in Hw. rewrite Hw. f_equal.
        pose proof (get2_s_val R NaN pt (proper_s_swf _ Pr) Hg) as G. rewrite <- Ev in G.
        rewrite E' in G. destruct (proper_new_spatial f m Pf W X Y) as (_ & Dm & _). rewrite Dm in G. congruence.
    + eapply first_least_le; eauto. eapply find_minimum_first; eauto.
    + eapply first_greatest_ge; eauto. eapply find_maximum_first; eauto.
    + destruct (fst ml) as [ q | ] eqn:Eq; cbn [value_at_opt] in Evl; [ | left; congruence ]. right. exists q.
      pose proof (proper_s_items NaN errors (proj1 Oe)) as Eie.
      pose proof (find_minimum_first _ _ _ Eie Eml) as Hml. unfold first_least in Hml. rewrite Eq in Hml. destruct Hml as (pre & post & Hl & _).
      assert (Hq : In (q, snd ml) (map (fun p => (p, s_val errors NaN p)) (filter (s_memb errors) (grid (s_x errors) (s_y errors))))).
      { rewrite Hl. apply in_or_app. right. left. reflexivity. }
      apply (in_s_items NaN errors) in Hq; [ | apply Oe | assumption ]. destruct Hq as (Hg & _ & _). destruct Oe as (_ & Xe & Ye & _). rewrite Xe, Ye in Hg.
      apply (over_value r R items q Or Ei Hg). exact Evl.
    + destruct centroid as [ c | ]; cbn [value_at_opt] in Evc; [ | congruence ]. apply (over_value r R items c Or Ei (Hc c eq_refl)). exact Evc.
Qed.

(** what the forecast region holds *)
Lemma forecast_region_series : forall d models len f items, proper_st (da_training d) -> proper_st (da_region d) ->
  t_x (da_training d) = t_x (da_region d) -> t_y (da_training d) = t_y (da_region d) -> t_memb (da_training d) = t_memb (da_region d) ->
  t_items (da_training d) = Ok items ->
  (forall pt s, In (pt, s) items -> exists c v, get2 models (fst pt) (snd pt) = Ok c /\ forecast_of_cell kind c len = Ok v /\ length v = len) ->
  forecast_region kind junk d models len = Ok f ->
  forall pt s, In (pt, s) items -> exists c v, get2 models (fst pt) (snd pt) = Ok c /\ forecast_of_cell kind c len = Ok v /\ series_at f pt = Ok v.
Proof.
  intros d models len f items Ht Hr Tx Ty Tm Ei Hm Ef pt s Hin.
  set (E := t_new_spatial (da_training d) (full2 (t_x (da_training d)) (t_y (da_training d)) junk)).
  destruct (over_new_spatial (da_training d) (full2 (t_x (da_training d)) (t_y (da_training d)) junk) Ht (wf2_full _ _ _) eq_refl eq_refl) as (Ps & Sx & Sy & Sm). fold E in Ps, Sx, Sy, Sm.
  unfold forecast_region in Ef. fold E in Ef.
  destruct (model_apply_to kind models E len) as [ f0 | ] eqn:E0; [ | discriminate ]. cbn [bind] in Ef. injection Ef as <-.
  pose proof E0 as E1. unfold model_apply_to in E0.
  assert (Sh : f_x (model_function (A := fnum) kind models len) = s_x E /\ f_y (model_function (A := fnum) kind models len) = s_y E).
  { unfold s_apply_series in E0. destruct (s_x E =? _) eqn:B1; [ | discriminate ]. cbn [py_assert bind] in E0. destruct (s_y E =? _) eqn:B2; [ | discriminate ].
    apply Nat.eqb_eq in B1, B2. auto. }
  set (g := fun (p : point) (_ : fnum) => match (c <- get2 models (fst p) (snd p) ;; forecast_of_cell kind c len) with Ok v => v | Raise _ => [] end).
  destruct (s_apply_series_spec (Fin 0) (model_function (A := fnum) kind models len) E g len NaN) as (m & E2 & W & T & X & Y & Q).
  - apply proper_s_swf; assumption.
  - apply proper_s_consistent; assumption.
  - apply Sh.
  - apply Sh.
  - intros q Hg Hq. rewrite Sx, Sy in Hg. rewrite Sm in Hq.
    destruct (Hm q (t_ser (da_training d) q)) as (c & v & H1 & H2 & H3); [ apply (in_items (da_training d)); auto | ].
    cbn [model_function f_at]. rewrite H1. cbn [bind]. eexists. split; [ reflexivity | ]. unfold g. rewrite H1. cbn [bind]. rewrite H2. auto.
  - rewrite E0 in E2. injection E2 as ->. destruct (Hm pt s Hin) as (c & v & H1 & H2 & H3). exists c, v. repeat split; auto.
    apply (in_items (da_training d)) in Hin; auto. destruct Hin as (Hg & Hmb & _).
    assert (Hg' : in_grid (s_x E) (s_y E) pt) by (rewrite Sx, Sy; exact Hg).
    specialize (Q pt Hg'). rewrite Sm, Hmb in Q. unfold g in Q. rewrite H1 in Q. cbn [bind] in Q. rewrite H2 in Q.
    destruct (proper_new_st E m Ps W X Y) as (Pf & Df & Mf).
    destruct (has_scaling (da_region d)).
    + rewrite Df. destruct (alike_new_st (da_region d) m Hr W) as (Pa & Xa & Ya & Ma); [ congruence .. | ].
      rewrite series_at_readable; [ rewrite t_data_new_st; exact Q | apply proper_twf; exact Pa | rewrite Xa, Ya, <- Tx, <- Ty; exact Hg | ].
      apply proper_consistent; auto; [ rewrite Xa, Ya, <- Tx, <- Ty; exact Hg | rewrite Ma, <- Tm; exact Hmb ].
    + assert (Hgf : in_grid (t_x (s_new_st E m)) (t_y (s_new_st E m)) pt) by (unfold t_x, t_y; rewrite Df, X, Y; exact Hg').
      rewrite series_at_readable; [ rewrite Df; exact Q | apply proper_twf; exact Pf | exact Hgf | ].
      apply proper_consistent; auto. rewrite Mf, Sm. exact Hmb.
Qed.
End Analysis.
