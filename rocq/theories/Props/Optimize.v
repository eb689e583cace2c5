(** Property C105: the best models by computing time and prediction error. *)
From Coq Require Import QArith Lqa ZifyBool ZifyNat.
From Verif Require Import Base.Py Base.Float Base.PyFacts Base.FloatFacts Model.Variance Model.Optimize Spec.Variance Spec.Optimize Proofs.VarianceFacts Proofs.OptimizeFacts.
Local Close Scope Q_scope.
Local Open Scope nat_scope.

(** the results of the measured models: a time and an error that are not negative *)
Definition measured_results (results : list (list fnum)) : Prop :=
  forall row, In row results -> exists t e, has_perf row t e /\ (0 <= t)%Q /\ (0 <= e)%Q.

(** the best models are the rows that no other row beats, each once and whole *)
Theorem C105_best_models pareto results : pareto_contract pareto -> measured_results results ->
  exists idx, find_best_models pareto results = Ok (map (fun i => nth i results []) idx) /\ NoDup idx /\
    forall i, In i idx <-> i < length results /\
      ~ exists j t e t' e', j < length results /\ has_perf (nth i results []) t e /\ has_perf (nth j results []) t' e' /\ beats t' e' t e.
Proof.
  intros HP HR. unfold find_best_models. rewrite ws_ok by exact HR. cbn [bind].
  destruct (HP (map wof results)) as [ND HI].
  { intros w Hw. apply in_map_iff in Hw. destruct Hw as (row & <- & Hr). destruct (good_pf row (HR row Hr)) as (_ & Ht & He). split; apply inv_not_nan; auto. }
  assert (LI : forall i, In i (pareto (map wof results)) -> i < length results).
  { intros i Hi. apply HI in Hi. destruct Hi as (w & Hw & _). rewrite <- (map_length wof). apply nth_error_Some. congruence. }
  exists (pareto (map wof results)). split; [|split; auto].
  - apply mapM_ok. intros i Hi. apply getitem_in. apply nth_error_nth'. auto.
  - intros i. rewrite HI. split.
    + intros (w & Hw & Nw). rewrite nth_error_map in Hw. destruct (nth_error results i) as [row|] eqn:Er; cbn in Hw; [|discriminate]. injection Hw as <-.
      assert (Hi : i < length results) by (apply nth_error_Some; congruence). split; auto.
      intros (j & t & e & t' & e' & Hj & P & P' & B). apply Nw. rewrite (nth_error_nth _ _ [] Er) in P.
      pose proof (good_pf row (HR row (nth_error_In _ _ Er))) as (_ & Gt & Ge). pose proof (good_pf _ (HR _ (nth_In results [] Hj))) as (_ & Gt' & Ge').
      rewrite (pf_perf _ _ _ P) in Gt, Ge. rewrite (pf_perf _ _ _ P') in Gt', Ge'. cbn [fst snd] in *.
      exists (wof (nth j results [])). split; [apply in_map, nth_In; auto|].
      unfold wof. rewrite (pf_perf _ _ _ P), (pf_perf _ _ _ P'). cbn [fst snd]. apply dominates_beats; auto.
    + intros [Hi N]. assert (Er := nth_error_nth' results [] Hi). exists (wof (nth i results [])). split; [rewrite nth_error_map, Er; auto|].
      intros (w' & Hw & D). apply in_map_iff in Hw. destruct Hw as (row' & <- & Hr'). apply N. apply (In_nth _ _ []) in Hr'. destruct Hr' as (j & Hj & <-).
      destruct (good_pf _ (HR _ (nth_In results [] Hi))) as (P & Gt & Ge). destruct (good_pf _ (HR _ (nth_In results [] Hj))) as (P' & Gt' & Ge').
      do 5 eexists. split; [exact Hj|]. split; [exact P|]. split; [exact P'|]. apply dominates_beats in D; auto.
Qed.

(** no model is left without one of the best models that is at least as fast and as exact *)
Theorem C105_nothing_missed pareto results best row t e : pareto_contract pareto -> measured_results results -> find_best_models pareto results = Ok best ->
  In row results -> has_perf row t e -> exists row' t' e', In row' best /\ has_perf row' t' e' /\ (t' <= t)%Q /\ (e' <= e)%Q.
Proof.
  intros HP HR E Hr P. destruct (C105_best_models pareto results HP HR) as (idx & E' & _ & HI). rewrite E' in E. injection E as <-.
  set (cand := filter (fun r => Qle_bool (fst (pf r)) t && Qle_bool (snd (pf r)) e) results).
  assert (HC : forall r, In r cand <-> In r results /\ (fst (pf r) <= t)%Q /\ (snd (pf r) <= e)%Q).
  { intros r. unfold cand. rewrite filter_In, andb_true_iff, !Qle_bool_iff. reflexivity. }
  destruct (ex_min (fun r => fst (pf r) + snd (pf r))%Q cand) as (r & Hc & M).
  { intros N. assert (In row cand) by (apply HC; rewrite (pf_perf _ _ _ P); cbn; repeat split; auto; lra). rewrite N in *. contradiction. }
  apply HC in Hc. destruct Hc as (Hin & Ht & He). destruct (good_pf r (HR r Hin)) as (Pr & _ & _).
  exists r, (fst (pf r)), (snd (pf r)). split; [|auto].
  apply (In_nth _ _ []) in Hin. destruct Hin as (i & Hi & <-). apply in_map_iff. exists i. split; auto. apply HI. split; auto.
  intros (j & t1 & e1 & t2 & e2 & Hj & P1 & P2 & (B1 & B2 & B3)). rewrite (pf_perf _ _ _ P1) in *. cbn [fst snd] in *.
  assert (Hjc : In (nth j results []) cand).
  { apply HC. rewrite (pf_perf _ _ _ P2). cbn [fst snd]. split; [apply nth_In; auto|]. split; lra. }
  specialize (M _ Hjc). rewrite (pf_perf _ _ _ P2) in M. cbn [fst snd] in M. destruct B3; lra.
Qed.

(** a negative value counts as worse than any positive value *)
Theorem C105_negative_values_refuted : exists results best, 
  (forall pareto, pareto_contract pareto -> find_best_models pareto results = Ok best) /\
  exists row t e row' t' e', In row results /\ has_perf row t e /\ ~ In row best /\ In row' best /\ has_perf row' t' e' /\ beats t e t' e'.
Proof.
  set (r1 := [Fin 1; Fin (-1)]%Q). set (r2 := [Fin 1; Fin 2]%Q).
  exists [r1; r2], [r2]. split.
  - intros pareto HP. unfold find_best_models.
    change (mapM (fun row => '(time, error) <- perf_pair row ;; Ok (fdiv (Fin 1) time, fdiv (Fin 1) error)) [r1; r2])
      with (Ok [(Fin (1 / 1), Fin (1 / (-1))); (Fin (1 / 1), Fin (1 / 2))]%Q). cbn [bind].
    set (ws := [(Fin (1 / 1), Fin (1 / (-1))); (Fin (1 / 1), Fin (1 / 2))]%Q).
    destruct (HP ws) as [ND HI]. { intros w [<-|[<-|[]]]; auto. }
    assert (I0 : ~ In 0 (pareto ws)).
    { intros H. apply HI in H. destruct H as (w & Hw & N). cbn in Hw. injection Hw as <-. apply N. exists (Fin (1 / 1), Fin (1 / 2))%Q.
      split; [right; left; auto|]. repeat split; try reflexivity. right. reflexivity. }
    assert (I1 : In 1 (pareto ws)).
    { apply HI. eexists. split; [reflexivity|]. intros (w' & [<-|[<-|[]]] & (D1 & D2 & [D|D])); discriminate. }
    assert (I2 : forall i, In i (pareto ws) -> i = 1).
    { intros i H. assert (H' := H). apply HI in H'. destruct H' as (w & Hw & _). destruct i as [|[|i]]; auto; [contradiction|]. destruct i; discriminate. }
    assert (EP : pareto ws = [1]).
    { destruct (pareto ws) as [|a l]; [destruct I1|]. rewrite (I2 a (or_introl eq_refl)) in *. f_equal. destruct l as [|b l]; auto.
      inversion ND; subst. exfalso. apply H1. left. apply I2. right; left; auto. }
    rewrite EP. reflexivity.
  - exists r1, 1%Q, (-1)%Q, r2, 1%Q, 2%Q. split; [left; auto|]. split; [exists []; auto|]. split; [intros [H|[]]; discriminate|].
    split; [left; auto|]. split; [exists []; auto|]. unfold beats. split; [lra|]. split; [lra|]. right; lra.
Qed.

(** the sweep over ten weights: the cost of each model is alpha * time + beta * error, between 0 and 1, and the best models are
    those of least cost *)
Theorem C105_sweep optimal : measured_results optimal ->
  (exists row t e, In row optimal /\ has_perf row t e /\ (0 < t)%Q) -> (exists row t e, In row optimal /\ has_perf row t e /\ (0 < e)%Q) ->
  exists l, sweep_cost_factors optimal = Ok l /\ length l = 10 /\
    forall step sw, nth_error l step = Some sw -> exists a b, s_alpha sw = Fin a /\ s_beta sw = Fin b /\ (0 <= a)%Q /\ (0 < b)%Q /\
      s_best sw <> [] /\
      (forall i row t e, nth_error optimal i = Some row -> has_perf row t e ->
         exists c, nth_error (s_costs sw) i = Some (Fin c) /\ (c == a * t + b * e)%Q /\ (0 <= c <= 1)%Q) /\
      (forall row t e, In row optimal -> has_perf row t e ->
         (In row (s_best sw) <-> forall row' t' e', In row' optimal -> has_perf row' t' e' -> (a * t + b * e <= a * t' + b * e')%Q)).
Proof.
  intros HR (r1 & t1 & e1 & H1 & P1 & L1) (r2 & t2 & e2 & H2 & P2 & L2).
  assert (NE : optimal <> []) by (destruct optimal; [destruct H1|discriminate]).
  unfold sweep_cost_factors. rewrite (mapM_ok _ (fun row => (Fin (fst (pf row)), Fin (snd (pf row))))).
  2:{ intros row Hr. destruct (good_pf row (HR row Hr)) as (P & _). apply perf_pair_ok in P. auto. }
  cbn [bind]. unfold scale_perf_values. rewrite !map_map. cbn [fst snd].
  destruct (np_max_ok (map (fun row => Fin (fst (pf row))) optimal)) as (mt & Emt & Gt1 & _ & Gt3); [destruct optimal; cbn; congruence|].
  destruct (np_max_ok (map (fun row => Fin (snd (pf row))) optimal)) as (me & Eme & Ge1 & _ & Ge3); [destruct optimal; cbn; congruence|].
  rewrite Emt, Eme. cbn [bind].
  apply in_map_iff in Gt1. destruct Gt1 as (rt & <- & Hrt). apply in_map_iff in Ge1. destruct Ge1 as (re & <- & Hre).
  set (mt := fst (pf rt)) in *. set (me := snd (pf re)) in *.
  assert (MT : forall row, In row optimal -> (fst (pf row) <= mt)%Q).
  { intros row Hr. apply fle_Fin. apply Gt3; [|apply (in_map (fun row => Fin (fst (pf row)))); auto]. intros v Hv. apply in_map_iff in Hv. destruct Hv as (? & <- & _). auto. }
  assert (ME : forall row, In row optimal -> (snd (pf row) <= me)%Q).
  { intros row Hr. apply fle_Fin. apply Ge3; [|apply (in_map (fun row => Fin (snd (pf row)))); auto]. intros v Hv. apply in_map_iff in Hv. destruct Hv as (? & <- & _). auto. }
  assert (Pt : (0 < mt)%Q). { specialize (MT r1 H1). rewrite (pf_perf _ _ _ P1) in MT. cbn in MT. lra. }
  assert (Pe : (0 < me)%Q). { specialize (ME r2 H2). rewrite (pf_perf _ _ _ P2) in ME. cbn in ME. lra. }
  assert (Zt : Qeq_bool mt 0 = false). { destruct (Qeq_bool mt 0) eqn:Z; auto. apply Qeq_bool_iff in Z. lra. }
  assert (Ze : Qeq_bool me 0 = false). { destruct (Qeq_bool me 0) eqn:Z; auto. apply Qeq_bool_iff in Z. lra. }
  set (g := fun step : nat => (inject_Z (Z.of_nat step) / 10)%Q).
  set (cq := fun step row => (g step * (fst (pf row) / mt) + (1 + - g step) * (snd (pf row) / me))%Q).
  set (sw := fun step => Sweep (Fin (g step / mt)) (Fin ((1 + - g step) / me)) (map (fun row => Fin (cq step row)) optimal)
    (map fst (filter (fun p => feqb (snd p) (match np_argmin (map (fun row => Fin (cq step row)) optimal) with Ok k => nth k (map (fun row => Fin (cq step row)) optimal) NaN | Raise _ => NaN end)) (combine optimal (map (fun row => Fin (cq step row)) optimal))))
    (nth (length optimal - 1) (map (fun row => Fin (cq step row)) optimal) NaN)).
  assert (Step : forall step, sweep_step optimal (map (fun row => (fdiv (Fin (fst (pf row))) (Fin mt), fdiv (Fin (snd (pf row))) (Fin me))) optimal) (Fin mt, Fin me) step = Ok (sw step)).
  { intros step. unfold sweep_step. cbn [fst snd]. rewrite map_map. cbn [fst snd].
    rewrite (map_ext _ (fun row => Fin (cq step row))).
    2:{ intros row. unfold fdiv. rewrite Zt, Ze. reflexivity. }
    set (cs := map (fun row => Fin (cq step row)) optimal).
    assert (Nc : cs <> []) by (unfold cs; destruct optimal; cbn; congruence).
    destruct (np_argmin_ok cs Nc) as [k Ek]. pose proof (np_argmin_lt _ _ Ek) as Lk.
    unfold sw. fold cs. rewrite Ek. cbn [bind]. rewrite (getitem_in cs k (nth k cs NaN)) by (apply nth_error_nth'; auto). cbn [bind].
    assert (Ll : length cs = length optimal) by (unfold cs; apply map_length).
    assert (El : getitem cs (-1) = Ok (nth (length optimal - 1) cs NaN)).
    { unfold getitem, norm_index. destruct cs as [|c cs']; [congruence|]. set (cs := c :: cs') in *.
      replace ((0 <=? -1) && (-1 <? Z.of_nat (length cs)))%Z with false by lia.
      assert (1 <= length cs) by (unfold cs; cbn; lia).
      replace ((- Z.of_nat (length cs) <=? -1) && (-1 <? 0))%Z with true by lia.
      replace (Z.to_nat (-1 + Z.of_nat (length cs))) with (length optimal - 1) by lia.
      rewrite (nth_error_nth' cs NaN) by lia. reflexivity. }
    rewrite El. cbn [bind fdiv]. rewrite Zt. unfold fsub, fopp, fadd at 1. cbn [fdiv]. rewrite Ze. reflexivity. }
  rewrite (mapM_ok _ sw) by (intros; rewrite map_map; apply Step). eexists. split; [reflexivity|]. split; [reflexivity|].
  intros step s Hs.
  assert (Hst : step < 10). { rewrite <- (seq_length 10 0), <- (map_length sw). apply nth_error_Some. congruence. }
  assert (s = sw step).
  { rewrite (map_nth_error sw step (seq 0 10) (d := step)) in Hs; [congruence|]. rewrite (nth_error_nth' _ 0) by (rewrite seq_length; auto). rewrite seq_nth by auto. auto. }
  subst s. clear Hs.
  assert (G : (0 <= g step /\ g step < 1)%Q).
  { unfold g. split; [apply Qle_shift_div_l; [reflexivity|]|apply Qlt_shift_div_r; [reflexivity|]].
    - rewrite Qmult_0_l. change 0%Q with (inject_Z 0). rewrite <- Zle_Qle. lia.
    - rewrite Qmult_1_l. change 10%Q with (inject_Z 10). rewrite <- Zlt_Qlt. lia. }
  exists (g step / mt)%Q, ((1 + - g step) / me)%Q. split; [reflexivity|]. split; [reflexivity|].
  assert (A0 : (0 <= g step / mt)%Q) by (apply Qle_shift_div_l; auto; lra). assert (B0 : (0 < (1 + - g step) / me)%Q) by (apply Qlt_shift_div_l; auto; lra).
  split; auto. split; auto.
  assert (CQ : forall row t e, has_perf row t e -> (cq step row == (g step / mt) * t + ((1 + - g step) / me) * e)%Q).
  { intros row t e P. unfold cq. rewrite (pf_perf _ _ _ P). cbn [fst snd]. field. split; lra. }
  set (cs := map (fun row => Fin (cq step row)) optimal).
  assert (Nc : cs <> []) by (unfold cs; destruct optimal; cbn; congruence).
  destruct (np_argmin_ok cs Nc) as [k Ek]. 
  destruct (np_argmin_spec cs k) as (m & Em & M); auto. { intros x Hx. unfold cs in Hx. apply in_map_iff in Hx. destruct Hx as (? & <- & _). auto. }
  assert (Em' := Em). unfold cs in Em'. rewrite nth_error_map in Em'. destruct (nth_error optimal k) as [rk|] eqn:Erk; cbn in Em'; [|discriminate]. injection Em' as <-.
  assert (LB : forall row, In row optimal -> (cq step rk <= cq step row)%Q).
  { intros row Hr. apply In_nth_error in Hr. destruct Hr as [n Hn]. destruct (M n (Fin (cq step row))) as [H _]; [unfold cs; rewrite nth_error_map, Hn; auto|].
    apply fle_Fin in H. auto. }
  assert (HB : forall row, In row (s_best (sw step)) <-> In row optimal /\ (cq step row == cq step rk)%Q).
  { intros row. unfold sw. cbn [s_best]. fold cs. rewrite Ek, (nth_error_nth _ _ NaN Em).
    rewrite in_map_iff. split.
    - intros ([r c] & <- & Hin). apply filter_In in Hin. destruct Hin as [Hin Hf]. cbn [fst snd] in *. apply In_nth_error in Hin. destruct Hin as [n Hn].
      unfold cs in Hn.
      assert (Hrc : nth_error optimal n = Some r /\ c = Fin (cq step r)).
      { clear -Hn. revert n Hn. induction optimal as [|x l IH]; intros [|n] Hn; cbn in *; try discriminate; auto. injection Hn as <- <-. auto. }
      destruct Hrc as [Hr ->]. split; [eapply nth_error_In; eauto|]. cbn in Hf. apply Qeq_bool_iff in Hf. auto.
    - intros [Hr Heq]. exists (row, Fin (cq step row)). split; auto. apply filter_In. split.
      + unfold cs. clear -Hr. induction optimal as [|x l IH]; [destruct Hr|]. destruct Hr as [<-|Hr]; [left; auto|right; auto].
      + cbn. apply Qeq_bool_iff. auto. }
  split; [|split].
  - intros N. assert (In rk (s_best (sw step))). { apply HB. split; [eapply nth_error_In; eauto|reflexivity]. } rewrite N in *. contradiction.
  - intros i row t e Hi P. exists (cq step row). split; [unfold sw; cbn [s_costs]; rewrite nth_error_map, Hi; auto|]. split; [apply CQ; auto|].
    assert (Hr := nth_error_In _ _ Hi). specialize (MT row Hr). specialize (ME row Hr). destruct (good_pf row (HR row Hr)) as (_ & Gt & Ge).
    assert (Ut : (0 <= fst (pf row) / mt <= 1)%Q) by (split; [apply Qle_shift_div_l; auto; lra|apply Qle_shift_div_r; auto; lra]).
    assert (Ue : (0 <= snd (pf row) / me <= 1)%Q) by (split; [apply Qle_shift_div_l; auto; lra|apply Qle_shift_div_r; auto; lra]).
    unfold cq. generalize dependent (fst (pf row) / mt)%Q. generalize dependent (snd (pf row) / me)%Q. intros u Hu v Hv.
    assert (0 <= g step * v)%Q by (apply Qmult_le_0_compat; lra). assert (0 <= (1 + - g step) * u)%Q by (apply Qmult_le_0_compat; lra).
    assert (0 <= g step * (1 - v))%Q by (apply Qmult_le_0_compat; lra). assert (0 <= (1 + - g step) * (1 - u))%Q by (apply Qmult_le_0_compat; lra).
    split; lra.
  - intros row t e Hr P. rewrite HB. split.
    + intros [_ Heq] row' t' e' Hr' P'. rewrite <- (CQ _ _ _ P), <- (CQ _ _ _ P'), Heq. auto.
    + intros H. split; auto. assert (Hk := nth_error_In _ _ Erk). destruct (good_pf rk (HR rk Hk)) as (Pk & _). specialize (H rk _ _ Hk Pk).
      rewrite <- (CQ _ _ _ P), <- (CQ _ _ _ Pk) in H. specialize (LB row Hr). lra.
Qed.

(** a best model of the sweep over the selected models is a best model among all the models for the same alpha and beta *)
Theorem C105_best_of_all pareto results optimal l sw row t e : pareto_contract pareto -> measured_results results ->
  find_best_models pareto results = Ok optimal ->
  (exists row t e, In row optimal /\ has_perf row t e /\ (0 < t)%Q) -> (exists row t e, In row optimal /\ has_perf row t e /\ (0 < e)%Q) ->
  sweep_cost_factors optimal = Ok l -> In sw l -> In row (s_best sw) -> has_perf row t e ->
  exists a b, s_alpha sw = Fin a /\ s_beta sw = Fin b /\
    forall row' t' e', In row' results -> has_perf row' t' e' -> (a * t + b * e <= a * t' + b * e')%Q.
Proof.
  intros HP HR E Ht He Es Hsw Hb P.
  destruct (C105_best_models pareto results HP HR) as (idx & E' & _ & HI).
  assert (HR' : measured_results optimal).
  { rewrite E' in E. injection E as <-. intros r Hr. apply in_map_iff in Hr. destruct Hr as (i & <- & Hi). apply HR, nth_In, HI. auto. }
  destruct (C105_sweep optimal HR' Ht He) as (l' & El & _ & S). rewrite El in Es. injection Es as ->.
  apply In_nth_error in Hsw. destruct Hsw as [step Hs]. destruct (S step sw Hs) as (a & b & Ea & Eb & A0 & B0 & _ & HC & HB). exists a, b. split; auto. split; auto.
  intros row' t' e' Hr' P'. destruct (C105_nothing_missed pareto results optimal row' t' e' HP HR E Hr' P') as (r & tr & er & Hr & Pr & L1 & L2).
  assert (Hin : In row optimal).
  { assert (SB : incl (s_best sw) optimal).
    { unfold sweep_cost_factors in El. destruct (mapM perf_pair optimal); [|discriminate]. cbn [bind] in El. destruct (scale_perf_values a0) as [[sc fs]|]; [|discriminate]. cbn [bind] in El.
      destruct (nth_error (seq 0 10) step) as [n|] eqn:En.
      - destruct (mapM_nth _ _ _ El step n En) as (y & Ey & Ny). assert (y = sw) by congruence. subst y. unfold sweep_step in Ey.
        destruct (np_argmin _); [|discriminate]. cbn [bind] in Ey. destruct (getitem _ (Z.of_nat a1)); [|discriminate]. cbn [bind] in Ey. destruct (getitem _ (-1)); [|discriminate]. cbn [bind] in Ey.
        injection Ey as <-. cbn [s_best]. intros x Hx. apply in_map_iff in Hx. destruct Hx as ([x' c] & <- & Hx). apply filter_In in Hx. destruct Hx as [Hx _]. eapply in_combine_l; eauto.
      - apply nth_error_None in En. rewrite <- (mapM_length _ _ _ El) in En. apply nth_error_None in En. congruence. }
    apply SB. auto. }
  apply (HB row t e Hin P) with (row' := r) (t' := tr) (e' := er) in Hb; auto.
  assert (a * tr <= a * t')%Q. { rewrite !(Qmult_comm a). apply Qmult_le_compat_r; auto. }
  assert (b * er <= b * e')%Q. { rewrite !(Qmult_comm b). apply Qmult_le_compat_r; auto. lra. }
  lra.
Qed.

(** no models: the maximum of nothing *)
Theorem C105_no_models : sweep_cost_factors [] = Raise ValueError.
Proof. reflexivity. Qed.

(** three models: (1, 4), (2, 2) and (4, 3); the last is beaten by the second *)
Definition rows3 : list (list fnum) := [[Fin 5; Fin 1; Fin 4]; [Fin 6; Fin 2; Fin 2]; [Fin 7; Fin 4; Fin 3]]%Q.
Definition pareto_filter (ws : list (fnum * fnum)) : list nat :=
  let domb a b := fle (fst b) (fst a) && fle (snd b) (snd a) && (flt (fst b) (fst a) || flt (snd b) (snd a)) in
  filter (fun i => negb (existsb (fun w' => domb w' (nth i ws (NaN, NaN))) ws)) (seq 0 (length ws)).
Example pareto_filter_contract : pareto_contract pareto_filter.
Proof.
  intros ws _. split; [apply NoDup_filter, seq_NoDup|]. intros i. unfold pareto_filter. rewrite filter_In, in_seq.
  assert (D : forall a b, fle (fst b) (fst a) && fle (snd b) (snd a) && (flt (fst b) (fst a) || flt (snd b) (snd a)) = true <-> dominates a b).
  { intros a b. unfold dominates. rewrite !andb_true_iff, orb_true_iff. tauto. }
  split.
  - intros [[_ Hi] N]. cbn in Hi. exists (nth i ws (NaN, NaN)). split; [apply nth_error_nth'; auto|]. intros (w' & Hw & Hd). apply negb_true_iff in N.
    apply D in Hd. assert (X : existsb (fun w' => fle (fst (nth i ws (NaN, NaN))) (fst w') && fle (snd (nth i ws (NaN, NaN))) (snd w') && (flt (fst (nth i ws (NaN, NaN))) (fst w') || flt (snd (nth i ws (NaN, NaN))) (snd w'))) ws = true) by (apply existsb_exists; eauto).
    rewrite X in N. discriminate.
  - intros (w & Hw & N). assert (i < length ws) by (apply nth_error_Some; congruence). split; [lia|]. apply negb_true_iff. rewrite (nth_error_nth _ _ _ Hw).
    destruct (existsb _ ws) eqn:X; auto. apply existsb_exists in X. destruct X as (w' & Hw' & Hd). apply D in Hd. exfalso. apply N. eauto.
Qed.
Example C105_example : measured_results rows3 /\
  find_best_models pareto_filter rows3 = Ok [[Fin 5; Fin 1; Fin 4]; [Fin 6; Fin 2; Fin 2]]%Q.
Proof.
  split; [|vm_compute; reflexivity].
  intros row [<-|[<-|[<-|[]]]].
  - exists 1%Q, 4%Q. split; [exists [Fin 5]; auto|]. lra.
  - exists 2%Q, 2%Q. split; [exists [Fin 6]; auto|]. lra.
  - exists 4%Q, 3%Q. split; [exists [Fin 7]; auto|]. lra.
Qed.

(** the cost logged for the best model is the cost of the last model *)
Theorem C105_logged_cost_refuted : exists optimal l sw c, measured_results optimal /\ sweep_cost_factors optimal = Ok l /\ In sw l /\
  In c (s_costs sw) /\ flt c (s_best_cost sw) = true.
Proof.
  exists [[Fin 2; Fin 2]; [Fin 1; Fin 4]]%Q. eexists. eexists. eexists. split.
  { intros row [<-|[<-|[]]]; [exists 2%Q, 2%Q|exists 1%Q, 4%Q]; (split; [exists []; auto|lra]). }
  split; [vm_compute; reflexivity|]. split; [left; reflexivity|]. cbn [s_costs s_best_cost]. split; [left; reflexivity|]. vm_compute. reflexivity.
Qed.

Print Assumptions C105_best_models.
Print Assumptions C105_nothing_missed.
Print Assumptions C105_negative_values_refuted.
Print Assumptions C105_sweep.
Print Assumptions C105_best_of_all.
Print Assumptions C105_no_models.
Print Assumptions C105_logged_cost_refuted.
