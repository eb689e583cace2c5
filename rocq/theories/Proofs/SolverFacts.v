(** Training and prediction of the solver. *)
From Coq Require Import String Lia.
From Verif Require Import Base.Py Base.PyFacts Base.Arr Base.ArrFacts Base.Float Model.Region Model.Scaling Model.Series Model.Errors Model.Models
  Model.Solver Spec.Grid Spec.Rect Spec.Partition Spec.Regions Spec.Solver Proofs.RegionFacts Proofs.PartitionFacts Proofs.ProperFacts
  Proofs.SubsetFacts Proofs.ScalingFacts Proofs.SeriesFacts Proofs.ModelFacts.
From Coq Require Import ZifyBool ZifyNat.
Local Notation length := List.length.

Lemma foldM_each : forall {A S} (f : S -> A -> res S) l s s', foldM f l s = Ok s' -> forall x, In x l -> exists a b, f a x = Ok b.
Proof.
  intros A S f l. induction l as [ | y l IH ]; intros s s' H x []; cbn [foldM] in H.
  - subst. destruct (f s x) eqn:E; [ eauto | discriminate ].
  - destruct (f s y); [ | discriminate ]. eapply IH; eauto.
Qed.

(** what applying a series function shows about each point *)
Lemma s_apply_series_inv : forall {A B} (zero : B) (f : fregion A (list B)) (d : arr2 A) len R,
  wf2 d -> s_apply_series zero f (SPlain d) len = Ok R ->
  f_x f = a2x d /\ f_y f = a2y d /\
  forall pt, in_grid (a2x d) (a2y d) pt -> exists v fn w, get2 d (fst pt) (snd pt) = Ok v /\ f_at f pt = Ok fn /\ fn v = Ok w.
Proof.
  intros A B zero f d len R W H. unfold s_apply_series in H. unfold s_x, s_y in H. cbn [s_data] in H.
  destruct (a2x d =? f_x f) eqn:E1; [ | discriminate ]. cbn [py_assert bind] in H.
  destruct (a2y d =? f_y f) eqn:E2; [ | discriminate ]. cbn [py_assert bind] in H. apply Nat.eqb_eq in E1, E2.
  split; [ auto | split; [ auto | ] ]. intros pt Hg.
  destruct (get2_ok d (fst pt) (snd pt) W (proj1 Hg) (proj2 Hg)) as (v & Ev & _).
  rewrite (proper_s_items v) in H by (constructor; assumption). cbn [bind] in H.
  destruct (foldM (apply_series_step f) _ _) as [ out | ] eqn:F; [ | discriminate ].
  destruct (foldM_each _ _ _ _ F (pt, s_val (SPlain d) v pt)) as (a & b & E).
  { apply in_map_iff. exists pt. split; [ reflexivity | ]. apply filter_In. split; [ apply in_grid_iff; exact Hg | reflexivity ]. }
  pose proof (get2_s_val (SPlain d) v pt W Hg) as G. cbn [s_data] in G. rewrite G in Ev. injection Ev as Ev.
  exists (s_val (SPlain d) v pt). cbn [apply_series_step] in E. destruct (f_at f pt) as [ fn | ] eqn:Ef; [ | discriminate ]. cbn [bind] in E.
  destruct (fn (s_val (SPlain d) v pt)) as [ w | ] eqn:Ew; [ | discriminate ]. exists fn, w. auto.
Qed.

Lemma t_apply_series_inv : forall {A} (zero : A) (f : fregion (list A) (list A)) (r : stregion A) len R,
  proper_st r -> unclustered r = true -> t_apply_series zero f r len = Ok R ->
  f_x f = t_x r /\ f_y f = t_y r /\
  forall pt, in_grid (t_x r) (t_y r) pt -> exists fn w, f_at f pt = Ok fn /\ fn (t_ser r pt) = Ok w.
Proof.
  intros A zero f r len R Hr Hu H. unfold t_apply_series in H.
  destruct (t_x r =? f_x f) eqn:E1; [ | discriminate ]. cbn [py_assert bind] in H.
  destruct (t_y r =? f_y f) eqn:E2; [ | discriminate ]. cbn [py_assert bind] in H. apply Nat.eqb_eq in E1, E2.
  split; [ auto | split; [ auto | ] ]. intros pt Hg.
  rewrite proper_items in H by assumption. cbn [bind] in H.
  destruct (foldM (apply_series_step f) _ _) as [ out | ] eqn:F; [ | discriminate ].
  destruct (foldM_each _ _ _ _ F (pt, t_ser r pt)) as (a & b & E).
  { apply in_map_iff. exists pt. split; [ reflexivity | ]. apply filter_In. split; [ apply in_grid_iff; exact Hg | ].
    clear - Hu. induction r as [ d | r IH p c | r IH mn mx ]; cbn in *; auto; discriminate. }
  cbn [apply_series_step] in E. destruct (f_at f pt) as [ fn | ] eqn:Ef; [ | discriminate ]. cbn [bind] in E.
  destruct (fn (t_ser r pt)) as [ w | ] eqn:Ew; [ | discriminate ]. exists fn, w. auto.
Qed.

(* ---------- regions as the solver gets them ---------- *)
Lemma q_data : forall d sc, t_data (qregion d sc) = d.
Proof. intros d [ [ mn mx ] | ]; reflexivity. Qed.
Lemma q_x : forall d sc, t_x (qregion d sc) = a3x d.
Proof. intros. unfold t_x. rewrite q_data. reflexivity. Qed.
Lemma q_y : forall d sc, t_y (qregion d sc) = a3y d.
Proof. intros. unfold t_y. rewrite q_data. reflexivity. Qed.
Lemma q_len : forall d sc, t_len (qregion d sc) = a3t d.
Proof. intros. unfold t_len. rewrite q_data. reflexivity. Qed.
Lemma q_unclustered : forall d sc, unclustered (qregion d sc) = true.
Proof. intros d [ [ mn mx ] | ]; reflexivity. Qed.
Lemma q_memb : forall d sc pt, t_memb (qregion d sc) pt = true.
Proof. intros d [ [ mn mx ] | ] pt; reflexivity. Qed.
Lemma q_new_st : forall d sc m, t_new_st (qregion d sc) m = qregion m sc.
Proof. intros d [ [ mn mx ] | ] m; reflexivity. Qed.
Lemma q_scaling : forall d sc, has_scaling (qregion d sc) = match sc with None => false | Some _ => true end.
Proof. intros d [ [ mn mx ] | ]; reflexivity. Qed.
Lemma q_series_at : forall d sc pt, series_at (qregion d sc) pt = series3 d (fst pt) (snd pt).
Proof. intros d [ [ mn mx ] | ] pt; reflexivity. Qed.
Lemma q_new_spatial : forall {B} d sc (m : arr2 B), t_new_spatial (qregion d sc) m = SPlain m.
Proof. intros B d [ [ mn mx ] | ] m; reflexivity. Qed.

Lemma q_proper : forall d sc, qwf d sc -> proper_st (qregion d sc).
Proof.
  intros d [ [ mn mx ] | ] [ W H ]; cbn; [ | constructor; assumption ].
  destruct H as (W1 & X1 & Y1 & W2 & X2 & Y2). constructor; try (constructor; assumption); unfold s_x, s_y, t_x, t_y; cbn; assumption.
Qed.
Lemma q_again : forall d sc m, qwf d sc -> wf3 m -> a3x m = a3x d -> a3y m = a3y d -> qwf m sc.
Proof.
  intros d [ [ mn mx ] | ] m [ W H ] Wm X Y; split; auto. rewrite X, Y. exact H.
Qed.
Lemma q_ser : forall d sc pt s, series3 d (fst pt) (snd pt) = Ok s -> t_ser (qregion d sc) pt = s.
Proof. intros d sc pt s H. unfold t_ser. rewrite q_data, H. reflexivity. Qed.
Lemma q_items_in : forall d sc items pt s, qwf d sc -> t_items (qregion d sc) = Ok items ->
  in_grid (a3x d) (a3y d) pt -> series3 d (fst pt) (snd pt) = Ok s -> In (pt, s) items.
Proof.
  intros d sc items pt s H E Hg Es. apply (in_items (qregion d sc)); auto using q_proper. rewrite q_x, q_y, q_memb.
  split; [ exact Hg | split; [ reflexivity | ] ]. symmetry. apply q_ser. exact Es.
Qed.
Lemma ser_ok : forall (d : arr3 fnum) pt, wf3 d -> in_grid (a3x d) (a3y d) pt -> exists s, series3 d (fst pt) (snd pt) = Ok s /\ length s = a3t d.
Proof. intros d pt W [ H1 H2 ]. destruct (series3_ok d (fst pt) (snd pt) W H1 H2) as (s & E & L & _). eauto. Qed.

Lemma q_interval : forall d sc ti, interval_subset (qregion d sc) ti = qregion (slice3 d (Some (t1 ti, t2 ti)) None None) sc.
Proof. intros d sc ti. rewrite interval_subset_eq, q_data, q_new_st. reflexivity. Qed.

Lemma q_split : forall d sc n, qwf d sc -> n <= a3t d ->
  exists d1 d2, split_training_and_test_last (Z.of_nat n) (qregion d sc) = (qregion d1 sc, qregion d2 sc) /\
    qwf d1 sc /\ qwf d2 sc /\ a3t d1 = a3t d - n /\ a3t d2 = n /\
    a3x d1 = a3x d /\ a3y d1 = a3y d /\ a3x d2 = a3x d /\ a3y d2 = a3y d /\
    forall pt s, in_grid (a3x d) (a3y d) pt -> series3 d (fst pt) (snd pt) = Ok s ->
      series3 d1 (fst pt) (snd pt) = Ok (firstn (length s - n) s) /\ series3 d2 (fst pt) (snd pt) = Ok (skipn (length s - n) s).
Proof.
  intros d sc n Hq Hn. unfold split_training_and_test_last. rewrite !q_interval, q_len. cbn [t1 t2].
  pose proof (proj1 Hq) as W. set (L := (Z.of_nat (a3t d) - Z.of_nat n)%Z).
  do 2 eexists. split; [ reflexivity | ].
  assert (S1 : sok (a3t d) (Some (0%Z, L))) by (cbn; unfold L; lia).
  assert (S2 : sok (a3t d) (Some (L, Z.of_nat (a3t d)))) by (cbn; unfold L; lia).
  assert (S3 : sok (a3x d) None) by (cbn; auto). assert (S4 : sok (a3y d) None) by (cbn; auto).
  destruct (slice3_spec _ _ None None W S1 S3 S4) as (W1 & T1 & X1 & Y1 & _).
  destruct (slice3_spec _ _ None None W S2 S3 S4) as (W2 & T2 & X2 & Y2 & _).
  cbn [srng fst snd] in *. rewrite Nat.sub_0_r in X1, Y1, X2, Y2.
  split; [ eapply q_again; eauto | ]. split; [ eapply q_again; eauto | ].
  split; [ rewrite T1; unfold L; lia | ]. split; [ rewrite T2; unfold L; lia | ]. do 4 (split; [ assumption | ]).
  intros pt s Hg Es. destruct (ser_ok d pt W Hg) as (s' & Es' & Ls). assert (s' = s) by congruence. subst s'.
  rewrite (slice_time_series _ _ _ pt s W) by (auto; unfold L; lia). rewrite (slice_time_series _ _ _ pt s W) by (auto; unfold L; lia).
  rewrite Ls. split; f_equal.
  - cbn [Z.to_nat skipn]. f_equal. unfold L. lia.
  - rewrite firstn_all2; [ f_equal; unfold L; lia | rewrite skipn_length; lia ].
Qed.

(** removing the scaling *)
Lemma q_descale : forall d sc, qwf d sc ->
  exists R m, (if has_scaling (qregion d sc) then descale (qregion d sc) else Ok (qregion d sc)) = Ok R /\ R = TPlain m /\
    wf3 m /\ a3t m = a3t d /\ a3x m = a3x d /\ a3y m = a3y d /\
    forall pt s, in_grid (a3x d) (a3y d) pt -> series3 d (fst pt) (snd pt) = Ok s ->
      exists t, series3 m (fst pt) (snd pt) = Ok t /\ shown sc pt s t /\ length t = length s.
Proof.
  intros d sc Hq. pose proof (q_proper d sc Hq) as Hp. rewrite q_scaling. destruct sc as [ [ mn mx ] | ]; cbn [qregion].
  - destruct Hq as [ W (W1 & X1 & Y1 & W2 & X2 & Y2) ].
    destruct (descale_scaled_spec (TPlain d) (SPlain mn) (SPlain mx) (s_val (SPlain mn) NaN) (s_val (SPlain mx) NaN)) as (m & E & Wm & T & X & Y & S).
    + exact W.
    + apply t_plain_consistent.
    + intros pt Hg _. unfold t_x, t_y in Hg. cbn [t_data value_at] in *. split.
      * apply (get2_s_val (SPlain mn) NaN pt W1). unfold s_x, s_y. cbn [s_data]. rewrite X1, Y1. exact Hg.
      * apply (get2_s_val (SPlain mx) NaN pt W2). unfold s_x, s_y. cbn [s_data]. rewrite X2, Y2. exact Hg.
    + unfold t_len, t_x, t_y in *. cbn [t_data t_new_st] in *. exists (TPlain m), m. do 6 (split; [ auto | ]).
      intros pt s Hg Es. specialize (S pt Hg). cbn [t_memb] in S.
      pose proof (q_ser d None pt s Es) as Es'. cbn [qregion] in Es'. rewrite Es' in S.
      eexists. split; [ exact S | ]. split; [ | unfold descale_series; apply map_length ].
      exists (s_val (SPlain mn) NaN pt), (s_val (SPlain mx) NaN pt). split; [ | split; [ | reflexivity ] ].
      * apply (get2_s_val (SPlain mn) NaN pt W1). unfold s_x, s_y. cbn [s_data]. rewrite X1, Y1. exact Hg.
      * apply (get2_s_val (SPlain mx) NaN pt W2). unfold s_x, s_y. cbn [s_data]. rewrite X2, Y2. exact Hg.
  - destruct Hq as [ W _ ]. exists (TPlain d), d. do 6 (split; [ auto | ]). intros pt s Hg Es. exists s. cbn [shown]. auto.
Qed.
Lemma q_descale_scaled : forall d mn mx, qwf d (Some (mn, mx)) ->
  exists m, descale (qregion d (Some (mn, mx))) = Ok (TPlain m) /\
    wf3 m /\ a3t m = a3t d /\ a3x m = a3x d /\ a3y m = a3y d /\
    forall pt s, in_grid (a3x d) (a3y d) pt -> series3 d (fst pt) (snd pt) = Ok s ->
      exists t, series3 m (fst pt) (snd pt) = Ok t /\ shown (Some (mn, mx)) pt s t /\ length t = length s.
Proof.
  intros d mn mx Hq. destruct (q_descale _ _ Hq) as (R & m & E & -> & H). cbn [has_scaling qregion] in E. exists m. split; [ exact E | exact H ].
Qed.

(** the part of a region inside a rectangle *)
Definition slice_sc (sc : option (arr2 fnum * arr2 fnum)) (g : rect) : option (arr2 fnum * arr2 fnum) :=
  match sc with None => None | Some (mn, mx) => Some (slice2 mn (x1 g) (x2 g) (y1 g) (y2 g), slice2 mx (x1 g) (x2 g) (y1 g) (y2 g)) end.

Lemma slice2_get : forall {A} (a : arr2 A) g pt, wf2 a -> rect_in g (a2x a) (a2y a) ->
  in_grid (Z.to_nat (x2 g - x1 g)) (Z.to_nat (y2 g - y1 g)) pt ->
  get2 (slice2 a (x1 g) (x2 g) (y1 g) (y2 g)) (fst pt) (snd pt) = get2 a (fst (in_domain g pt)) (snd (in_domain g pt)).
Proof.
  intros A a g pt W Hg [ H1 H2 ]. destruct (s_region_subset_plain a g W Hg) as (m & E & _ & _ & _ & S). cbn [s_region_subset] in E.
  injection E as <-. cbn [value_at] in S. specialize (S (fst pt) (snd pt) ltac:(lia) ltac:(lia)). cbn [fst snd] in S. rewrite S.
  unfold in_domain. cbn [fst snd]. f_equal; lia.
Qed.

Lemma in_domain_grid : forall g x y pt, rect_in g x y -> in_grid (Z.to_nat (x2 g - x1 g)) (Z.to_nat (y2 g - y1 g)) pt -> in_grid x y (in_domain g pt).
Proof. intros g x y pt (H1 & H2 & H3 & H4) [ G1 G2 ]. unfold in_domain. split; cbn [fst snd]; lia. Qed.

Lemma slice2_shape' : forall {A} (a : arr2 A) g, rect_in g (a2x a) (a2y a) ->
  a2x (slice2 a (x1 g) (x2 g) (y1 g) (y2 g)) = Z.to_nat (x2 g - x1 g) /\ a2y (slice2 a (x1 g) (x2 g) (y1 g) (y2 g)) = Z.to_nat (y2 g - y1 g).
Proof. intros A a g (H1 & H2 & H3 & H4). apply slice2_shape; assumption. Qed.

Lemma q_subset : forall d sc g, qwf d sc -> rect_in g (a3x d) (a3y d) ->
  exists m, t_region_subset (qregion d sc) g = Ok (qregion m (slice_sc sc g)) /\ qwf m (slice_sc sc g) /\ a3t m = a3t d /\
    a3x m = Z.to_nat (x2 g - x1 g) /\ a3y m = Z.to_nat (y2 g - y1 g) /\
    forall pt, in_grid (Z.to_nat (x2 g - x1 g)) (Z.to_nat (y2 g - y1 g)) pt ->
      series3 m (fst pt) (snd pt) = series3 d (fst (in_domain g pt)) (snd (in_domain g pt)) /\
      (forall s t, shown (slice_sc sc g) pt s t <-> shown sc (in_domain g pt) s t).
Proof.
  intros d sc g Hq Hg. destruct (region_subset_plain d g (proj1 Hq) Hg) as (m & E & W & T & X & Y & S). exists m.
  assert (Ed : t_region_subset (qregion d sc) g = Ok (qregion m (slice_sc sc g))).
  { destruct sc as [ [ mn mx ] | ]; cbn [qregion slice_sc t_region_subset s_region_subset bind] in *; [ | exact E ].
    injection E as ->. reflexivity. }
  split; [ exact Ed | ].
  assert (Hsc : match slice_sc sc g with None => True | Some (mn, mx) => wf2 mn /\ a2x mn = a3x m /\ a2y mn = a3y m /\ wf2 mx /\ a2x mx = a3x m /\ a2y mx = a3y m end).
  { destruct sc as [ [ mn mx ] | ]; cbn [slice_sc]; [ | exact I ]. destruct Hq as [ _ (W1 & X1 & Y1 & W2 & X2 & Y2) ].
    destruct (slice2_shape' mn g) as [ A1 A2 ]; [ rewrite X1, Y1; exact Hg | ]. destruct (slice2_shape' mx g) as [ B1 B2 ]; [ rewrite X2, Y2; exact Hg | ].
    repeat split; auto using wf2_slice2; lia. }
  split; [ split; assumption | ]. split; [ exact T | ]. split; [ lia | ]. split; [ lia | ].
  intros pt Hp. destruct Hp as [ P1 P2 ]. split.
  - specialize (S (fst pt) (snd pt) ltac:(lia) ltac:(lia)). cbn [series_at fst snd] in S. rewrite S. unfold in_domain. cbn [fst snd]. f_equal; lia.
  - intros s t. destruct sc as [ [ mn mx ] | ]; cbn [slice_sc shown]; [ | reflexivity ]. destruct Hq as [ _ (W1 & X1 & Y1 & W2 & X2 & Y2) ].
    rewrite !slice2_get by (auto; try (rewrite X1, Y1; exact Hg); try (rewrite X2, Y2; exact Hg); split; assumption). reflexivity.
Qed.

(* ---------- the models of the solver ---------- *)
Section Kind.
Context {P M : Type} (kind : model_kind P M).

Lemma get_full : forall {A} x y (v : A) pt, in_grid x y pt -> get2 (full2 x y v) (fst pt) (snd pt) = Ok v.
Proof. intros A x y v pt H. apply get2_full; assumption. Qed.

Lemma represents_grid : forall p x y medoids pt med, medoids_of p x y medoids -> represents p medoids pt med -> in_grid x y med /\ In med medoids.
Proof.
  intros p x y medoids pt med [ _ H ] (c & _ & _ & E). split; [ eapply H; eauto | eapply nth_error_In; eauto ].
Qed.

Lemma represented : forall p x y medoids pt, valid_partition p x y -> medoids_of p x y medoids -> in_grid x y pt -> exists med, represents p medoids pt med.
Proof.
  intros p x y medoids pt Hv [ Hl Hm ] Hg. destruct (label_of_spec p x y pt Hv Hg) as [ Hlab Hr ].
  destruct (nth_error medoids (Z.to_nat (label_of p pt))) as [ med | ] eqn:E.
  - exists med, (label_of p pt). auto with zarith.
  - apply nth_error_None in E. lia.
Qed.

Lemma replicate_spec : forall (models R : arr2 (cell M)) p x y medoids,
  valid_partition p x y -> medoids_of p x y medoids -> wf2 models -> a2x models = x -> a2y models = y ->
  replicate_representative_models models p medoids = Ok R ->
  wf2 R /\ a2x R = x /\ a2y R = y /\
  forall pt med, in_grid x y pt -> represents p medoids pt med -> get2 R (fst pt) (snd pt) = get2 models (fst med) (snd med).
Proof.
  intros models R p x y medoids Hv [ Hl Hm ] W X Y H. unfold replicate_representative_models in H.
  destruct (merge_reps NoModel p models x y medoids Hv W X Y Hl Hm) as (cl & m & E1 & E2 & Wm & Xm & Ym & S).
  rewrite E1 in H. cbn [bind] in H. rewrite E2 in H. cbn [bind s_data] in H. injection H as <-. do 3 (split; [ assumption | ]).
  intros pt med Hg (c & Hc & _ & En). eapply S; eauto.
Qed.
Lemma replicate_ok : forall (models : arr2 (cell M)) p x y medoids,
  valid_partition p x y -> medoids_of p x y medoids -> wf2 models -> a2x models = x -> a2y models = y ->
  exists R, replicate_representative_models models p medoids = Ok R.
Proof.
  intros models p x y medoids Hv [ Hl Hm ] W X Y. unfold replicate_representative_models.
  destruct (merge_reps NoModel p models x y medoids Hv W X Y Hl Hm) as (cl & m & E1 & E2 & _).
  rewrite E1. cbn [bind]. rewrite E2. cbn [bind]. eauto.
Qed.

(** training at the medoids *)
Lemma train_medoids_spec : forall mp d sc reps models n, qwf d sc ->
  train_at_representatives kind (full2 (a3x d) (a3y d) (Some mp)) reps (qregion d sc) = Ok (models, n) ->
  wf2 models /\ a2x models = a3x d /\ a2y models = a3y d /\
  forall pt s, in_grid (a3x d) (a3y d) pt -> In pt reps -> series3 d (fst pt) (snd pt) = Ok s ->
    exists m, training_function kind mp s = Ok m /\ get2 models (fst pt) (snd pt) = Ok (cell_of m).
Proof.
  intros mp d sc reps models n Hq H. pose proof (q_proper d sc Hq) as Hp. pose proof (proper_items _ Hp) as Ei.
  destruct (train_with_cases _ _ _ _ _ Hp Ei H) as (W & X & Y & _). rewrite q_x in X. rewrite q_y in Y.
  destruct (train_at_reps kind _ _ _ _ _ _ Hp Ei H) as (Hin & _). do 3 (split; [ assumption | ]).
  intros pt s Hg Hr Es. destruct (Hin pt s (q_items_in _ _ _ _ _ Hq Ei Hg Es) Hr) as (p & m & E1 & E2 & E3).
  rewrite get_full in E1 by exact Hg. injection E1 as <-. exists m. split; [ exact E2 | ]. rewrite E3. destruct m; reflexivity.
Qed.
Lemma train_all_spec : forall params d sc models n, qwf d sc -> train kind params (qregion d sc) = Ok (models, n) ->
  wf2 models /\ a2x models = a3x d /\ a2y models = a3y d /\
  forall pt s, in_grid (a3x d) (a3y d) pt -> series3 d (fst pt) (snd pt) = Ok s ->
    exists p m, get2 params (fst pt) (snd pt) = Ok (Some p) /\ training_function kind p s = Ok m /\ get2 models (fst pt) (snd pt) = Ok (cell_of m).
Proof.
  intros params d sc models n Hq H. pose proof (q_proper d sc Hq) as Hp. pose proof (proper_items _ Hp) as Ei.
  destruct (train_with_cases _ _ _ _ _ Hp Ei H) as (W & X & Y & _). rewrite q_x in X. rewrite q_y in Y.
  destruct (train_everywhere kind _ _ _ _ _ Hp Ei H) as (Hin & _). do 3 (split; [ assumption | ]).
  intros pt s Hg Es. destruct (Hin pt s (q_items_in _ _ _ _ _ Hq Ei Hg Es)) as (p & m & E1 & E2 & E3).
  exists p, m. split; [ exact E1 | split; [ exact E2 | ] ]. rewrite E3. destruct m; reflexivity.
Qed.

Lemma forecast_cell : forall (m : option M) len, forecast_of_cell kind (cell_of m) len = forecast_by kind m len.
Proof. intros [ m | ] len; reflexivity. Qed.
Lemma forecast_by_length : forall m len f, forecasts_fit kind -> forecast_by kind m len = Ok f -> length f = len.
Proof.
  intros [ m | ] len f H E; cbn [forecast_by] in E; [ eapply H; eauto | ]. injection E as <-. apply repeat_length.
Qed.

(** a region of replicated models: the model at each point of an x by y area *)
Definition holds_models (models : arr2 (cell M)) (x y : nat) (mo : point -> option M) : Prop :=
  wf2 models /\ a2x models = x /\ a2y models = y /\ forall pt, in_grid x y pt -> get2 models (fst pt) (snd pt) = Ok (cell_of (mo pt)).

Lemma calculate_errors_spec : forall models mo d1 d2 sc et E,
  forecasts_fit kind -> qwf d1 sc -> qwf d2 sc -> a3x d1 = a3x d2 -> a3y d1 = a3y d2 ->
  holds_models models (a3x d2) (a3y d2) mo ->
  calculate_errors kind models (qregion d1 sc) (qregion d2 sc) et = Ok E ->
  exists e func, E = SPlain e /\ wf2 e /\ a2x e = a3x d2 /\ a2y e = a3y d2 /\ get_error_func et = Ok func /\
    forall pt s1 s2, in_grid (a3x d2) (a3y d2) pt -> series3 d1 (fst pt) (snd pt) = Ok s1 -> series3 d2 (fst pt) (snd pt) = Ok s2 ->
      exists f f' s1' s2' v, forecast_by kind (mo pt) (a3t d2) = Ok f /\ shown sc pt f f' /\ shown sc pt s1 s1' /\ shown sc pt s2 s2' /\
        func f' s2' (Some s1') = Ok v /\ get2 e (fst pt) (snd pt) = Ok v.
Proof.
  intros models mo d1 d2 sc et E Hfit Hq1 Hq2 X Y (Wm & Xm & Ym & Hm) H. unfold calculate_errors in H. rewrite q_len in H.
  pose proof (q_proper _ _ Hq2) as Hp2. pose proof (q_unclustered d2 sc) as Hu.
  destruct (t_apply_series _ _ _ _) as [ F | ] eqn:EF; [ | discriminate ]. cbn [bind] in H.
  destruct (get_error_func et) as [ func | ] eqn:Ef; [ | discriminate ]. cbn [bind] in H.
  destruct (t_apply_series_inv _ _ _ _ _ Hp2 Hu EF) as (_ & _ & Hinv). rewrite q_x, q_y in Hinv.
  assert (Hfc : forall pt, in_grid (a3x d2) (a3y d2) pt -> exists f, forecast_by kind (mo pt) (a3t d2) = Ok f).
  { intros pt Hg. destruct (Hinv pt Hg) as (fn & w & E1 & E2). cbn [model_function f_at] in E1. rewrite (Hm pt Hg) in E1. cbn [bind] in E1.
    injection E1 as <-. rewrite forecast_cell in E2. eauto. }
  set (g := fun (pt : point) (_ : list fnum) => match forecast_by kind (mo pt) (a3t d2) with Ok f => f | Raise _ => [] end).
  destruct (t_apply_series_spec (Fin 0) (model_function kind models (a3t d2)) (qregion d2 sc) g (a3t d2)) as (m & EF' & W & T & Xf & Yf & S).
  { apply proper_twf, Hp2. } { apply proper_consistent, Hp2. }
  { cbn [model_function f_x]. rewrite q_x. exact Xm. } { cbn [model_function f_y]. rewrite q_y. exact Ym. }
  { intros pt Hg _. rewrite q_x, q_y in Hg. cbn [model_function f_at]. rewrite (Hm pt Hg). cbn [bind]. eexists. split; [ reflexivity | ].
    rewrite forecast_cell. unfold g. destruct (Hfc pt Hg) as [ f Hf ]. rewrite Hf. split; [ reflexivity | ]. eapply forecast_by_length; eauto. }
  rewrite q_x in Xf, S. rewrite q_y in Yf, S. rewrite EF' in EF. injection EF as <-. rewrite q_new_st in H.
  assert (Hqm : qwf m sc) by (eapply q_again; eauto).
  destruct (q_descale _ _ Hqm) as (R & mm & ER & -> & Wmm & Tmm & Xmm & Ymm & Smm).
  destruct (q_descale _ _ Hq1) as (R1 & m1 & ER1 & -> & W1 & T1 & X1 & Y1 & S1).
  destruct (q_descale _ _ Hq2) as (R2 & m2 & ER2 & -> & W2 & T2 & X2 & Y2 & S2).
  assert (Eme : mk_measure_error func (qregion d2 sc) (Some (qregion d1 sc)) = Ok (MeasureError func (TPlain m2) (Some (TPlain m1)) (a3x d2) (a3y d2))).
  { unfold mk_measure_error. rewrite q_x, q_y. rewrite !q_scaling in *. destruct sc as [ [ ? ? ] | ].
    - rewrite ER2. cbn [bind]. rewrite ER1. reflexivity.
    - cbn [qregion] in *. congruence. }
  rewrite Eme in H. cbn [bind] in H. unfold measure_apply_to in H. rewrite ER in H. cbn [bind] in H.
  destruct (apply_shape _ _ _ _ H) as [ Sx Sy ].
  assert (Hpm : proper_st (TPlain mm)) by (constructor; exact Wmm).
  destruct (apply_cases (Fin 0) _ _ _ Hpm (proper_items _ Hpm) Sx Sy) as [ (e & Ee & We & Xe & Ye & Hin & _) | (? & ? & ? & _ & _ & Ee) ]; [ | congruence ].
  rewrite Ee in H. injection H as <-. unfold t_x, t_y in *. cbn [t_data t_new_spatial] in *.
  exists e, func. do 5 (split; [ congruence | ]).
  intros pt s1 s2 Hg Es1 Es2. destruct (Hfc pt Hg) as [ f Hf ].
  assert (Sf : series3 m (fst pt) (snd pt) = Ok f). { rewrite (S pt Hg), q_memb. unfold g. rewrite Hf. reflexivity. }
  destruct (Smm pt f) as (f' & Ef' & Hsf & _); [ rewrite Xf, Yf; exact Hg | exact Sf | ].
  destruct (S1 pt s1) as (s1' & Es1' & Hs1 & _); [ rewrite X, Y; exact Hg | exact Es1 | ].
  destruct (S2 pt s2 Hg Es2) as (s2' & Es2' & Hs2 & _).
  destruct (Hin pt f') as (v & Ev & Egv).
  { apply in_map_iff. exists pt. split; [ | apply filter_In; split; [ apply in_grid_iff; rewrite Xmm, Xf, Ymm, Yf; exact Hg | reflexivity ] ].
    f_equal. apply (q_ser mm None). exact Ef'. }
  cbn [measure_function f_at me_obs me_train series_at] in Ev. rewrite Es2', Es1' in Ev. cbn [bind me_func] in Ev.
  exists f, f', s1', s2', v. auto 10.
Qed.

(** the forecast of a prediction *)
Lemma forecast_spec : forall models mo d sc g (e : arr2 fnum) len (F : stregion fnum) R,
  forecasts_fit kind -> qwf d sc -> rect_in g (a3x d) (a3y d) -> holds_models models (a3x d) (a3y d) mo ->
  wf2 e -> a2x e = a3x d -> a2y e = a3y d ->
  model_apply_to kind (slice2 models (x1 g) (x2 g) (y1 g) (y2 g)) (SPlain (slice2 e (x1 g) (x2 g) (y1 g) (y2 g))) len = Ok F ->
  (if match sc with None => false | Some _ => true end then
                   subset <- t_region_subset (qregion d sc) g ;;
                   match subset with
                   | TScaled _ mn mx => descale (TScaled F mn mx)
                   | _ => Raise AttributeError
                   end
                 else Ok F) = Ok R ->
  exists m, R = TPlain m /\ wf3 m /\ a3t m = len /\ a3x m = Z.to_nat (x2 g - x1 g) /\ a3y m = Z.to_nat (y2 g - y1 g) /\
    forall pt, in_grid (Z.to_nat (x2 g - x1 g)) (Z.to_nat (y2 g - y1 g)) pt ->
      exists f f', forecast_by kind (mo (in_domain g pt)) len = Ok f /\ shown sc (in_domain g pt) f f' /\ series3 m (fst pt) (snd pt) = Ok f'.
Proof.
  intros models mo d sc g e len F R Hfit Hq Hg (Wm & Xm & Ym & Hm) We Xe Ye H HR. unfold model_apply_to in H.
  set (X := Z.to_nat (x2 g - x1 g)) in *. set (Y := Z.to_nat (y2 g - y1 g)) in *.
  destruct (slice2_shape' models g) as [ XM YM ]; [ rewrite Xm, Ym; exact Hg | ].
  destruct (slice2_shape' e g) as [ XE YE ]; [ rewrite Xe, Ye; exact Hg | ]. fold X in XM, XE. fold Y in YM, YE.
  assert (WE : wf2 (slice2 e (x1 g) (x2 g) (y1 g) (y2 g))) by (apply wf2_slice2; exact We).
  destruct (s_apply_series_inv _ _ _ _ _ WE H) as (_ & _ & Hinv). rewrite XE, YE in Hinv.
  assert (Hcell : forall pt, in_grid X Y pt -> get2 (slice2 models (x1 g) (x2 g) (y1 g) (y2 g)) (fst pt) (snd pt) = Ok (cell_of (mo (in_domain g pt)))).
  { intros pt Hp. rewrite slice2_get; auto; [ | rewrite Xm, Ym; exact Hg ]. apply Hm. eapply in_domain_grid; eauto. }
  assert (Hfc : forall pt, in_grid X Y pt -> exists f, forecast_by kind (mo (in_domain g pt)) len = Ok f).
  { intros pt Hp. destruct (Hinv pt Hp) as (v & fn & w & _ & E1 & E2). cbn [model_function f_at] in E1. rewrite (Hcell pt Hp) in E1. cbn [bind] in E1.
    injection E1 as <-. rewrite forecast_cell in E2. eauto. }
  set (gg := fun (pt : point) (_ : fnum) => match forecast_by kind (mo (in_domain g pt)) len with Ok f => f | Raise _ => [] end).
  destruct (s_apply_series_spec (Fin 0) (model_function kind (slice2 models (x1 g) (x2 g) (y1 g) (y2 g)) len)
              (SPlain (slice2 e (x1 g) (x2 g) (y1 g) (y2 g))) gg len NaN) as (m & EF & W & T & Xf & Yf & S).
  { exact WE. } { apply s_plain_consistent. }
  { cbn [model_function f_x]. unfold s_x. cbn [s_data]. lia. } { cbn [model_function f_y]. unfold s_y. cbn [s_data]. lia. }
  { unfold s_x, s_y. cbn [s_data]. rewrite XE, YE. intros pt Hp _. cbn [model_function f_at]. rewrite (Hcell pt Hp). cbn [bind]. eexists. split; [ reflexivity | ].
    rewrite forecast_cell. unfold gg. destruct (Hfc pt Hp) as [ f Hf ]. rewrite Hf. split; [ reflexivity | ]. eapply forecast_by_length; eauto. }
  unfold s_x, s_y in *. cbn [s_data s_new_st s_memb] in *. rewrite XE in *. rewrite YE in *.
  rewrite EF in H. injection H as <-.
  assert (Sf : forall pt, in_grid X Y pt -> exists f, forecast_by kind (mo (in_domain g pt)) len = Ok f /\ series3 m (fst pt) (snd pt) = Ok f).
  { intros pt Hp. destruct (Hfc pt Hp) as [ f Hf ]. exists f. split; [ exact Hf | ]. rewrite (S pt Hp). unfold gg. rewrite Hf. reflexivity. }
  destruct (q_subset d sc g Hq Hg) as (dm & Esub & Hqs & _ & XS & YS & Ssub). fold X in XS, Ssub. fold Y in YS, Ssub.
  destruct sc as [ [ mn mx ] | ].
  - rewrite Esub in HR. cbn [bind qregion slice_sc] in HR.
    assert (Hqm : qwf m (slice_sc (Some (mn, mx)) g)) by (eapply q_again; eauto; congruence).
    cbn [slice_sc] in Hqm. destruct (q_descale_scaled _ _ _ Hqm) as (mm & EM & WM & TM & XMM & YMM & SM). cbn [qregion] in EM.
    rewrite EM in HR. injection HR as <-. exists mm. split; [ reflexivity | ]. split; [ exact WM | ]. do 3 (split; [ congruence | ]).
    intros pt Hp. destruct (Sf pt Hp) as (f & Hf & Ef). destruct (SM pt f) as (f' & Ef' & Hs & _); [ rewrite Xf, Yf; exact Hp | exact Ef | ].
    exists f, f'. split; [ exact Hf | ]. split; [ | exact Ef' ]. apply (proj2 (Ssub pt Hp)). exact Hs.
  - injection HR as <-. exists m. split; [ reflexivity | ]. do 4 (split; [ auto | ]). intros pt Hp. destruct (Sf pt Hp) as (f & Hf & Ef). exists f, f. cbn [shown]. auto.
Qed.
End Kind.

(* ---------- the whole solver ---------- *)
Section Whole.
Context {P M : Type} (kind : model_kind P M).

Definition model_at (R : arr2 (cell M)) (pt : point) : option M := match get2 R (fst pt) (snd pt) with Ok (Trained m) => Some m | _ => None end.

Lemma replicated_models : forall (models R : arr2 (cell M)) p x y medoids (Q : point -> option M -> Prop),
  valid_partition p x y -> medoids_of p x y medoids -> wf2 models -> a2x models = x -> a2y models = y ->
  (forall med, in_grid x y med -> In med medoids -> exists m, get2 models (fst med) (snd med) = Ok (cell_of m) /\ Q med m) ->
  replicate_representative_models models p medoids = Ok R ->
  holds_models R x y (model_at R) /\
  forall pt med, in_grid x y pt -> represents p medoids pt med -> Q med (model_at R pt).
Proof.
  intros models R p x y medoids Q Hv Hm W X Y HQ H. destruct (replicate_spec _ _ _ _ _ _ Hv Hm W X Y H) as (WR & XR & YR & S).
  assert (K : forall pt med, in_grid x y pt -> represents p medoids pt med -> get2 R (fst pt) (snd pt) = Ok (cell_of (model_at R pt)) /\ Q med (model_at R pt)).
  { intros pt med Hg Hr. destruct (represents_grid _ _ _ _ _ _ Hm Hr) as [ G I ]. destruct (HQ med G I) as (m & E & Hq).
    rewrite <- (S pt med Hg Hr) in E. unfold model_at. rewrite E. destruct m; cbn [cell_of]; auto. }
  split.
  - do 3 (split; [ assumption | ]). intros pt Hg. destruct (represented _ _ _ _ pt Hv Hm Hg) as [ med Hr ]. eapply K; eauto.
  - intros pt med Hg Hr. eapply K; eauto.
Qed.

(** what a refitter must establish at the medoids: [Q ms0 ms m] relates the series seen in training, the whole series
    and the refitted model *)
Definition refits (refit : refitter) (mp : P) (Q : list fnum -> list fnum -> option M -> Prop) (d : arr3 fnum) sc (tl : nat) (medoids : list point) : Prop :=
  forall models w n, wf2 models -> a2x models = a3x d -> a2y models = a3y d ->
    (forall med ms, in_grid (a3x d) (a3y d) med -> In med medoids -> series3 d (fst med) (snd med) = Ok ms ->
       exists m, training_function kind mp (firstn (length ms - tl) ms) = Ok m /\ get2 models (fst med) (snd med) = Ok (cell_of m)) ->
    refit models (qregion d sc) = Ok (w, n) ->
    wf2 w /\ a2x w = a3x d /\ a2y w = a3y d /\
    forall med ms, in_grid (a3x d) (a3y d) med -> In med medoids -> series3 d (fst med) (snd med) = Ok ms ->
      exists m, get2 w (fst med) (snd med) = Ok (cell_of m) /\ Q (firstn (length ms - tl) ms) ms m.

Lemma solver_train_spec : forall mp refit cluster d sc tl et s p medoids Q,
  forecasts_fit kind -> qwf d sc -> tl <= a3t d -> cluster (qregion d sc) = Ok (p, medoids) ->
  valid_partition p (a3x d) (a3y d) -> medoids_of p (a3x d) (a3y d) medoids ->
  refits refit mp Q d sc tl medoids ->
  solver_train kind (full2 (a3x d) (a3y d) (Some mp)) refit cluster (qregion d sc) (Z.of_nat tl) et = Ok s ->
  so_partition s = p /\ so_medoids s = medoids /\
  holds_models (so_training s) (a3x d) (a3y d) (model_at (so_training s)) /\
  (forall pt med ms, in_grid (a3x d) (a3y d) pt -> represents p medoids pt med -> series3 d (fst med) (snd med) = Ok ms ->
     training_function kind mp (firstn (length ms - tl) ms) = Ok (model_at (so_training s) pt)) /\
  holds_models (so_whole s) (a3x d) (a3y d) (model_at (so_whole s)) /\
  (forall pt med ms, in_grid (a3x d) (a3y d) pt -> represents p medoids pt med -> series3 d (fst med) (snd med) = Ok ms ->
     Q (firstn (length ms - tl) ms) ms (model_at (so_whole s) pt)) /\
  exists e func, so_errors s = SPlain e /\ wf2 e /\ a2x e = a3x d /\ a2y e = a3y d /\ get_error_func et = Ok func /\
    forall pt own, in_grid (a3x d) (a3y d) pt -> series3 d (fst pt) (snd pt) = Ok own ->
      exists f f' s1' s2' v, forecast_by kind (model_at (so_training s) pt) tl = Ok f /\ shown sc pt f f' /\
        shown sc pt (firstn (length own - tl) own) s1' /\ shown sc pt (skipn (length own - tl) own) s2' /\
        func f' s2' (Some s1') = Ok v /\ get2 e (fst pt) (snd pt) = Ok v.
Proof.
  intros mp refit cluster d sc tl et s p medoids Q Hfit Hq Htl Hcl Hv Hmed Href H.
  destruct (q_split d sc tl Hq Htl) as (d1 & d2 & Es & Hq1 & Hq2 & T1 & T2 & X1 & Y1 & X2 & Y2 & Ss).
  unfold solver_train in H. rewrite Es, Hcl in H. cbn [bind] in H.
  destruct (train_at_representatives _ _ _ _) as [ [ models n ] | ] eqn:Et; [ | discriminate ]. cbn [bind fst] in H.
  rewrite <- X1, <- Y1 in Et. destruct (train_medoids_spec kind mp d1 sc medoids models n Hq1 Et) as (Wm & Xm & Ym & Sm).
  rewrite X1 in *. rewrite Y1 in *.
  assert (Sm' : forall med ms, in_grid (a3x d) (a3y d) med -> In med medoids -> series3 d (fst med) (snd med) = Ok ms ->
       exists m, training_function kind mp (firstn (length ms - tl) ms) = Ok m /\ get2 models (fst med) (snd med) = Ok (cell_of m)).
  { intros med ms G I E. apply Sm; auto. apply Ss; auto. }
  destruct (replicate_representative_models models p medoids) as [ R | ] eqn:ER; [ | discriminate ]. cbn [bind] in H.
  destruct (calculate_errors _ _ _ _ _) as [ E | ] eqn:Ee; [ | discriminate ]. cbn [bind] in H.
  destruct (refit models (qregion d sc)) as [ [ w k ] | ] eqn:Ew; [ | discriminate ]. cbn [bind fst] in H.
  destruct (replicate_representative_models w p medoids) as [ RW | ] eqn:ERW; [ | discriminate ]. cbn [bind] in H. injection H as <-.
  cbn [so_partition so_medoids so_training so_whole so_errors]. split; [ reflexivity | ]. split; [ reflexivity | ].
  destruct (replicated_models models R p (a3x d) (a3y d) medoids
             (fun med m => forall ms, series3 d (fst med) (snd med) = Ok ms -> training_function kind mp (firstn (length ms - tl) ms) = Ok m)
             Hv Hmed Wm Xm Ym) as [ HR SR ].
  { intros med G I. destruct (ser_ok d med (proj1 Hq) G) as (ms & E1 & _). destruct (Sm' med ms G I E1) as (m & E2 & E3). exists m. split; [ exact E3 | ].
    intros ms' E4. congruence. }
  { exact ER. }
  destruct (Href models w k Wm Xm Ym Sm' Ew) as (Ww & Xw & Yw & Sw).
  destruct (replicated_models w RW p (a3x d) (a3y d) medoids
             (fun med m => forall ms, series3 d (fst med) (snd med) = Ok ms -> Q (firstn (length ms - tl) ms) ms m)
             Hv Hmed Ww Xw Yw) as [ HRW SRW ].
  { intros med G I. destruct (ser_ok d med (proj1 Hq) G) as (ms & E1 & _). destruct (Sw med ms G I E1) as (m & E2 & E3). exists m. split; [ exact E2 | ].
    intros ms' E4. replace ms' with ms by congruence. exact E3. }
  { exact ERW. }
  split; [ exact HR | ]. split; [ intros; eapply SR; eauto | ]. split; [ exact HRW | ]. split; [ intros; eapply SRW; eauto | ].
  rewrite <- X2, <- Y2 in HR.
  destruct (calculate_errors_spec kind R _ d1 d2 sc et E Hfit Hq1 Hq2 ltac:(congruence) ltac:(congruence) HR Ee) as (e & func & -> & We & Xe & Ye & Ef & Hin).
  rewrite X2, Y2, T2 in *. exists e, func. do 5 (split; [ auto | ]).
  intros pt own Hg Eo. destruct (Ss pt own Hg Eo) as [ A1 A2 ]. apply Hin; auto.
Qed.

Lemma default_refits : forall mp d sc tl medoids, qwf d sc ->
  refits (default_refitter kind (full2 (a3x d) (a3y d) (Some mp))) mp (fun _ ms m => training_function kind mp ms = Ok m) d sc tl medoids.
Proof.
  intros mp d sc tl medoids Hq models w n W X Y _ H. destruct (train_all_spec kind _ d sc w n Hq H) as (Ww & Xw & Yw & S).
  do 3 (split; [ assumption | ]). intros med ms G _ E. destruct (S med ms G E) as (p & m & E1 & E2 & E3). rewrite get_full in E1 by exact G.
  injection E1 as <-. eauto.
Qed.

Lemma predict_in : forall s d sc tl fl g q e,
  forecasts_fit kind -> qwf d sc -> tl <= a3t d -> rect_in g (a3x d) (a3y d) -> (fl <= 0)%Z ->
  holds_models (so_training s) (a3x d) (a3y d) (model_at (so_training s)) ->
  so_errors s = SPlain e -> wf2 e -> a2x e = a3x d -> a2y e = a3y d ->
  solver_predict kind s (match sc with None => false | Some _ => true end) (qregion d sc) (Z.of_nat tl) g fl = Ok q ->
  exists m tst, pr_forecast q = TPlain m /\ pr_test q = Some tst /\ pr_errors q = SPlain (slice2 e (x1 g) (x2 g) (y1 g) (y2 g)) /\
    wf3 m /\ a3t m = tl /\ a3x m = Z.to_nat (x2 g - x1 g) /\ a3y m = Z.to_nat (y2 g - y1 g) /\
    t_len tst = tl /\ t_x tst = Z.to_nat (x2 g - x1 g) /\ t_y tst = Z.to_nat (y2 g - y1 g) /\
    forall pt own, in_grid (Z.to_nat (x2 g - x1 g)) (Z.to_nat (y2 g - y1 g)) pt ->
      series3 d (fst (in_domain g pt)) (snd (in_domain g pt)) = Ok own ->
      (exists f f', forecast_by kind (model_at (so_training s) (in_domain g pt)) tl = Ok f /\ shown sc (in_domain g pt) f f' /\ series3 m (fst pt) (snd pt) = Ok f') /\
      (exists t, series_at tst pt = Ok t /\ shown sc (in_domain g pt) (skipn (length own - tl) own) t) /\
      value_at (pr_errors q) pt = get2 e (fst (in_domain g pt)) (snd (in_domain g pt)).
Proof.
  intros s d sc tl fl g q e Hfit Hq Htl Hg Hfl Hm Ee We Xe Ye H. unfold solver_predict in H. unfold prepare_for_predictions in H.
  destruct (q_split d sc tl Hq Htl) as (d1 & d2 & Es & Hq1 & Hq2 & T1 & T2 & X1 & Y1 & X2 & Y2 & Ss). rewrite Es in H.
  destruct (q_descale d2 sc Hq2) as (R2 & m2 & ER2 & -> & W2 & T2' & X2' & Y2' & S2). rewrite ER2 in H. cbn [bind] in H.
  rewrite Ee in H. cbn [s_region_subset bind] in H.
  replace (0 <? fl)%Z with false in H by lia.
  destruct (q_subset m2 None g) as (ms & Esub & Hqs & TS & XS & YS & Ssub); [ split; auto | rewrite X2', Y2', X2, Y2; exact Hg | ].
  cbn [qregion slice_sc] in Esub. rewrite Esub in H. cbn [bind] in H. replace (Z.of_nat tl <? 0)%Z with false in H by lia. rewrite Nat2Z.id in H.
  destruct (model_apply_to kind _ _ _) as [ F | ] eqn:EF; [ | discriminate ]. cbn [bind] in H.
  destruct (if match sc with None => false | Some _ => true end then _ else _) as [ R | ] eqn:ER; [ | discriminate ]. cbn [bind] in H. injection H as <-.
  cbn [pr_forecast pr_test pr_errors].
  destruct (forecast_spec kind _ _ d sc g e tl F R Hfit Hq Hg Hm We Xe Ye EF ER) as (m & -> & W & T & X & Y & S).
  exists m, (TPlain ms). do 7 (split; [ auto | ]). unfold t_len, t_x, t_y. cbn [t_data]. do 3 (split; [ congruence | ]).
  intros pt own Hp Eo. pose proof (in_domain_grid _ _ _ _ Hg Hp) as Hd. split; [ apply S; exact Hp | ]. split.
  - destruct (Ss _ own Hd Eo) as [ _ A2 ]. destruct (S2 (in_domain g pt) _ ltac:(rewrite X2, Y2; exact Hd) A2) as (t & Et & Hs & _).
    exists t. split; [ | exact Hs ]. cbn [series_at]. rewrite (proj1 (Ssub pt Hp)). exact Et.
  - cbn [value_at]. apply slice2_get; auto. rewrite Xe, Ye. exact Hg.
Qed.

Lemma predict_out : forall s d sc tl fl g q e,
  forecasts_fit kind -> qwf d sc -> tl <= a3t d -> rect_in g (a3x d) (a3y d) -> (0 < fl)%Z ->
  holds_models (so_whole s) (a3x d) (a3y d) (model_at (so_whole s)) ->
  so_errors s = SPlain e -> wf2 e -> a2x e = a3x d -> a2y e = a3y d ->
  solver_predict kind s (match sc with None => false | Some _ => true end) (qregion d sc) (Z.of_nat tl) g fl = Ok q ->
  exists m, pr_forecast q = TPlain m /\ pr_test q = None /\ pr_errors q = SPlain (slice2 e (x1 g) (x2 g) (y1 g) (y2 g)) /\
    wf3 m /\ a3t m = Z.to_nat fl /\ a3x m = Z.to_nat (x2 g - x1 g) /\ a3y m = Z.to_nat (y2 g - y1 g) /\
    forall pt, in_grid (Z.to_nat (x2 g - x1 g)) (Z.to_nat (y2 g - y1 g)) pt ->
      (exists f f', forecast_by kind (model_at (so_whole s) (in_domain g pt)) (Z.to_nat fl) = Ok f /\ shown sc (in_domain g pt) f f' /\ series3 m (fst pt) (snd pt) = Ok f') /\
      value_at (pr_errors q) pt = get2 e (fst (in_domain g pt)) (snd (in_domain g pt)).
Proof.
  intros s d sc tl fl g q e Hfit Hq Htl Hg Hfl Hm Ee We Xe Ye H. unfold solver_predict in H. unfold prepare_for_predictions in H.
  destruct (q_split d sc tl Hq Htl) as (d1 & d2 & Es & Hq1 & Hq2 & T1 & T2 & X1 & Y1 & X2 & Y2 & Ss). rewrite Es in H.
  destruct (q_descale d2 sc Hq2) as (R2 & m2 & ER2 & -> & _). rewrite ER2 in H. cbn [bind] in H.
  rewrite Ee in H. cbn [s_region_subset bind] in H.
  replace (0 <? fl)%Z with true in H by lia. cbn [bind] in H. replace (fl <? 0)%Z with false in H by lia.
  destruct (model_apply_to kind _ _ _) as [ F | ] eqn:EF; [ | discriminate ]. cbn [bind] in H.
  destruct (if match sc with None => false | Some _ => true end then _ else _) as [ R | ] eqn:ER; [ | discriminate ]. cbn [bind] in H. injection H as <-.
  cbn [pr_forecast pr_test pr_errors].
  destruct (forecast_spec kind _ _ d sc g e (Z.to_nat fl) F R Hfit Hq Hg Hm We Xe Ye EF ER) as (m & -> & W & T & X & Y & S).
  exists m. do 7 (split; [ auto | ]). intros pt Hp. split; [ apply S; exact Hp | ].
  cbn [value_at]. apply slice2_get; auto. rewrite Xe, Ye. exact Hg.
Qed.

Lemma shown_nan : forall sc pt n t, shown sc pt (repeat NaN n) t -> t = repeat NaN n.
Proof.
  intros [ [ mn mx ] | ] pt n t H; cbn [shown] in H; [ | exact H ]. destruct H as (a & b & _ & _ & ->).
  clear. induction n as [ | n IH ]; [ reflexivity | ]. cbn [repeat map]. rewrite IH. f_equal. destruct (fsub b a); reflexivity.
Qed.
End Whole.

(* ---------- ARIMA ---------- *)
Section Arima.
Context {A M : Type} (fit : pdq -> list fnum -> res M) (order_of : M -> pdq)
        (forecast : M -> nat -> res (list fnum)) (search : A -> list fnum -> res pdq).

Lemma pdq_eqb_eq : forall a b, pdq_eqb a b = true <-> a = b.
Proof.
  intros [ [ p d ] q ] [ [ p' d' ] q' ]. unfold pdq_eqb. rewrite !andb_true_iff, !Z.eqb_eq.
  split; [ intros [ [ -> -> ] -> ]; reflexivity | intros [= -> -> ->]; auto ].
Qed.

Lemma set2_get : forall {T} (a : arr2 T) pt v, wf2 a -> in_grid (a2x a) (a2y a) pt ->
  exists a', set2 a (fst pt) (snd pt) v = Ok a' /\ wf2 a' /\ a2x a' = a2x a /\ a2y a' = a2y a /\
    forall pt', in_grid (a2x a) (a2y a) pt' -> get2 a' (fst pt') (snd pt') = if point_eqb pt' pt then Ok v else get2 a (fst pt') (snd pt').
Proof.
  intros T a pt v W [ H1 H2 ]. destruct (set2_spec a (fst pt) (snd pt) v W H1 H2) as (a' & E & W' & X & Y & S). exists a'. do 4 (split; [ assumption | ]).
  intros pt' [ G1 G2 ]. destruct (get2_ok a' (fst pt') (snd pt') W' ltac:(lia) ltac:(lia)) as (u & Eu & Au).
  destruct (get2_ok a (fst pt') (snd pt') W G1 G2) as (w & Ew & Aw). rewrite Eu, Ew. rewrite S in Au by lia. unfold point_eqb.
  rewrite !Z2Nat.id in Au by lia. destruct ((fst pt' =? fst pt) && (snd pt' =? snd pt))%Z; congruence.
Qed.

Lemma write_options : forall {T U} (f : T -> option U) x y (m : arr2 T) dflt, wf2 m -> a2x m = x -> a2y m = y ->
  exists a, foldM (fun a '(pt, c) => match f c with None => Ok a | Some o => set2 a (fst pt) (snd pt) (Some o) end)
                  (map (fun pt => (pt, s_val (SPlain m) dflt pt)) (grid x y)) (full2 x y None) = Ok a /\
    wf2 a /\ a2x a = x /\ a2y a = y /\ forall pt, in_grid x y pt -> get2 a (fst pt) (snd pt) = Ok (f (s_val (SPlain m) dflt pt)).
Proof.
  intros T U f x y m dflt W X Y.
  assert (K : forall l done a, NoDup (done ++ l) -> (forall pt, In pt (done ++ l) -> in_grid x y pt) -> wf2 a -> a2x a = x -> a2y a = y ->
    (forall pt, in_grid x y pt -> get2 a (fst pt) (snd pt) = Ok (if existsb (point_eqb pt) done then f (s_val (SPlain m) dflt pt) else None)) ->
    exists a', foldM (fun a '(pt, c) => match f c with None => Ok a | Some o => set2 a (fst pt) (snd pt) (Some o) end)
                  (map (fun pt => (pt, s_val (SPlain m) dflt pt)) l) a = Ok a' /\
      wf2 a' /\ a2x a' = x /\ a2y a' = y /\
      forall pt, in_grid x y pt -> get2 a' (fst pt) (snd pt) = Ok (if existsb (point_eqb pt) (done ++ l) then f (s_val (SPlain m) dflt pt) else None)).
  { induction l as [ | p0 l IH ]; intros done a ND Hin Wa Xa Ya Ha.
    - exists a. cbn [map foldM]. rewrite app_nil_r. auto.
    - assert (Happ : (done ++ p0 :: l) = (done ++ [p0]) ++ l) by (rewrite <- app_assoc; reflexivity). rewrite Happ in *.
      assert (G0 : in_grid x y p0) by (apply Hin; rewrite !in_app_iff; cbn; auto).
      assert (Hstep : exists a1, match f (s_val (SPlain m) dflt p0) with None => Ok a | Some o => set2 a (fst p0) (snd p0) (Some o) end = Ok a1 /\
                wf2 a1 /\ a2x a1 = x /\ a2y a1 = y /\
                forall pt, in_grid x y pt -> get2 a1 (fst pt) (snd pt) = Ok (if existsb (point_eqb pt) (done ++ [p0]) then f (s_val (SPlain m) dflt pt) else None)).
      { assert (Hnot : existsb (point_eqb p0) done = false).
        { apply not_true_is_false. intros E. apply existsb_point in E. rewrite <- app_assoc in ND. apply NoDup_remove_2 in ND. apply ND, in_or_app. auto. }
        assert (Hex : forall pt, existsb (point_eqb pt) (done ++ [p0]) = existsb (point_eqb pt) done || point_eqb pt p0).
        { intros pt. rewrite existsb_app. cbn [existsb]. rewrite orb_false_r. reflexivity. }
        destruct (f (s_val (SPlain m) dflt p0)) as [ o | ] eqn:Ef.
        - destruct (set2_get a p0 (Some o) Wa) as (a1 & E1 & W1 & X1 & Y1 & G1); [ rewrite Xa, Ya; exact G0 | ].
          exists a1. split; [ exact E1 | ]. do 3 (split; [ congruence | ]). intros pt Hg. rewrite Hex.
          rewrite G1 by (rewrite Xa, Ya; exact Hg). destruct (point_eqb pt p0) eqn:E.
          + apply point_eqb_spec in E. subst pt. rewrite orb_true_r, Ef. reflexivity.
          + rewrite orb_false_r. apply Ha. exact Hg.
        - exists a. split; [ reflexivity | ]. do 3 (split; [ assumption | ]). intros pt Hg. rewrite (Ha pt Hg), Hex.
          destruct (point_eqb pt p0) eqn:E; [ | rewrite orb_false_r; reflexivity ]. apply point_eqb_spec in E. subst pt.
          rewrite Hnot, Ef. reflexivity. }
      destruct Hstep as (a1 & E1 & W1 & X1 & Y1 & G1). destruct (IH (done ++ [p0]) a1 ND Hin W1 X1 Y1 G1) as (a' & E' & R').
      exists a'. split; [ | exact R' ]. cbn [map foldM]. rewrite E1. exact E'. }
  destruct (K (grid x y) [] (full2 x y None)) as (a & E & Wa & Xa & Ya & Ha).
  - apply grid_nodup.
  - intros pt H. apply in_grid_iff. exact H.
  - apply wf2_full.
  - reflexivity.
  - reflexivity.
  - intros pt Hg. rewrite get_full by exact Hg. reflexivity.
  - exists a. do 4 (split; [ assumption | ]). intros pt Hg. rewrite (Ha pt Hg). replace (existsb (point_eqb pt) ([] ++ grid x y)) with true; [ reflexivity | ].
    symmetry. apply existsb_point. apply in_grid_iff. exact Hg.
Qed.

Lemma grid_items : forall {T} (m : arr2 T) dflt, wf2 m -> s_items (SPlain m) = Ok (map (fun pt => (pt, s_val (SPlain m) dflt pt)) (grid (a2x m) (a2y m))).
Proof.
  intros T m dflt W. rewrite (proper_s_items dflt) by (constructor; exact W). unfold s_x, s_y. cbn [s_data]. do 2 f_equal.
  apply filter_all. intros; reflexivity.
Qed.

Lemma refit_params_spec : forall (models : arr2 (cell M)), wf2 models ->
  exists a, refit_params order_of models = Ok a /\ wf2 a /\ a2x a = a2x models /\ a2y a = a2y models /\
    forall pt c, in_grid (a2x models) (a2y models) pt -> get2 models (fst pt) (snd pt) = Ok c ->
      get2 a (fst pt) (snd pt) = Ok (if pdq_eqb (extract_pdq order_of c) ORDER_WHEN_NO_MODEL then None else Some (extract_pdq order_of c)).
Proof.
  intros models W. unfold refit_params. rewrite (grid_items models NoModel W). cbn [bind].
  destruct (write_options (fun c => if pdq_eqb (extract_pdq order_of c) ORDER_WHEN_NO_MODEL then None else Some (extract_pdq order_of c))
              (a2x models) (a2y models) models NoModel W eq_refl eq_refl) as (a & E & Wa & Xa & Ya & S).
  exists a. split.
  - rewrite <- E. apply foldM_ext. intros st [ pt c ] _. destruct (pdq_eqb _ _); reflexivity.
  - do 3 (split; [ assumption | ]). intros pt c Hg Ec. rewrite (S pt Hg).
    pose proof (get2_s_val (SPlain models) NoModel pt W Hg) as G. cbn [s_data] in G. rewrite Ec in G. injection G as ->. reflexivity.
Qed.

Lemma param_region_spec : forall {T} (dflt : T) (a : arr2 T), wf2 a ->
  exists b, mk_trainer (ParamRegion (SPlain a)) = Ok b /\ wf2 b /\ a2x b = a2x a /\ a2y b = a2y a /\
    forall pt v, in_grid (a2x a) (a2y a) pt -> get2 a (fst pt) (snd pt) = Ok v -> get2 b (fst pt) (snd pt) = Ok (Some v).
Proof.
  intros T dflt a W. unfold mk_trainer. rewrite (grid_items a dflt W). cbn [bind].
  destruct (write_options (fun v => Some v) (a2x a) (a2y a) a dflt W eq_refl eq_refl) as (b & E & Wb & Xb & Yb & S).
  exists b. split; [ exact E | ]. do 3 (split; [ assumption | ]). intros pt v Hg Ev. rewrite (S pt Hg).
  pose proof (get2_s_val (SPlain a) dflt pt W Hg) as G. cbn [s_data] in G. rewrite Ev in G. injection G as ->. reflexivity.
Qed.

(** a refitted model has the order of the model fitted in training *)
Definition refitted (params : A) (s0 ms : list fnum) (m : option M) : Prop :=
  exists m0, auto_arima_training_function fit search params s0 = Ok m0 /\
    match m0 with
    | None => m = None
    | Some m0 => if pdq_eqb (order_of m0) ORDER_WHEN_NO_MODEL then m = None else no_model_on_failure (fit (order_of m0) ms) = Ok m
    end.

Lemma arima_refits : forall params d sc tl medoids, qwf d sc ->
  refits (auto_arima_kind fit forecast search) (arima_refitter fit order_of forecast) params (refitted params) d sc tl medoids.
Proof.
  intros params d sc tl medoids Hq models w n W X Y Hmod H. unfold arima_refitter in H.
  destruct (refit_params_spec models W) as (a & Ea & Wa & Xa & Ya & Sa). rewrite Ea in H. cbn [bind] in H.
  destruct (param_region_spec None a Wa) as (b & Eb & Wb & Xb & Yb & Sb). rewrite Eb in H. cbn [bind] in H.
  destruct (train_all_spec (arima_kind fit forecast) b d sc w n Hq H) as (Ww & Xw & Yw & S). do 3 (split; [ assumption | ]).
  intros med ms G I Es. destruct (Hmod med ms G I Es) as (m0 & E0 & Ec). cbn [auto_arima_kind training_function] in E0.
  destruct (S med ms G Es) as (p & m & E1 & E2 & E3). exists m. split; [ exact E3 | ]. exists m0. split; [ exact E0 | ].
  rewrite <- X, <- Y in G. specialize (Sa med _ G Ec). rewrite <- Xa, <- Ya in G. specialize (Sb med _ G Sa). rewrite Sb in E1. injection E1 as <-.
  cbn [arima_kind training_function] in E2. destruct m0 as [ m0 | ]; cbn [cell_of extract_pdq] in E2.
  - destruct (pdq_eqb (order_of m0) ORDER_WHEN_NO_MODEL); cbn [arima_training_function] in E2; [ injection E2 as <-; reflexivity | exact E2 ].
  - cbn in E2. injection E2 as <-. reflexivity.
Qed.
End Arima.
