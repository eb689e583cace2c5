(** k-NN and mean models, and training. *)
From Coq Require Import QArith Lqa Lia Permutation.
From Verif Require Import Base.Py Base.PyFacts Base.Arr Base.ArrFacts Base.Float Base.FloatFacts Model.Region Model.Arrays Model.Models
  Spec.Grid Spec.Regions Spec.Forecast Proofs.RegionFacts Proofs.PartitionFacts Proofs.ProperFacts Proofs.ArraysFacts Proofs.KMedoidsFacts
  Proofs.BarycenterFacts Proofs.ErrorFacts.
From Coq Require Import ZifyBool ZifyNat.
Local Close Scope Q_scope. Local Open Scope nat_scope.

(* ---------- k nearest neighbours ---------- *)
Lemma before_or_equal_total : forall l n p, is_argpartition l n p -> length p = length l.
Proof. intros l n p [ P _ ]. apply Permutation_length in P. rewrite seq_length in P. exact P. Qed.

Lemma nodup_prefix : forall {A} (l r : list A), NoDup (l ++ r) -> NoDup l.
Proof.
  induction l as [ | a l IH ]; intros r H; [ constructor | ]. inversion H as [ | ? ? H1 H2 ]; subst. constructor; [ | eapply IH; eauto ].
  intros Hin. apply H1, in_or_app. auto.
Qed.

Lemma argpartition_least : forall values k p, is_argpartition values k p -> k <= length values -> k_least values k (firstn k p).
Proof.
  intros values k p Hp Hk. pose proof (before_or_equal_total _ _ _ Hp) as L. destruct Hp as [ P O ].
  assert (ND : NoDup p) by (apply (Permutation_NoDup (l := seq 0 (length values))); [ apply Permutation_sym; exact P | apply seq_NoDup ]).
  repeat split.
  - rewrite <- (firstn_skipn k p) in ND. apply nodup_prefix in ND. exact ND.
  - rewrite firstn_length. lia.
  - intros i Hi. assert (In i p) as Hi' by (rewrite <- (firstn_skipn k p); apply in_or_app; auto).
    apply (Permutation_in _ P) in Hi'. apply in_seq in Hi'. lia.
  - intros i j Hi Hj Hlt.
    assert (In j p) as Hjp by (apply (Permutation_in _ (Permutation_sym P)), in_seq; lia).
    rewrite <- (firstn_skipn k p) in Hjp. apply in_app_or in Hjp. destruct Hjp as [ | Hjp ]; [ contradiction | ].
    apply In_nth_error in Hi. destruct Hi as [ a Ha ]. apply In_nth_error in Hjp. destruct Hjp as [ b Hb ].
    assert (La : a < k) by (pose proof (proj1 (nth_error_Some (firstn k p) a) ltac:(congruence)); rewrite firstn_length in *; lia).
    apply (O a (k + b) i j); [ lia | | ].
    + rewrite <- Ha. rewrite <- (firstn_skipn k p) at 1. apply nth_error_app1. rewrite firstn_length. lia.
    + rewrite <- Hb. rewrite <- (firstn_skipn k p) at 1. rewrite nth_error_app2 by (rewrite firstn_length; lia).
      f_equal. rewrite firstn_length. lia.
Qed.

Lemma all_least : forall values, k_least values (length values) (seq 0 (length values)).
Proof.
  intros values. repeat split; [ apply seq_NoDup | apply seq_length | intros i H; apply in_seq in H; lia | ].
  intros i j _ H Hj. exfalso. apply H, in_seq. lia.
Qed.

Lemma knn_select : forall measure argpartition array k neighbors, 
  (forall l n, n < length l -> is_argpartition l n (argpartition l n)) ->
  (forall nb, In nb neighbors -> length nb = length array) -> k <= length neighbors ->
  exists sel, find_k_nearest_neighbors measure argpartition array (Z.of_nat k) neighbors = Ok sel /\
    k_least (map (measure array) neighbors) k sel.
Proof.
  intros measure argpartition array k nbs Harg Hlen Hk. unfold find_k_nearest_neighbors.
  replace (existsb _ nbs) with false.
  2:{ symmetry. apply not_true_is_false. intros H. apply existsb_exists in H. destruct H as (nb & Hin & E). rewrite (Hlen nb Hin), Nat.eqb_refl in E. discriminate. }
  replace (Z.of_nat (length nbs) <? Z.of_nat k)%Z with false by lia. destruct (Z.of_nat (length nbs) =? Z.of_nat k)%Z eqn:E.
  - eexists. split; [ reflexivity | ]. rewrite Nat2Z.id. replace k with (length (map (measure array) nbs)) by (rewrite map_length; lia). apply all_least.
  - rewrite map_length, norm_index_of_nat by lia. eexists. split; [ reflexivity | ].
    specialize (Harg (map (measure array) nbs) k). rewrite map_length in Harg. specialize (Harg ltac:(lia)).
    pose proof (before_or_equal_total _ _ _ Harg) as L. rewrite map_length in L.
    rewrite py_slice_in by lia. replace (Z.to_nat (Z.of_nat k - 0)) with k by lia. cbn [Z.to_nat skipn].
    apply argpartition_least; [ exact Harg | rewrite map_length; lia ].
Qed.

Lemma knn_too_few : forall measure argpartition array k neighbors,
  (Z.of_nat (length neighbors) < k)%Z -> find_k_nearest_neighbors measure argpartition array k neighbors = Raise ValueError.
Proof.
  intros measure argpartition array k nbs H. unfold find_k_nearest_neighbors. destruct (existsb _ nbs); [ reflexivity | ].
  replace (Z.of_nat (length nbs) <? k)%Z with true by lia. reflexivity.
Qed.
Lemma knn_wrong_length : forall measure argpartition array k neighbors nb, In nb neighbors -> length nb <> length array ->
  find_k_nearest_neighbors measure argpartition array k neighbors = Raise ValueError.
Proof.
  intros measure argpartition array k nbs nb Hin H. unfold find_k_nearest_neighbors. replace (existsb _ nbs) with true; [ reflexivity | ].
  symmetry. apply existsb_exists. exists nb. split; auto. apply negb_true_iff, Nat.eqb_neq, H.
Qed.

Lemma windows_eq : forall (series : list fnum) L, L <= length series ->
  sliding_window series (Z.of_nat L) 1 = Ok (map (window series L) (seq 0 (length series - L) ++ [length series - L])).
Proof.
  intros series L H. destruct (sliding_window_spec series (Z.of_nat L) 1) as (ws & E & Ln & Hn); [ lia | lia | ].
  rewrite E. f_equal. replace (Z.of_nat L <=? Z.of_nat (length series))%Z with true in Ln by lia. rewrite Z.div_1_r in Ln.
  change [length series - L] with (seq (0 + (length series - L)) 1). rewrite <- seq_app.
  apply list_ext. intros n. rewrite nth_error_map, nth_error_seq.
  destruct (nth_error ws n) as [ w | ] eqn:W.
  - destruct (Hn n w W) as (Hb & -> & _). replace (n <? length series - L + 1) with true by lia. cbn [option_map plus].
    unfold window. rewrite Nat2Z.id. replace (n * Z.to_nat 1) with n by lia. reflexivity.
  - apply nth_error_None in W. replace (n <? length series - L + 1) with false by lia. reflexivity.
Qed.

Lemma window_length : forall series L i, i + L <= length series -> length (window series L i) = L.
Proof. intros series L i H. unfold window. rewrite firstn_length, skipn_length. lia. Qed.
Lemma window_nth : forall series L i j d, j < L -> nth j (window series L i) d = nth (i + j) series d.
Proof.
  intros series L i j d H. unfold window. revert i. induction series as [ | a series IH ]; intros i.
  - rewrite skipn_nil, firstn_nil. destruct j, i; reflexivity.
  - destruct i as [ | i ]; cbn [skipn]; [ | apply IH ].
    clear IH. revert j L H. generalize (a :: series) as l. induction l as [ | b l IH ]; intros j L H.
    + rewrite firstn_nil. destruct j; reflexivity.
    + destruct L; [ lia | ]. destruct j; cbn [firstn nth plus]; [ reflexivity | ]. apply IH. lia.
Qed.

Lemma getitem_last : forall {A} (l : list A) x, getitem (l ++ [x]) (-1) = Ok x.
Proof.
  intros A l x. unfold getitem, norm_index. rewrite app_length. cbn [length].
  replace ((0 <=? -1) && (-1 <? Z.of_nat (length l + 1)))%Z with false by lia.
  replace ((- Z.of_nat (length l + 1) <=? -1) && (-1 <? 0))%Z with true by lia.
  rewrite nth_error_app2 by lia. replace (Z.to_nat (-1 + Z.of_nat (length l + 1)) - length l) with 0 by lia. reflexivity.
Qed.
Lemma slice_but_last : forall {A} (l : list A) x, py_slice 0 (-1) (l ++ [x]) = l.
Proof.
  intros A l x. unfold py_slice. replace (slice_bound (length (l ++ [x])) 0) with 0.
  2:{ rewrite slice_bound_in; [ reflexivity | lia ]. }
  replace (slice_bound (length (l ++ [x])) (-1)) with (length l).
  2:{ unfold slice_bound. rewrite app_length. cbn [length]. replace (-1 <? 0)%Z with true by reflexivity. lia. }
  cbn [skipn]. replace (length l - 0) with (length l) by lia. rewrite firstn_app, firstn_all, Nat.sub_diag. cbn. apply app_nil_r.
Qed.

Lemma knn_forecast : forall measure argpartition series k L,
  (forall l n, n < length l -> is_argpartition l n (argpartition l n)) -> L + k <= length series ->
  exists sel f, predict_future_values_with_knn measure argpartition series (Z.of_nat k) L = Ok f /\
    k_least (map (fun i => measure (window series L (length series - L)) (window series L i)) (seq 0 (length series - L))) k sel /\
    length f = L /\ forall j, j < L -> nth_error f j = Some (fmean (map (fun i => nth (i + j) series NaN) sel)).
Proof.
  intros measure argpartition series k L Harg H. set (N := length series - L). unfold predict_future_values_with_knn.
  rewrite windows_eq by lia. fold N. cbn [bind]. rewrite map_app. cbn [map].
  set (W := map (window series L) (seq 0 N)). assert (LW : length W = N) by (unfold W; rewrite map_length, seq_length; reflexivity).
  rewrite getitem_last, slice_but_last. cbn [bind].
  destruct (knn_select measure argpartition (window series L N) k W) as (sel & E & K).
  - exact Harg.
  - intros nb Hnb. unfold W in Hnb. apply in_map_iff in Hnb. destruct Hnb as (i & <- & Hi). apply in_seq in Hi. rewrite !window_length; unfold N in *; lia.
  - unfold N in LW. lia.
  - rewrite E. cbn [bind]. assert (R : take_rows W sel = Ok (map (window series L) sel)).
    { unfold take_rows. destruct K as (_ & _ & B & _). rewrite map_length, LW in B. clear - B LW.
      induction sel as [ | i sel IH ]; cbn [mapM map]; [ reflexivity | ].
      assert (Hi : i < N) by (apply B; left; auto). rewrite (getitem_in W i (window series L i)).
      2:{ unfold W. rewrite nth_error_map, nth_error_seq. replace (i <? N) with true by lia. reflexivity. }
      cbn [bind]. rewrite IH by (intros; apply B; right; auto). reflexivity. }
    rewrite R. cbn [bind]. exists sel. eexists. split; [ reflexivity | ]. split.
    + unfold W in K. rewrite map_map in K. exact K.
    + unfold mean_axis0. rewrite map_length, seq_length. split; [ reflexivity | ]. intros j Hj.
      rewrite nth_error_map, nth_error_seq. replace (j <? L) with true by lia. cbn [option_map plus]. f_equal. f_equal. rewrite map_map.
      apply map_ext. intros i. apply window_nth. exact Hj.
Qed.

Lemma fmean_within : forall l lo hi, l <> [] -> (forall v, In v l -> is_fin v = true /\ fle (Fin lo) v = true /\ fle v (Fin hi) = true) ->
  fle (Fin lo) (fmean l) = true /\ fle (fmean l) (Fin hi) = true.
Proof.
  intros l lo hi Hne H. destruct (fin_list l) as [ q -> ]; [ intros; apply H; auto | ].
  assert (Hq : q <> []) by (destruct q; [ cbn in Hne; congruence | discriminate ]).
  destruct (mean_bounds q lo hi Hq) as [ B1 B2 ].
  - intros v Hv. destruct (H (Fin v) (in_map Fin _ _ Hv)) as (_ & H1 & H2). apply fle_Fin in H1, H2. auto.
  - fold (len_q (length q)) in B1, B2. rewrite (fmean_fin q Hq). split; apply fle_Fin; assumption.
Qed.

Lemma knn_forecast_short : forall measure argpartition series k L, length series < L ->
  predict_future_values_with_knn measure argpartition series k L = Raise IndexError.
Proof.
  intros measure argpartition series k L H. unfold predict_future_values_with_knn.
  destruct (sliding_window_spec series (Z.of_nat L) 1) as (ws & E & Ln & _); [ lia | lia | ].
  rewrite E. cbn [bind]. replace (Z.of_nat L <=? Z.of_nat (length series))%Z with false in Ln by lia. destruct ws; [ reflexivity | cbn in Ln; lia ].
Qed.
Lemma knn_forecast_few : forall measure argpartition series k L, L <= length series < L + k ->
  predict_future_values_with_knn measure argpartition series (Z.of_nat k) L = Raise ValueError.
Proof.
  intros measure argpartition series k L H. set (N := length series - L). unfold predict_future_values_with_knn.
  rewrite windows_eq by lia. fold N. cbn [bind]. rewrite map_app. cbn [map].
  set (W := map (window series L) (seq 0 N)). assert (LW : length W = N) by (unfold W; rewrite map_length, seq_length; reflexivity).
  rewrite getitem_last, slice_but_last. cbn [bind]. rewrite knn_too_few; [ reflexivity | ]. rewrite LW. unfold N. lia.
Qed.

(* ---------- mean of past ---------- *)
Lemma mean_of_past_eq : forall past (series : list fnum),
  mean_of_past (Z.of_nat past) series = fmean (if past =? 0 then series else skipn (length series - past) series).
Proof.
  intros past series. unfold mean_of_past, py_slice_from, slice_bound. f_equal. destruct (past =? 0) eqn:E.
  - replace (- Z.of_nat past <? 0)%Z with false by lia. replace (Z.to_nat (Z.min (- Z.of_nat past) (Z.of_nat (length series)))) with 0 by lia. reflexivity.
  - replace (- Z.of_nat past <? 0)%Z with true by lia. f_equal. lia.
Qed.

(* ---------- training at representatives ---------- *)
Lemma point_eqb_spec : forall a b : point, point_eqb a b = true <-> a = b.
Proof. intros [ a1 a2 ] [ b1 b2 ]. unfold point_eqb. cbn [fst snd]. rewrite andb_true_iff, !Z.eqb_eq. split; [ intros [ -> -> ]; reflexivity | intros [= -> ->]; auto ]. Qed.
Lemma existsb_point : forall pt l, existsb (point_eqb pt) l = true <-> In pt l.
Proof.
  intros pt l. rewrite existsb_exists. split; [ intros (q & H & E); apply point_eqb_spec in E; congruence | intros H; exists pt; split; auto; apply point_eqb_spec; reflexivity ].
Qed.

Section Training.
Context {P M : Type} (kind : model_kind P M).

Definition no_model (models : arr2 (cell M)) (pt : point) : bool :=
  match get2 models (fst pt) (snd pt) with Ok NoModel => true | _ => false end.

Lemma filter_map_fst : forall {A B} (f : A -> bool) (l : list (A * B)) g, (forall it, In it l -> g it = f (fst it)) ->
  length (filter g l) = length (filter f (map fst l)).
Proof.
  intros A B f l g H. induction l as [ | it l IH ]; [ reflexivity | ]. cbn [filter map]. rewrite H by (left; reflexivity).
  destruct (f (fst it)); cbn [length]; rewrite IH by (intros; apply H; right; assumption); reflexivity.
Qed.

Lemma train_with_cases : forall (f : fregion (list fnum) (cell M)) r items models n,
  proper_st r -> t_items r = Ok items -> train_with f r = Ok (models, n) ->
  wf2 models /\ a2x models = t_x r /\ a2y models = t_y r /\
  (forall pt s, In (pt, s) items -> exists c, (fn <- f_at f pt ;; fn s) = Ok c /\ get2 models (fst pt) (snd pt) = Ok c) /\
  (forall pt, in_grid (t_x r) (t_y r) pt -> ~ In pt (map fst items) -> get2 models (fst pt) (snd pt) = Ok Untouched) /\
  n = length (filter (no_model models) (map fst items)).
Proof.
  intros f r items models n Hr Ei H. unfold train_with in H. destruct (t_apply_scalar Untouched f r) as [ R | ] eqn:E; [ | discriminate ]. cbn [bind] in H.
  destruct (apply_shape _ _ _ _ E) as [ Ex Ey ].
  destruct (apply_cases Untouched f r items Hr Ei Ex Ey) as [ (m & E' & W & X & Y & Hin & Hout) | (pt & s & e & _ & _ & E') ]; [ | congruence ].
  rewrite E in E'. injection E' as ->. destruct (proper_new_spatial r m Hr W X Y) as (Hp & Hd & Hm).
  rewrite Hd in H. rewrite (proper_s_items NoModel) in H by assumption. cbn [bind] in H. injection H as <- <-.
  repeat split; auto. rewrite (filter_map_fst (no_model m)).
  - rewrite map_map. cbn [fst]. rewrite map_id. f_equal. f_equal. rewrite (items_points r) by assumption. rewrite Hm. unfold s_x, s_y. rewrite Hd, X, Y. reflexivity.
  - intros [ pt c ] Hin'. apply in_map_iff in Hin'. destruct Hin' as (q & [= <- <-] & Hq). apply filter_In in Hq. destruct Hq as [ Hq _ ].
    apply in_grid_iff in Hq. cbn [fst snd]. unfold no_model. pose proof (get2_s_val (t_new_spatial r m) NoModel q (proper_s_swf _ Hp) Hq) as G.
    rewrite Hd in G. rewrite G. destruct (s_val _ _ _); reflexivity.
Qed.

Lemma train_at_reps : forall params reps r items models n,
  proper_st r -> t_items r = Ok items -> train_at_representatives kind params reps r = Ok (models, n) ->
  (forall pt s, In (pt, s) items -> In pt reps ->
     exists p m, get2 params (fst pt) (snd pt) = Ok (Some p) /\ training_function kind p s = Ok m /\
                 get2 models (fst pt) (snd pt) = Ok (match m with Some m => Trained m | None => NoModel end)) /\
  (forall pt s, In (pt, s) items -> ~ In pt reps -> get2 models (fst pt) (snd pt) = Ok NoModel) /\
  (forall pt, in_grid (t_x r) (t_y r) pt -> ~ In pt (map fst items) -> get2 models (fst pt) (snd pt) = Ok Untouched) /\
  n = length (filter (no_model models) (map fst items)).
Proof.
  intros params reps r items models n Hr Ei H. destruct (train_with_cases _ _ _ _ _ Hr Ei H) as (W & X & Y & Hin & Hout & Hn).
  repeat split; auto.
  - intros pt s Hi Hrep. destruct (Hin pt s Hi) as (c & Hc & Hg). cbn [representative_function f_at] in Hc.
    rewrite (proj2 (existsb_point pt reps) Hrep) in Hc. cbn [trainer_function f_at] in Hc.
    destruct (get2 params (fst pt) (snd pt)) as [ [ p | ] | ]; try discriminate. cbn [bind] in Hc.
    destruct (training_function kind p s) as [ m | ] eqn:Em; [ | discriminate ]. cbn [bind] in Hc. injection Hc as <-.
    exists p, m. repeat split; auto.
  - intros pt s Hi Hrep. destruct (Hin pt s Hi) as (c & Hc & Hg). cbn [representative_function f_at] in Hc.
    destruct (existsb (point_eqb pt) reps) eqn:E; [ apply existsb_point in E; contradiction | ]. cbn [bind] in Hc. congruence.
Qed.

Lemma train_everywhere : forall params r items models n,
  proper_st r -> t_items r = Ok items -> train kind params r = Ok (models, n) ->
  (forall pt s, In (pt, s) items ->
     exists p m, get2 params (fst pt) (snd pt) = Ok (Some p) /\ training_function kind p s = Ok m /\
                 get2 models (fst pt) (snd pt) = Ok (match m with Some m => Trained m | None => NoModel end)) /\
  (forall pt, in_grid (t_x r) (t_y r) pt -> ~ In pt (map fst items) -> get2 models (fst pt) (snd pt) = Ok Untouched) /\
  n = length (filter (no_model models) (map fst items)).
Proof.
  intros params r items models n Hr Ei H. destruct (train_with_cases _ _ _ _ _ Hr Ei H) as (W & X & Y & Hin & Hout & Hn).
  repeat split; auto. intros pt s Hi. destruct (Hin pt s Hi) as (c & Hc & Hg). cbn [trainer_function f_at] in Hc.
  destruct (get2 params (fst pt) (snd pt)) as [ [ p | ] | ]; try discriminate. cbn [bind] in Hc.
  destruct (training_function kind p s) as [ m | ] eqn:Em; [ | discriminate ]. cbn [bind] in Hc. injection Hc as <-.
  exists p, m. repeat split; auto.
Qed.

(** training succeeds when every representative has parameters and its training succeeds *)
Lemma train_at_reps_ok : forall params reps r items, proper_st r -> t_items r = Ok items ->
  a2x params = t_x r -> a2y params = t_y r ->
  (forall pt s, In (pt, s) items -> In pt reps -> exists p m, get2 params (fst pt) (snd pt) = Ok (Some p) /\ training_function kind p s = Ok m) ->
  exists models n, train_at_representatives kind params reps r = Ok (models, n).
Proof.
  intros params reps r items Hr Ei Ex Ey H. unfold train_at_representatives, train_with.
  destruct (apply_cases Untouched (representative_function kind params reps) r items Hr Ei Ex Ey) as [ (m & E & W & X & Y & _) | (pt & s & e & Hin & He & _) ].
  - rewrite E. cbn [bind]. destruct (proper_new_spatial r m Hr W X Y) as (Hp & Hd & Hm).
    rewrite (proper_s_items NoModel) by assumption. cbn [bind]. eauto.
  - exfalso. cbn [representative_function f_at] in He. destruct (existsb (point_eqb pt) reps) eqn:E; [ | discriminate ].
    apply existsb_point in E. destruct (H pt s Hin E) as (p & m & E1 & E2). cbn [trainer_function f_at] in He. rewrite E1 in He. cbn [bind] in He. rewrite E2 in He. discriminate.
Qed.
End Training.
