From Coq Require Import ZifyBool ZifyNat.
From Verif Require Import Base.Py Base.Float Base.PyFacts Base.FloatFacts Model.KMedoids Model.KMedoidsBad Spec.KMedoidsBad.

(** folds that never leave and come back *)
Lemma fold_fix {A S} (R : S -> S -> Prop) (f : S -> A -> S) :
  (forall s, R s s) -> (forall a b c, R a b -> R b c -> R a c) -> (forall s t, R s t -> R t s -> s = t) ->
  forall l, (forall s x, In x l -> R s (f s x)) -> forall s, fold_left f l s = s -> forall x, In x l -> f s x = s.
Proof.
  intros Rr Rt Ra. assert (G : forall l, (forall s x, In x l -> R s (f s x)) -> forall s, R s (fold_left f l s)).
  { induction l as [|y l IH]; cbn; intros H s; auto. eapply Rt; [apply H; auto|]. apply IH; auto. }
  induction l as [|y l IH]; intros H s E x Hx; [destruct Hx|]. cbn in E.
  assert (Ey : f s y = s).
  { symmetry. apply Ra; [apply H; left; auto|]. rewrite <- E at 2. apply G. intros; apply H; right; auto. }
  destruct Hx as [<-|Hx]; auto. rewrite Ey in E. apply IH; auto. intros; apply H; right; auto.
Qed.
Lemma fold_chain {A S} (R : S -> S -> Prop) (f : S -> A -> S) :
  (forall s, R s s) -> (forall a b c, R a b -> R b c -> R a c) -> forall l, (forall s x, In x l -> R s (f s x)) -> forall s, R s (fold_left f l s).
Proof. intros Rr Rt. induction l as [|y l IH]; cbn; intros H s; auto. eapply Rt; [apply H; auto|]. apply IH; auto. Qed.

Lemma filter_le {A} (f g : A -> bool) l : (forall x, In x l -> f x = true -> g x = true) -> length (filter f l) <= length (filter g l).
Proof.
  induction l as [|x l IH]; intros H; auto. cbn [filter].
  assert (L := IH (fun y Hy => H y (or_intror Hy))). pose proof (H x (or_introl eq_refl)). destruct (f x), (g x); cbn [length]; try lia; exfalso; intuition discriminate.
Qed.
Lemma filter_lt {A} (f g : A -> bool) l : (forall x, In x l -> f x = true -> g x = true) -> (exists x, In x l /\ f x = false /\ g x = true) ->
  length (filter f l) < length (filter g l).
Proof.
  induction l as [|x l IH]; intros H (y & Hy & Fy & Gy); [destruct Hy|]. cbn [filter].
  assert (L := filter_le f g l (fun y Hy => H y (or_intror Hy))). pose proof (H x (or_introl eq_refl)).
  destruct Hy as [->|Hy]; [rewrite Fy, Gy; cbn [length]; lia|].
  assert (L' := IH (fun y Hy => H y (or_intror Hy)) (ex_intro _ y (conj Hy (conj Fy Gy)))).
  destruct (f x), (g x); cbn [length]; try lia; exfalso; intuition discriminate.
Qed.

Lemma filter_len {A} (f : A -> bool) l : length (filter f l) <= length l.
Proof. induction l as [|x l IH]; cbn; auto. destruct (f x); cbn; lia. Qed.
Lemma replace_nth_nth {A} (l : list A) i j x d : i < length l -> nth j (replace_nth l i x) d = if (j =? i)%nat then x else nth j l d.
Proof.
  revert i j. induction l as [|y l IH]; intros i j Hi; cbn in *; [lia|].
  destruct i as [|i]; destruct j as [|j]; cbn; auto. rewrite IH by lia. reflexivity.
Qed.

Section BadFacts.
Context (measure : list fnum -> list fnum -> fnum) (combine_d : list (list fnum) -> fnum) (X : dataset).
Notation ccd := (compute_cluster_distances measure).
Definition d0 : medoid := (0%Z, []).
Definition tot (md : medoid) : fnum := total_distance measure combine_d X (snd md).
Definition lab1 (ms : list medoid) (x : list fnum) : nat := match np_argmin (map (fun md => measure x (snd md)) ms) with Ok r => r | Raise _ => 0 end.
Definition lab (ms : list medoid) : list nat := map (lab1 ms) X.
Definition step (i : nat) (ms : list medoid) (p : nat * list fnum) : list medoid :=
  if negb (nth (fst p) (lab ms) 0 =? i)%nat || (Z.of_nat (fst p) =? fst (nth i ms d0))%Z then ms
  else if flt (tot (Z.of_nat (fst p), snd p)) (tot (nth i ms d0)) then replace_nth ms i (Z.of_nat (fst p), snd p) else ms.
Definition stepc (ms : list medoid) (i : nat) : list medoid := fold_left (step i) (enumerate X) ms.
Definition pass (ms : list medoid) : list medoid := fold_left stepc (seq 0 (length ms)) ms.

Lemma lab1_ok ms x : ms <> [] -> np_argmin (map (fun md => measure x (snd md)) ms) = Ok (lab1 ms x).
Proof.
  intros N. unfold lab1. destruct (np_argmin_ok (map (fun md => measure x (snd md)) ms)) as [r E]; [destruct ms; cbn; congruence|]. rewrite E. auto.
Qed.
Lemma assign_ok ms : ms <> [] -> assign_labels (length ms) (ccd X ms) = Ok (lab ms).
Proof.
  intros N. unfold assign_labels. destruct (Nat.eqb_spec (length ms) 0); [destruct ms; cbn in *; congruence|].
  unfold compute_cluster_distances. rewrite mapM_map. unfold lab. apply mapM_ok. intros x _. apply lab1_ok. auto.
Qed.
Lemma in_enumerate i x : In (i, x) (enumerate X) -> nth_error X i = Some x.
Proof.
  intros H. apply In_nth_error in H. destruct H as [n H]. rewrite nth_error_enumerate in H.
  destruct (nth_error X n) eqn:E; cbn in H; [|discriminate]. injection H as <- <-. auto.
Qed.
Lemma step_length i ms p : length (step i ms p) = length ms.
Proof. unfold step. destruct (_ || _); auto. destruct (flt _ _); auto. apply replace_nth_length. Qed.
Lemma ne_len {A} (l l' : list A) : length l' = length l -> l <> [] -> l' <> [].
Proof. destruct l, l'; cbn; congruence. Qed.

Lemma consider_ok i ms p : i < length ms -> In p (enumerate X) ->
  consider measure combine_d X i (ms, lab ms, tot (nth i ms d0)) p =
  Ok (step i ms p, lab (step i ms p), tot (nth i (step i ms p) d0)).
Proof.
  intros Hi Hp. destruct p as [n x]. apply in_enumerate in Hp.
  assert (Hn : n < length X) by (apply nth_error_Some; congruence).
  unfold consider. rewrite (getitem_in _ n (nth n (lab ms) 0)); [|apply nth_error_nth'; unfold lab; rewrite map_length; auto]. cbn [bind].
  rewrite (getitem_in _ i (nth i ms d0)); [|apply nth_error_nth'; auto]. cbn [bind].
  unfold step. cbn [fst snd]. destruct (_ || _) eqn:C; auto.
  change (combine_d (ccd X [(Z.of_nat n, x)])) with (tot (Z.of_nat n, x)).
  destruct (flt (tot (Z.of_nat n, x)) (tot (nth i ms d0))) eqn:F; auto.
  unfold setitem. rewrite norm_index_of_nat by auto. cbn [bind].
  rewrite assign_ok; [|eapply ne_len; [apply replace_nth_length|destruct ms; cbn in *; [lia|congruence]]]. cbn [bind].
  rewrite replace_nth_nth, Nat.eqb_refl by auto. reflexivity.
Qed.
Lemma update_cluster_ok i ms : i < length ms -> update_cluster measure combine_d X (ms, lab ms) i = Ok (stepc ms i, lab (stepc ms i)).
Proof.
  intros Hi. unfold update_cluster. rewrite (getitem_in _ i (nth i ms d0)); [|apply nth_error_nth'; auto]. cbn [bind].
  change (combine_d (ccd X [nth i ms d0])) with (tot (nth i ms d0)). unfold stepc.
  assert (G : forall l ms, i < length ms -> (forall p, In p l -> In p (enumerate X)) ->
    foldM (consider measure combine_d X i) l (ms, lab ms, tot (nth i ms d0)) = Ok (fold_left (step i) l ms, lab (fold_left (step i) l ms), tot (nth i (fold_left (step i) l ms) d0))).
  { clear. induction l as [|p l IH]; intros ms Hi Hl; auto. cbn [foldM fold_left]. rewrite consider_ok by (auto; apply Hl; left; auto). cbn [bind].
    apply IH; [rewrite step_length; auto|]. intros; apply Hl; right; auto. }
  rewrite G by auto. reflexivity.
Qed.
Lemma stepc_length ms i : length (stepc ms i) = length ms.
Proof. unfold stepc. generalize (enumerate X). intros l. revert ms. induction l as [|p l IH]; intros ms; cbn; auto. rewrite IH. apply step_length. Qed.
Lemma update_medoids_ok ms : ms <> [] -> update_medoids measure combine_d X ms = Ok (pass ms).
Proof.
  intros N. unfold update_medoids. rewrite assign_ok by auto. cbn [bind]. unfold pass.
  assert (G : forall l ms, (forall i, In i l -> i < length ms) -> foldM (update_cluster measure combine_d X) l (ms, lab ms) = Ok (fold_left stepc l ms, lab (fold_left stepc l ms))).
  { clear. induction l as [|i l IH]; intros ms Hl; auto. cbn [foldM fold_left]. rewrite update_cluster_ok by (apply Hl; left; auto). cbn [bind].
    apply IH. intros j Hj. rewrite stepc_length. apply Hl; right; auto. }
  rewrite G; [reflexivity|]. intros i Hi. apply in_seq in Hi. lia.
Qed.

(* ---------- medoids only improve ---------- *)
Definition better (ms ms' : list medoid) : Prop :=
  length ms' = length ms /\ forall j, j < length ms ->
    nth j ms' d0 = nth j ms d0 \/
    (flt (tot (nth j ms' d0)) (tot (nth j ms d0)) = true /\ exists s, s < length X /\ nth j ms' d0 = sample_medoid X s).
Lemma better_refl ms : better ms ms.
Proof. split; auto. Qed.
Lemma better_trans a b c : better a b -> better b c -> better a c.
Proof.
  intros [La Ha] [Lb Hb]. split; [congruence|]. intros j Hj.
  destruct (Hb j ltac:(lia)) as [->|[F S]]; [apply Ha; auto|]. destruct (Ha j Hj) as [<-|[F' S']]; auto. right. split; auto. eapply flt_trans; eauto.
Qed.
Lemma better_antisym a b : better a b -> better b a -> a = b.
Proof.
  intros [La Ha] [Lb Hb]. apply (nth_ext _ _ d0 d0); [congruence|]. intros j Hj.
  destruct (Ha j Hj) as [->|[F _]]; auto. destruct (Hb j ltac:(lia)) as [<-|[F' _]]; auto.
  pose proof (flt_trans _ _ _ F F'). rewrite flt_irrefl in H. discriminate.
Qed.
Lemma step_better i ms p : In p (enumerate X) -> better ms (step i ms p).
Proof.
  intros Hp. destruct p as [n x]. apply in_enumerate in Hp. split; [apply step_length|]. intros j Hj. unfold step. cbn [fst snd].
  destruct (_ || _); auto. destruct (flt _ _) eqn:F; auto.
  destruct (le_lt_dec (length ms) i) as [L|L].
  - left. assert (E : forall (l : list medoid) i y, length l <= i -> replace_nth l i y = l).
    { induction l as [|z l IH]; intros i0 y H; cbn; auto. destruct i0; cbn in *; [lia|]. rewrite IH by lia. auto. }
    rewrite E; auto.
  - rewrite replace_nth_nth by auto. destruct (Nat.eqb_spec j i) as [->|]; auto. right. split; auto.
    exists n. split; [apply nth_error_Some; congruence|]. unfold sample_medoid. rewrite (nth_error_nth _ _ [] Hp). reflexivity.
Qed.
Lemma stepc_better ms i : better ms (stepc ms i).
Proof. unfold stepc. apply (fold_chain better (step i)); [apply better_refl|apply better_trans|]. intros; apply step_better; auto. Qed.
Lemma pass_better ms : better ms (pass ms).
Proof. unfold pass. apply (fold_chain better stepc); [apply better_refl|apply better_trans|]. intros; apply stepc_better; auto. Qed.
Lemma pass_fixed ms : pass ms = ms -> forall i p, i < length ms -> In p (enumerate X) -> step i ms p = ms.
Proof.
  intros E i p Hi Hp.
  assert (Ei : stepc ms i = ms).
  { apply (fold_fix better stepc better_refl better_trans better_antisym (seq 0 (length ms))); auto; [intros; apply stepc_better|]. apply in_seq. lia. }
  apply (fold_fix better (step i) better_refl better_trans better_antisym (enumerate X)); auto. intros; apply step_better; auto.
Qed.

(* ---------- termination ---------- *)
Definition rank (md : medoid) : nat := length (filter (fun x => flt (tot (0%Z, x)) (tot md)) X).
Definition phi (ms : list medoid) : nat := list_sum (map rank ms).
Lemma rank_lt md s : s < length X -> flt (tot (sample_medoid X s)) (tot md) = true -> rank (sample_medoid X s) < rank md.
Proof.
  intros Hs F. unfold rank. apply filter_lt.
  - intros x _ Fx. eapply flt_trans; eauto.
  - exists (nth s X []). split; [apply nth_In; auto|]. split; [apply (flt_irrefl (tot (sample_medoid X s)))|]. exact F.
Qed.
Lemma list_sum_cons a l : list_sum (a :: l) = a + list_sum l.
Proof. reflexivity. Qed.
Lemma phi_le ms : phi ms <= length ms * length X.
Proof.
  unfold phi. induction ms as [|md ms IH]; auto. cbn [map length]. rewrite list_sum_cons. assert (R : rank md <= length X) by apply filter_len. lia.
Qed.
Lemma phi_better ms ms' : better ms ms' -> ms' = ms \/ phi ms' < phi ms.
Proof.
  unfold better, phi. revert ms'. induction ms as [|a ms IH]; intros [|a' ms'] [L H]; cbn [length] in L; try lia; auto.
  destruct (IH ms') as [E|E].
  { split; [lia|]. intros j Hj. apply (H (S j)). cbn. lia. }
  - subst. destruct (H 0 ltac:(cbn; lia)) as [E|[F (s & Hs & E)]]; cbn [nth] in E; [left; congruence|]. right. cbn [nth] in F. cbn [map]. rewrite !list_sum_cons.
    subst a'. pose proof (rank_lt a s Hs F). lia.
  - right. cbn [map]. rewrite !list_sum_cons. destruct (H 0 ltac:(cbn; lia)) as [E'|[F (s & Hs & E')]]; cbn [nth] in E'.
    + subst. lia.
    + subst. cbn [nth] in F. pose proof (rank_lt a s Hs F). lia.
Qed.

Lemma loop_spec fuel max_steps ms labels i conv : ms <> [] -> (conv = false -> phi ms < fuel) ->
  exists ms' labels', bad_loop measure combine_d fuel X max_steps i conv ms labels = Ok (ms', labels') /\ better ms ms' /\
    (max_steps = None -> conv = false -> exists ms0, better ms ms0 /\ ms' = pass ms0 /\ map fst ms0 = map fst ms' /\ labels' = lab ms0).
Proof.
  revert ms labels i conv. induction fuel as [|fuel IH]; intros ms labels i conv N Hf; cbn [bad_loop].
  - destruct conv; [|specialize (Hf eq_refl); lia]. cbn [negb andb]. do 2 eexists. split; [reflexivity|]. split; [apply better_refl|]. discriminate.
  - destruct (negb conv && _) eqn:C.
    + rewrite assign_ok by auto. cbn [bind]. rewrite update_medoids_ok by auto. cbn [bind].
      assert (Cf : conv = false) by (destruct conv; auto; discriminate). specialize (Hf Cf).
      assert (B := pass_better ms).
      destruct (IH (pass ms) (lab ms) (i + 1)%Z (has_converged ms (pass ms))) as (ms' & labels' & E & B' & F).
      * eapply ne_len; [apply B|auto].
      * intros Hc. destruct (phi_better _ _ B) as [E|E]; [|lia]. rewrite E in Hc. unfold has_converged in Hc. destruct (list_eq_dec _ _ _); congruence.
      * exists ms', labels'. split; auto. split; [eapply better_trans; eauto|]. intros Hm _. specialize (F Hm).
        destruct (has_converged ms (pass ms)) eqn:Hc.
        -- exists ms. split; [apply better_refl|]. destruct fuel; cbn [bad_loop] in E; injection E as <- <-; split; auto; split; auto;
             unfold has_converged in Hc; destruct (list_eq_dec _ _ _); congruence.
        -- destruct (F eq_refl) as (ms0 & B0 & Em & Ei & El). exists ms0. split; auto. eapply better_trans; eauto.
    + do 2 eexists. split; [reflexivity|]. split; [apply better_refl|]. intros -> ->. discriminate.
Qed.

Lemma better_samples ms ms' : are_samples X ms -> better ms ms' -> are_samples X ms'.
Proof.
  intros H [L B] md Hm. apply (In_nth _ _ d0) in Hm. destruct Hm as (j & Hj & <-). destruct (B j ltac:(lia)) as [->|[_ S]]; auto.
  apply H. apply nth_In. lia.
Qed.
Lemma samples_eq ms ms' : are_samples X ms -> are_samples X ms' -> map fst ms = map fst ms' -> ms = ms'.
Proof.
  revert ms'. induction ms as [|a ms IH]; intros [|a' ms'] H H' E; cbn in E; try congruence.
  injection E as E1 E2. destruct (H a (or_introl eq_refl)) as (s & _ & ->). destruct (H' a' (or_introl eq_refl)) as (s' & _ & ->). cbn in E1.
  assert (s = s') by lia. subst. f_equal. apply IH; auto; intros md Hm; [apply H|apply H']; right; auto.
Qed.
Lemma nearest_lab ms x : ms <> [] -> (forall md, In md ms -> is_nan (measure x (snd md)) = false) -> nearest_of measure ms x (lab1 ms x).
Proof.
  intros N H. assert (H' : forall y, In y (map (fun md => measure x (snd md)) ms) -> is_nan y = false).
  { intros y Hy. apply in_map_iff in Hy. destruct Hy as (md & <- & Hm). apply H; auto. }
  destruct (np_argmin_spec _ _ H' (lab1_ok ms x N)) as (m & Em & P).
  rewrite nth_error_map in Em. destruct (nth_error ms (lab1 ms x)) as [md|] eqn:E; cbn in Em; [|discriminate]. injection Em as <-.
  exists md. split; auto. intros j md' Hj. apply (P j). exact (map_nth_error (fun md : medoid => measure x (snd md)) j ms Hj).
Qed.

(* ---------- distinct medoids ---------- *)
Lemma step_distinct i ms p : separates measure X -> In p (enumerate X) -> are_samples X ms -> i < length ms -> NoDup (map fst ms) -> NoDup (map fst (step i ms p)).
Proof.
  intros Sep Hp HS Hi ND. destruct p as [n x]. apply in_enumerate in Hp. assert (Hn : n < length X) by (apply nth_error_Some; congruence).
  assert (Hx : x = nth n X []) by (rewrite (nth_error_nth _ _ [] Hp); auto). unfold step. cbn [fst snd].
  destruct (_ || _) eqn:C; auto. destruct (flt _ _) eqn:F; auto.
  apply orb_false_iff in C. destruct C as [C1 C2]. apply negb_false_iff, Nat.eqb_eq in C1. apply Z.eqb_neq in C2.
  assert (N : ms <> []) by (destruct ms; cbn in *; [lia|congruence]).
  assert (Fresh : forall j, j < length ms -> fst (nth j ms d0) <> Z.of_nat n).
  { intros j Hj E. destruct (HS (nth j ms d0) (nth_In _ _ Hj)) as (s & Hs & Es). rewrite Es in E. cbn in E. assert (s = n) by lia. subst s.
    assert (Hl : lab1 ms x = i).
    { unfold lab in C1. rewrite (nth_indep _ 0 (lab1 ms []) ) in C1 by (rewrite map_length; auto). rewrite map_nth, <- Hx in C1. auto. }
    destruct (HS (nth i ms d0) (nth_In _ _ Hi)) as (t & Ht & Et).
    assert (Near : nearest_of measure ms x i).
    { rewrite <- Hl at 1. apply nearest_lab; auto. intros md Hm. destruct (HS md Hm) as (u & Hu & ->). cbn [snd sample_medoid]. rewrite Hx.
      destruct (Sep n u Hn Hu) as [S1 S2]. destruct (list_eq_dec (fun a b : fnum => ltac:(repeat decide equality)) (nth n X []) (nth u X [])) as [Eq|Ne].
      - rewrite <- Eq. apply fle_not_nan in S1. tauto.
      - specialize (S2 Ne). apply flt_not_nan in S2. tauto. }
    destruct Near as (md & Emd & P). rewrite (nth_error_nth' ms d0 Hi) in Emd. injection Emd as <-.
    destruct (P j (nth j ms d0) (nth_error_nth' ms d0 Hj)) as [P1 _]. rewrite Es, Et, Hx in P1. cbn [snd sample_medoid] in P1.
    destruct (Sep n t Hn Ht) as [S1 S2]. pose proof (fle_trans _ _ _ P1 S1) as P2.
    assert (Eq : nth n X [] = nth t X []).
    { destruct (list_eq_dec (fun a b : fnum => ltac:(repeat decide equality)) (nth n X []) (nth t X [])) as [Eq|Ne]; auto.
      pose proof (fle_lt_trans _ _ _ P2 (S2 Ne)) as G. rewrite flt_irrefl in G. discriminate. }
    rewrite Et in F. unfold tot in F. cbn [snd sample_medoid] in F. rewrite Hx, Eq, flt_irrefl in F. discriminate. }
  apply (NoDup_nth _ (fst d0)). intros a b Ha Hb. rewrite map_length, replace_nth_length in Ha, Hb. rewrite !map_nth, !replace_nth_nth by auto.
  pose proof (proj1 (NoDup_nth (map fst ms) (fst d0)) ND a b) as U. rewrite map_length, !map_nth in U.
  destruct (Nat.eqb_spec a i), (Nat.eqb_spec b i); subst; auto; cbn [fst]; intros E; exfalso; [apply (Fresh b Hb)|apply (Fresh a Ha)]; auto.
Qed.
Lemma pass_distinct ms : separates measure X -> are_samples X ms -> NoDup (map fst ms) -> NoDup (map fst (pass ms)).
Proof.
  intros Sep HS ND. unfold pass.
  assert (G : forall l ms, (forall i, In i l -> i < length ms) -> are_samples X ms -> NoDup (map fst ms) -> NoDup (map fst (fold_left stepc l ms))).
  { clear ms HS ND. induction l as [|i l IH]; intros ms Hl HS ND; auto. cbn [fold_left]. apply IH.
    - intros j Hj. rewrite stepc_length. apply Hl; right; auto.
    - eapply better_samples; [apply HS|apply stepc_better].
    - assert (Hi : i < length ms) by (apply Hl; left; auto). clear Hl IH. unfold stepc.
      assert (HI : forall p, In p (enumerate X) -> In p (enumerate X)) by auto. revert HI. generalize (enumerate X) at 1 3. intros L. revert ms HS ND Hi.
      induction L as [|p L IHL]; intros ms HS ND Hi HI; auto. cbn [fold_left]. apply IHL.
      + eapply better_samples; [apply HS|apply step_better; apply HI; left; auto].
      + apply step_distinct; auto. apply HI; left; auto.
      + rewrite step_length; auto.
      + intros; apply HI; right; auto. }
  apply G; auto. intros i Hi. apply in_seq in Hi. lia.
Qed.
Lemma loop_distinct fuel max_steps ms labels i conv ms' labels' : separates measure X -> ms <> [] -> are_samples X ms -> NoDup (map fst ms) ->
  bad_loop measure combine_d fuel X max_steps i conv ms labels = Ok (ms', labels') -> NoDup (map fst ms').
Proof.
  intros Sep. revert ms labels i conv. induction fuel as [|fuel IH]; intros ms labels i conv N HS ND E; cbn [bad_loop] in E.
  - destruct (_ && _); [discriminate|]. injection E as <- <-. auto.
  - destruct (_ && _); [|injection E as <- <-; auto]. rewrite assign_ok in E by auto. cbn [bind] in E. rewrite update_medoids_ok in E by auto. cbn [bind] in E.
    eapply IH; [..|exact E].
    + eapply ne_len; [apply pass_better|auto].
    + eapply better_samples; [apply HS|apply pass_better].
    + apply pass_distinct; auto.
Qed.
End BadFacts.
