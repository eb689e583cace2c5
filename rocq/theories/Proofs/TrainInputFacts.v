(** Facts for Model/TrainInput.v. *)
From Coq Require Import String Permutation ZifyBool ZifyNat.
From Verif Require Import Base.Py Base.PyFacts Base.Dict Base.Float Base.FloatFacts Model.Region Model.Models Model.Clustering Model.Results Model.TrainInput Spec.TrainInput
     Proofs.ClusteringFacts Proofs.WarpingFacts Proofs.RegionFacts Spec.Grid.
Local Notation length := List.length.
Local Open Scope nat_scope.

(* ---------- histogram ---------- *)
Lemma key_eqb_eq a b : key_eqb a b = true <-> a = b.
Proof.
  destruct a as [r i], b as [r' i']. unfold key_eqb. cbn [fst snd]. rewrite andb_true_iff, String.eqb_eq, Z.eqb_eq.
  split; [intros [-> ->]; auto|]. intros E; injection E; auto.
Qed.
Lemma key_eqb_refl a : key_eqb a a = true.
Proof. apply key_eqb_eq; auto. Qed.
Lemma key_eqb_neq a b : a <> b -> key_eqb a b = false.
Proof. intros H. destruct (key_eqb a b) eqn:E; auto. apply key_eqb_eq in E. contradiction. Qed.
Lemma key_eqb_spec a b : reflect (a = b) (key_eqb a b).
Proof. destruct (key_eqb a b) eqn:E; constructor; [apply key_eqb_eq; auto|]. intros H. rewrite H, key_eqb_refl in E. discriminate. Qed.

Lemma hist_get_set h k v k' : hist_get (dict_set key_eqb k v h) k' = if key_eqb k k' then v else hist_get h k'.
Proof.
  unfold hist_get. induction h as [|[q n] h IH]; cbn [dict_set dict_get].
  - destruct (key_eqb_spec k k'); auto.
  - destruct (key_eqb_spec q k) as [->|N].
    + cbn [dict_get]. destruct (key_eqb_spec k k'); auto.
    + cbn [dict_get]. destruct (key_eqb_spec q k') as [->|N'].
      * rewrite key_eqb_neq by congruence. reflexivity.
      * exact IH.
Qed.
Lemma hist_total_set h k : hist_total (dict_set key_eqb k (hist_get h k + 1)%Z h) = (hist_total h + 1)%Z.
Proof.
  unfold hist_total, hist_get. induction h as [|[q n] h IH]; cbn [dict_set dict_get fold_right snd]; [lia|].
  destruct (key_eqb_spec q k) as [->|N]; cbn [fold_right snd]; [lia|]. rewrite IH. lia.
Qed.

(* ---------- suppression ---------- *)
(** the score that counts *)
Definition eff1 (threshold : Z) (h : hist) (r : string) (i : nat) (p : fnum) : fnum :=
  if (negb (threshold =? 0)%Z && (hist_get h (r, Z.of_nat i) =? threshold)%Z)%bool then PInf else p.

Lemma supress_loop r threshold h (ms : list point) : (threshold <> 0)%Z -> within threshold h -> forall k scores, k + length ms <= length scores ->
  exists scores', foldM (fun scores '(cluster_index, _) =>
             let n := hist_get h (r, Z.of_nat cluster_index) in
             _ <- py_assert (n <=? threshold)%Z ;;
             if (n =? threshold)%Z then setitem scores (Z.of_nat cluster_index) PInf else Ok scores)
          (combine (seq k (length ms)) ms) scores = Ok scores' /\ length scores' = length scores /\
    forall i, nth_error scores' i = if (k <=? i) && (i <? k + length ms) then option_map (eff1 threshold h r i) (nth_error scores i)
                                    else nth_error scores i.
Proof.
  intros Ht Hw. induction ms as [|m ms IH]; intros k scores Hk; cbn [length seq combine foldM].
  - exists scores. repeat split; auto. intros i. destruct (k <=? i) eqn:E1, (i <? k + 0) eqn:E2; auto. lia.
  - cbn [length] in Hk.
    pose proof (Hw (r, Z.of_nat k)) as [_ W]. replace (hist_get h (r, Z.of_nat k) <=? threshold)%Z with true by lia.
    cbn [py_assert bind].
    assert (S : exists s1, (if (hist_get h (r, Z.of_nat k) =? threshold)%Z then setitem scores (Z.of_nat k) PInf else Ok scores) = Ok s1 /\
      length s1 = length scores /\ forall i, nth_error s1 i = if i =? k then option_map (eff1 threshold h r i) (nth_error scores i) else nth_error scores i).
    { destruct (hist_get h (r, Z.of_nat k) =? threshold)%Z eqn:E.
      - rewrite setitem_nat by lia. eexists. split; [reflexivity|]. split; [apply replace_nth_length|].
        intros i. destruct (Nat.eqb_spec i k) as [->|N].
        + rewrite replace_nth_same by lia. destruct (nth_error scores k) eqn:F; [|apply nth_error_None in F; lia].
          cbn [option_map]. unfold eff1. rewrite E. replace (threshold =? 0)%Z with false by lia. reflexivity.
        + apply replace_nth_other; lia.
      - exists scores. split; auto. split; auto. intros i. destruct (Nat.eqb_spec i k) as [->|N]; auto.
        unfold eff1. rewrite E, andb_false_r. destruct (nth_error scores k); reflexivity. }
    destruct S as (s1 & E1 & L1 & N1). rewrite E1. cbn [bind].
    destruct (IH (Datatypes.S k) s1) as (s2 & E2 & L2 & N2); [lia|]. exists s2. split; [exact E2|]. split; [lia|].
    intros i. rewrite N2, N1. destruct (Nat.eqb_spec i k) as [->|N].
    + replace (S k <=? k) with false by lia. replace (k <=? k) with true by lia. replace (k <? k + S (length ms)) with true by lia. reflexivity.
    + replace ((k <=? i) && (i <? k + S (length ms))) with ((S k <=? i) && (i <? S k + length ms)) by lia. reflexivity.
Qed.

Lemma supress_ok r ms ps threshold h : length ps = length ms -> threshold = 0%Z \/ within threshold h ->
  exists s, supress_medoids r ms ps threshold h = Ok s /\ length s = length ms /\
    forall i, nth_error s i = option_map (eff1 threshold h r i) (nth_error ps i).
Proof.
  intros L H. unfold supress_medoids. destruct (Z.eqb_spec threshold 0) as [->|N].
  - exists ps. split; auto. split; auto. intros i. destruct (nth_error ps i); reflexivity.
  - destruct H as [H|H]; [contradiction|].
    destruct (supress_loop r threshold h ms N H 0 ps) as (s & E & L' & P); [lia|].
    exists s. unfold enumerate. split; [exact E|]. split; [lia|]. intros i. rewrite P.
    destruct ((0 <=? i) && (i <? 0 + length ms)) eqn:F; auto.
    assert (G : length ps <= i) by lia. apply nth_error_None in G. rewrite G. reflexivity.
Qed.

Lemma eff1_available threshold h r i p : threshold = 0%Z \/ within threshold h -> available threshold h r i -> eff1 threshold h r i p = p.
Proof.
  intros Hw [->|A]; unfold eff1; [reflexivity|]. replace (hist_get h (r, Z.of_nat i) =? threshold)%Z with false by lia.
  rewrite andb_false_r. reflexivity.
Qed.
Lemma available_dec threshold h r i : {available threshold h r i} + {~ available threshold h r i}.
Proof.
  unfold available. destruct (Z.eq_dec threshold 0) as [->|N]; [left; auto|].
  destruct (Z_lt_dec (hist_get h (r, Z.of_nat i)) threshold); [left; auto|right]. lia.
Qed.
Lemma eff1_unavailable threshold h r i p : threshold = 0%Z \/ within threshold h -> ~ available threshold h r i -> eff1 threshold h r i p = PInf.
Proof.
  unfold available. intros Hw A. destruct Hw as [->|Hw]; [tauto|]. pose proof (Hw (r, Z.of_nat i)). unfold eff1.
  replace (threshold =? 0)%Z with false by lia. replace (hist_get h (r, Z.of_nat i) =? threshold)%Z with true by lia. reflexivity.
Qed.

(* ---------- argmin with missing values ---------- *)
Lemma arg_best_nan l : forall pre best bi, nth_error pre bi = Some best -> is_nan best = true \/ (exists x, In x l /\ is_nan x = true) ->
  exists v, nth_error (pre ++ l) (arg_best_aux argmin_better l (length pre) bi best) = Some v /\ is_nan v = true.
Proof.
  induction l as [|a l IH]; intros pre best bi Hb H; cbn [arg_best_aux].
  - destruct H as [H|(x & [] & _)]. exists best. rewrite app_nil_r. auto.
  - assert (Hlen : length (pre ++ [a]) = S (length pre)) by (rewrite app_length; cbn; lia).
    assert (A : forall k b, nth_error (pre ++ [a]) k = Some b -> (is_nan b = true \/ exists x, In x l /\ is_nan x = true) ->
      exists v, nth_error (pre ++ a :: l) (arg_best_aux argmin_better l (S (length pre)) k b) = Some v /\ is_nan v = true).
    { intros k b Hk Hn. destruct (IH (pre ++ [a]) b k Hk Hn) as (v & E & N). rewrite Hlen, <- app_assoc in E. exists v. auto. }
    assert (B1 : nth_error (pre ++ [a]) (length pre) = Some a) by (rewrite nth_error_app2, Nat.sub_diag by lia; reflexivity).
    assert (B2 : nth_error (pre ++ [a]) bi = Some best) by (rewrite nth_error_app1; auto; apply nth_error_Some; congruence).
    destruct (argmin_better a best) eqn:E.
    + apply A; auto. unfold argmin_better in E. apply andb_true_iff in E. destruct E as [E1 E2].
      destruct H as [H|(x & [->|Hx] & Hn)]; eauto. rewrite H in E1. discriminate.
    + apply A; auto. destruct H as [H|(x & [->|Hx] & Hn)]; eauto. left.
      unfold argmin_better in E. rewrite Hn in E. cbn in E. destruct (is_nan best); auto.
Qed.
Lemma np_argmin_nan l r x : np_argmin l = Ok r -> In x l -> is_nan x = true -> exists v, nth_error l r = Some v /\ is_nan v = true.
Proof.
  destruct l as [|a l]; [discriminate|]. cbn [np_argmin]. intros E Hx Hn. injection E as <-.
  destruct (arg_best_nan l [a] a 0 eq_refl) as (v & Ev & Nv); eauto. destruct Hx as [->|Hx]; eauto.
Qed.
Lemma nan_flt v w : is_nan v = true -> flt v w = false.
Proof. destruct v; try discriminate. reflexivity. Qed.

(* ---------- the choice ---------- *)
Section Choose.
Context (penalties : string -> list point -> point -> res (list fnum)) (pt : point) (threshold : Z) (h : hist).
Hypothesis Hw : threshold = 0%Z \/ within threshold h.

(** what is known after a prefix of the suite *)
Definition best_so_far (sr : suite) (st : option (string * Z * point) * fnum) : Prop :=
  let '(best, s) := st in
  is_nan s = false /\ s <> NInf /\
  (forall n i r m v, candidate penalties sr pt threshold h n i r m v -> fle s v = true) /\
  match best with
  | None => s = PInf
  | Some (r, i, m) => exists n k, i = Z.of_nat k /\ candidate penalties sr pt threshold h n k r m s /\ flt s PInf = true /\
      forall n' k' r' m' v', candidate penalties sr pt threshold h n' k' r' m' v' -> before n' k' n k -> flt s v' = true
  end.

Lemma candidate_app sr e n i r m v : candidate penalties sr pt threshold h n i r m v -> candidate penalties (sr ++ [e]) pt threshold h n i r m v.
Proof.
  intros (ms & ps & E & R). exists ms, ps. split; auto. rewrite nth_error_app1; auto. apply nth_error_Some. congruence.
Qed.
Lemma candidate_app_inv sr e n i r m v : candidate penalties (sr ++ [e]) pt threshold h n i r m v ->
  candidate penalties sr pt threshold h n i r m v \/
  (n = length sr /\ exists ms ps, e = (r, ms) /\ nth_error ms i = Some m /\ penalties r ms pt = Ok ps /\ nth_error ps i = Some v /\
    available threshold h r i /\ forall j w, nth_error ps j = Some w -> available threshold h r j -> is_nan w = false).
Proof.
  intros (ms & ps & E & R). destruct (Nat.lt_ge_cases n (length sr)) as [L|L].
  - left. exists ms, ps. rewrite nth_error_app1 in E by auto. auto.
  - rewrite nth_error_app2 in E by auto. destruct (n - length sr) as [|k] eqn:Ek; [|destruct k; discriminate].
    right. split; [lia|]. cbn in E. injection E as ->. exists ms, ps. auto.
Qed.

Lemma choose_step_ok sr e st : best_so_far sr st -> penalties_fit penalties [e] pt ->
  exists st', choose_step penalties pt threshold h st e = Ok st' /\ best_so_far (sr ++ [e]) st'.
Proof.
  intros Hst Hf. destruct e as [r ms]. destruct (Hf r ms (or_introl eq_refl)) as (Hms & ps & Eps & Lps & Nps).
  unfold choose_step. rewrite Eps. cbn [bind].
  destruct (supress_ok r ms ps threshold h Lps Hw) as (sc & Esc & Lsc & Psc). rewrite Esc. cbn [bind].
  destruct (np_argmin_ok sc) as [k Ek]. { intros ->. cbn in Lsc. destruct ms; [auto|discriminate]. }
  rewrite Ek. cbn [bind].
  assert (Hk : exists s, nth_error sc k = Some s).
  { destruct (existsb is_nan sc) eqn:Ex.
    - apply existsb_exists in Ex. destruct Ex as (x & Hx & Hn). destruct (np_argmin_nan sc k x Ek Hx Hn) as (v & E & _). eauto.
    - destruct (np_argmin_spec sc k) as (v & E & _); eauto. intros x Hx.
      destruct (is_nan x) eqn:N; auto. assert (existsb is_nan sc = true) by (apply existsb_exists; eauto). congruence. }
  destruct Hk as [s Hs]. rewrite getitem_cons_nat, Hs. cbn [bind].
  assert (Lk : k < length ms). { rewrite <- Lsc. apply nth_error_Some. congruence. }
  destruct (nth_error ms k) as [m|] eqn:Em; [|apply nth_error_None in Em; lia].
  rewrite getitem_cons_nat, Em. cbn [bind].
  destruct st as [best s0]. cbn [snd]. destruct Hst as (Hn0 & Hi0 & Hle & Hb).
  (* effective scores of candidates of this entry *)
  assert (Cand : forall i m' v, (exists ms' ps', (r, ms) = (r, ms') /\ nth_error ms' i = Some m' /\ penalties r ms' pt = Ok ps' /\
      nth_error ps' i = Some v /\ available threshold h r i /\
      forall j w, nth_error ps' j = Some w -> available threshold h r j -> is_nan w = false) ->
      nth_error sc i = Some v /\ (forall x, In x sc -> is_nan x = false)).
  { intros i m' v (ms' & ps' & E1 & E2 & E3 & E4 & A & B). assert (ms' = ms) by congruence. subst ms'.
    assert (ps' = ps) by congruence. subst ps'. split.
    - rewrite Psc, E4. cbn [option_map]. rewrite eff1_available by auto. reflexivity.
    - intros x Hx. apply In_nth_error in Hx. destruct Hx as [j Hj]. rewrite Psc in Hj.
      destruct (nth_error ps j) as [w|] eqn:Ew; [|discriminate]. cbn [option_map] in Hj. injection Hj as <-.
      destruct (available_dec threshold h r j) as [Aj|Aj].
      + rewrite eff1_available by auto. eauto.
      + rewrite eff1_unavailable by auto. reflexivity. }
  destruct (flt s s0) eqn:Elt.
  - (* a new best *)
    assert (Ns : is_nan s = false) by (apply flt_not_nan in Elt; tauto).
    assert (NN : forall x, In x sc -> is_nan x = false).
    { intros x Hx. destruct (is_nan x) eqn:N; auto. destruct (np_argmin_nan sc k x Ek Hx N) as (v & Ev & Nv). congruence. }
    destruct (np_argmin_spec sc k NN Ek) as (s' & Es' & Pmin). assert (s' = s) by congruence. subst s'.
    assert (Lt : flt s PInf = true).
    { eapply flt_le_trans; eauto. destruct s0; auto; discriminate. }
    assert (Av : available threshold h r k).
    { destruct (available_dec threshold h r k) as [A|A]; auto. exfalso. rewrite Psc in Hs.
      destruct (nth_error ps k); [|discriminate]. cbn [option_map] in Hs. rewrite eff1_unavailable in Hs by auto.
      injection Hs as <-. discriminate. }
    assert (Pk : nth_error ps k = Some s).
    { rewrite Psc in Hs. destruct (nth_error ps k) as [w|]; [|discriminate]. cbn [option_map] in Hs.
      rewrite eff1_available in Hs by auto. exact Hs. }
    assert (Me : candidate penalties (sr ++ [(r, ms)]) pt threshold h (length sr) k r m s).
    { exists ms, ps. rewrite nth_error_app2, Nat.sub_diag by lia. repeat split; auto.
      intros j w Hj Aj. apply NN. apply (nth_error_In _ j). rewrite Psc, Hj. cbn [option_map]. rewrite eff1_available by auto. reflexivity. }
    eexists. split; [reflexivity|]. cbn [best_so_far]. split; auto. split. { intros ->. apply (Nps NInf); auto. eapply nth_error_In; eauto. }
    split.
    + intros n i r' m' v Hc. apply candidate_app_inv in Hc. destruct Hc as [Hc|(-> & ms' & ps' & Ee & R)].
      * apply fle_trans with s0; [apply flt_fle; auto|]. eapply Hle; eauto.
      * assert (r' = r) by congruence. subst r'. destruct (Cand i m' v) as [Ci _]; [exists ms', ps'; auto|]. apply (Pmin i v Ci).
    + exists (length sr), k. split; auto. split; auto. split; auto.
      intros n' k' r' m' v' Hc Hbf. apply candidate_app_inv in Hc. destruct Hc as [Hc|(-> & ms' & ps' & Ee & R)].
      * apply flt_le_trans with s0; auto. eapply Hle; eauto.
      * assert (r' = r) by congruence. subst r'. destruct (Cand k' m' v') as [Ci _]; [exists ms', ps'; auto|].
        destruct Hbf as [Hbf|[_ Hbf]]; [lia|]. apply (Pmin k' v' Ci); auto.
  - (* no better one here *)
    eexists. split; [reflexivity|]. cbn [best_so_far]. split; auto. split; auto. split.
    + intros n i r' m' v Hc. apply candidate_app_inv in Hc. destruct Hc as [Hc|(-> & ms' & ps' & Ee & R)]; [eapply Hle; eauto|].
      assert (r' = r) by congruence. subst r'. destruct (Cand i m' v) as [Ci NN]; [exists ms', ps'; auto|].
      destruct (np_argmin_spec sc k NN Ek) as (s' & Es' & Pmin). assert (s' = s) by congruence. subst s'.
      apply fle_trans with s; [|apply (Pmin i v Ci)]. apply fle_iff; auto. apply NN. eapply nth_error_In; eauto.
    + destruct best as [[[r0 i0] m0]|]; auto. destruct Hb as (n0 & k0 & E0 & C0 & L0 & B0).
      exists n0, k0. split; auto. split; [apply candidate_app; auto|]. split; auto.
      intros n' k' r' m' v' Hc Hbf. apply candidate_app_inv in Hc. destruct Hc as [Hc|(-> & _)]; [eapply B0; eauto|].
      exfalso. destruct C0 as (ms0 & ps0 & E & _). assert (n0 < length sr) by (apply nth_error_Some; congruence).
      destruct Hbf as [Hbf|[Hbf _]]; lia.
Qed.

Lemma choose_loop_ok sr : forall pre st, best_so_far pre st -> penalties_fit penalties sr pt ->
  exists st', foldM (choose_step penalties pt threshold h) sr st = Ok st' /\ best_so_far (pre ++ sr) st'.
Proof.
  induction sr as [|e sr IH]; intros pre st Hst Hf; cbn [foldM].
  - exists st. rewrite app_nil_r. auto.
  - destruct (choose_step_ok pre e st Hst) as (st1 & E1 & B1). { intros r ms [->|[]]. apply Hf. left; auto. }
    rewrite E1. cbn [bind]. destruct (IH (pre ++ [e]) st1 B1) as (st2 & E2 & B2). { intros r ms Hin. apply Hf. right; auto. }
    exists st2. rewrite <- app_assoc in B2. auto.
Qed.
Lemma best_start : best_so_far [] (None, PInf).
Proof.
  cbn [best_so_far]. repeat split; auto; try discriminate. intros n i r m v (ms & ps & E & _). destruct n; discriminate.
Qed.

Lemma choose_result sr : penalties_fit penalties sr pt ->
  (exists n k r m v, choose_medoid penalties sr pt threshold h
       = (Ok (r, Z.of_nat k, m), dict_set key_eqb (r, Z.of_nat k) (hist_get h (r, Z.of_nat k) + 1)%Z h) /\
     candidate penalties sr pt threshold h n k r m v /\ (exists q, v = Fin q) /\
     (forall n' k' r' m' v', candidate penalties sr pt threshold h n' k' r' m' v' ->
        fle v v' = true /\ (before n' k' n k -> flt v v' = true))) \/
  (choose_medoid penalties sr pt threshold h = (Raise ValueError, h) /\
   forall n k r m v, candidate penalties sr pt threshold h n k r m v -> v = PInf).
Proof.
  intros Hf. destruct (choose_loop_ok sr [] (None, PInf) best_start Hf) as ([best s] & E & B). cbn [app] in B.
  unfold choose_medoid. rewrite E. destruct B as (Ns & Is & Hle & Hb). destruct best as [[[r i] m]|].
  - destruct Hb as (n & k & -> & C & L & Bf). left. exists n, k, r, m, s.
    assert (Fi : exists q, s = Fin q) by (destruct s; try discriminate; try contradiction; eauto).
    destruct Fi as [q ->]. cbn [is_inf]. split; auto. split; auto. split; eauto.
  - subst s. cbn [is_inf]. right. split; auto. intros n k r m v C. specialize (Hle _ _ _ _ _ C). destruct v; try discriminate; auto.
Qed.
End Choose.

(* ---------- histories ---------- *)
Lemma getitem_raise {A} (l : list A) i e : getitem l i = Raise e -> e = IndexError.
Proof. unfold getitem. destruct (norm_index _ _) as [j|]; [destruct (nth_error l j)|]; intros H; try discriminate; congruence. Qed.
Lemma setitem_raise {A} (l : list A) i v e : setitem l i v = Raise e -> e = IndexError.
Proof. unfold setitem. destruct (norm_index _ _); intros H; try discriminate; congruence. Qed.
Lemma setitem_nat_inv {A} (l : list A) n v l' : setitem l (Z.of_nat n) v = Ok l' -> n < length l /\ l' = replace_nth l n v.
Proof.
  intros H. destruct (Nat.lt_ge_cases n (length l)) as [L|L].
  - rewrite setitem_nat in H by auto. injection H as <-. auto.
  - exfalso. unfold setitem, norm_index in H.
    replace ((0 <=? Z.of_nat n) && (Z.of_nat n <? Z.of_nat (length l)))%Z with false in H by lia.
    replace ((- Z.of_nat (length l) <=? Z.of_nat n) && (Z.of_nat n <? 0))%Z with false in H by lia. discriminate.
Qed.

Lemma supress_loop_inv r threshold h (ms : list point) : forall k scores s',
  foldM (fun scores '(cluster_index, _) =>
             let n := hist_get h (r, Z.of_nat cluster_index) in
             _ <- py_assert (n <=? threshold)%Z ;;
             if (n =? threshold)%Z then setitem scores (Z.of_nat cluster_index) PInf else Ok scores)
          (combine (seq k (length ms)) ms) scores = Ok s' ->
  (forall i, i < k -> nth_error s' i = nth_error scores i) /\
  (forall i, k <= i < k + length ms -> (hist_get h (r, Z.of_nat i) <= threshold)%Z /\
     (hist_get h (r, Z.of_nat i) = threshold -> nth_error s' i = Some PInf)).
Proof.
  induction ms as [|m ms IH]; intros k scores s'; cbn [length seq combine foldM].
  - intros E. assert (s' = scores) by congruence. subst s'. split; auto. intros i Hi. lia.
  - destruct (hist_get h (r, Z.of_nat k) <=? threshold)%Z eqn:El; cbn [py_assert bind]; [|discriminate].
    destruct (Z.eqb_spec (hist_get h (r, Z.of_nat k)) threshold) as [Eq|Ne].
    + destruct (setitem scores (Z.of_nat k) PInf) as [s1|] eqn:E1; cbn [bind]; [|discriminate].
      apply setitem_nat_inv in E1. destruct E1 as [L1 ->]. intros E. destruct (IH _ _ _ E) as [P Q]. split.
      * intros i Hi. rewrite P by lia. apply replace_nth_other. lia.
      * intros i Hi. destruct (Nat.eq_dec i k) as [->|N]; [|apply Q; lia]. split; [lia|]. intros _.
        rewrite P by lia. apply replace_nth_same; auto.
    + cbn [bind]. intros E. destruct (IH _ _ _ E) as [P Q]. split.
      * intros i Hi. apply P. lia.
      * intros i Hi. destruct (Nat.eq_dec i k) as [->|N]; [|apply Q; lia]. split; [lia|]. intros; contradiction.
Qed.
Lemma supress_inv r ms ps threshold h s : threshold <> 0%Z -> supress_medoids r ms ps threshold h = Ok s -> forall i, i < length ms ->
  (hist_get h (r, Z.of_nat i) <= threshold)%Z /\ (hist_get h (r, Z.of_nat i) = threshold -> nth_error s i = Some PInf).
Proof.
  unfold supress_medoids, enumerate. intros N. destruct (Z.eqb_spec threshold 0); [contradiction|]. intros E i Hi.
  destruct (supress_loop_inv r threshold h ms 0 ps s E) as [_ Q]. apply Q. lia.
Qed.
Lemma supress_raise r ms ps threshold h e : within threshold h -> supress_medoids r ms ps threshold h = Raise e -> e = IndexError.
Proof.
  unfold supress_medoids. destruct (threshold =? 0)%Z; [discriminate|]. intros Hw. generalize ps as l. generalize (enumerate ms) as ims.
  induction ims as [|[i m] ims IH]; intros l; cbn [foldM]; [discriminate|].
  pose proof (Hw (r, Z.of_nat i)). replace (hist_get h (r, Z.of_nat i) <=? threshold)%Z with true by lia. cbn [py_assert bind].
  destruct (hist_get h (r, Z.of_nat i) =? threshold)%Z.
  - destruct (setitem l (Z.of_nat i) PInf) eqn:E; cbn [bind]; [apply IH|]. apply setitem_raise in E. congruence.
  - cbn [bind]. apply IH.
Qed.

Section Step.
Context (penalties : string -> list point -> point -> res (list fnum)) (pt : point) (threshold : Z) (h : hist).

(** the best so far had been chosen less often than the threshold and belongs to the suite *)
Definition below (sr : suite) (best : option (string * Z * point)) : Prop :=
  match best with
  | None => True
  | Some (r, i, m) => exists ms k, In (r, ms) sr /\ i = Z.of_nat k /\ nth_error ms k = Some m /\
       (threshold <> 0%Z -> (hist_get h (r, i) < threshold)%Z)
  end.
Lemma choose_step_below sr best s0 e best' s : below sr best -> In e sr -> flt PInf s0 = false ->
  choose_step penalties pt threshold h (best, s0) e = Ok (best', s) -> below sr best' /\ flt PInf s = false.
Proof.
  intros Hb Hin Hs0. destruct e as [r ms]. unfold choose_step.
  destruct (penalties r ms pt) as [ps|]; cbn [bind]; [|discriminate].
  destruct (supress_medoids r ms ps threshold h) as [sc|] eqn:Es; cbn [bind]; [|discriminate].
  destruct (np_argmin sc) as [k|]; cbn [bind]; [|discriminate].
  rewrite !getitem_cons_nat. destruct (nth_error sc k) as [v|] eqn:Ev; cbn [bind]; [|discriminate].
  destruct (nth_error ms k) as [m|] eqn:Em; cbn [bind]; [|discriminate]. cbn [snd].
  destruct (flt v s0) eqn:El.
  - intros E. assert (best' = Some (r, Z.of_nat k, m) /\ s = v) as [-> ->] by (split; congruence). split; [|destruct v; auto].
    cbn [below]. exists ms, k. split; auto. split; auto. split; auto. intros Nt.
    assert (Lk : k < length ms) by (apply nth_error_Some; congruence).
    destruct (supress_inv r ms ps threshold h sc Nt Es k Lk) as [A B].
    destruct (Z.eq_dec (hist_get h (r, Z.of_nat k)) threshold) as [Eq|Ne]; [|lia]. exfalso.
    rewrite (B Eq) in Ev. injection Ev as <-. congruence.
  - intros E. assert (best' = best /\ s = s0) as [-> ->] by (split; congruence). auto.
Qed.
Lemma choose_fold_below sr : forall l best s0 best' s, below sr best -> incl l sr -> flt PInf s0 = false ->
  foldM (choose_step penalties pt threshold h) l (best, s0) = Ok (best', s) -> below sr best'.
Proof.
  induction l as [|e l IH]; intros best s0 best' s Hb Hin Hs; cbn [foldM].
  - intros E. assert (best' = best) by congruence. subst; auto.
  - destruct (choose_step penalties pt threshold h (best, s0) e) as [[b1 s1]|] eqn:E1; cbn [bind]; [|discriminate].
    destruct (choose_step_below sr best s0 e b1 s1 Hb (Hin e (or_introl eq_refl)) Hs E1) as [B1 S1]. apply (IH b1 s1); auto.
    intros x Hx. apply Hin. right; auto.
Qed.
Lemma choose_below sr r i m h' : choose_medoid penalties sr pt threshold h = (Ok (r, i, m), h') ->
  h' = dict_set key_eqb (r, i) (hist_get h (r, i) + 1)%Z h /\
  exists ms k, In (r, ms) sr /\ i = Z.of_nat k /\ nth_error ms k = Some m /\ (threshold <> 0%Z -> (hist_get h (r, i) < threshold)%Z).
Proof.
  unfold choose_medoid. destruct (foldM _ sr (None, PInf)) as [[best s]|] eqn:E; [|discriminate].
  destruct (is_inf s); [discriminate|]. destruct best as [[[r0 i0] m0]|]; [|discriminate]. intros H.
  assert (r0 = r /\ i0 = i /\ m0 = m) as (-> & -> & ->) by (repeat split; congruence). split; [congruence|].
  apply (choose_fold_below sr sr None PInf _ s I (incl_refl _) eq_refl E).
Qed.
Lemma choose_raise_hist sr e h' : choose_medoid penalties sr pt threshold h = (Raise e, h') -> h' = h.
Proof.
  unfold choose_medoid. destruct (foldM _ sr (None, PInf)) as [[best s]|] eqn:E; [|congruence].
  destruct (is_inf s); [congruence|]. destruct best as [[[r0 i0] m0]|]; congruence.
Qed.
Lemma np_argmin_raise l e : np_argmin l = Raise e -> e = ValueError.
Proof. destruct l; cbn; congruence. Qed.
Lemma choose_assert sr h' : within threshold h -> (forall r ms, In (r, ms) sr -> penalties r ms pt <> Raise AssertionError) ->
  choose_medoid penalties sr pt threshold h <> (Raise AssertionError, h').
Proof.
  intros Hw Hp. unfold choose_medoid.
  assert (A : forall l b, incl l sr -> foldM (choose_step penalties pt threshold h) l b <> Raise AssertionError).
  { induction l as [|[r ms] l IH]; intros b Hi; cbn [foldM]; [discriminate|].
    destruct (choose_step penalties pt threshold h b (r, ms)) as [b1|e] eqn:E1; cbn [bind].
    - apply IH. intros x Hx. apply Hi. right; auto.
    - intros E. assert (e = AssertionError) by congruence. subst e. clear E. unfold choose_step in E1.
      destruct (penalties r ms pt) as [ps|e] eqn:Ep; cbn [bind] in E1.
      2: { apply (Hp r ms); [apply Hi; left; auto|]. congruence. }
      destruct (supress_medoids r ms ps threshold h) as [sc|e] eqn:Es; cbn [bind] in E1.
      2: { apply supress_raise in Es; auto. congruence. }
      destruct (np_argmin sc) as [k|e] eqn:Ek; cbn [bind] in E1.
      2: { apply np_argmin_raise in Ek. congruence. }
      destruct (getitem sc (Z.of_nat k)) as [v|e] eqn:Ev; cbn [bind] in E1.
      2: { apply getitem_raise in Ev. congruence. }
      destruct (getitem ms (Z.of_nat k)) as [m|e] eqn:Em; cbn [bind] in E1.
      2: { apply getitem_raise in Em. congruence. }
      destruct (flt v (snd b)); discriminate. }
  destruct (foldM _ sr (None, PInf)) as [[best s]|e] eqn:E.
  - destruct (is_inf s); [congruence|]. destruct best as [[[r0 i0] m0]|]; congruence.
  - intros H. apply (A sr (None, PInf) (incl_refl _)). congruence.
Qed.
End Step.

Lemma choices_facts threshold (calls : list call) : (0 < threshold)%Z -> forall h rs h', within threshold h -> choices threshold calls h = (rs, h') ->
  length rs = length calls /\ within threshold h' /\
  (forall k, hist_get h' k = hist_get h k + Z.of_nat (count_if (chose k) rs))%Z /\
  (hist_total h' = hist_total h + Z.of_nat (count_if succeeded rs))%Z /\
  ((forall c r ms, In c calls -> In (r, ms) (c_suite c) -> c_penalties c r ms (c_point c) <> Raise AssertionError) ->
     ~ In (Raise AssertionError) rs).
Proof.
  intros Ht. induction calls as [|c cs IH]; intros h rs h' Hw; cbn [choices].
  - intros E. assert (rs = [] /\ h' = h) as [-> ->] by (split; congruence). cbn. repeat split; try apply Hw; try lia; auto.
  - destruct (choose_medoid (c_penalties c) (c_suite c) (c_point c) threshold h) as [r h1] eqn:E1.
    destruct (choices threshold cs h1) as [rs2 h2] eqn:E2. intros E.
    assert (rs = r :: rs2 /\ h' = h2) as [-> ->] by (split; congruence). clear E.
    assert (S : within threshold h1 /\ (forall k, hist_get h1 k = hist_get h k + (if chose k r then 1 else 0))%Z /\
      (hist_total h1 = hist_total h + (if succeeded r then 1 else 0))%Z).
    { destruct r as [[[r i] m]|e].
      - apply choose_below in E1. destruct E1 as [-> (ms & k & _ & -> & _ & Lt)]. specialize (Lt ltac:(lia)).
        split; [|split].
        + intros q. rewrite hist_get_set. pose proof (Hw q). destruct (key_eqb_spec (r, Z.of_nat k) q) as [<-|]; lia.
        + intros q. rewrite hist_get_set. cbn [chose]. destruct (key_eqb_spec (r, Z.of_nat k) q) as [<-|]; lia.
        + cbn [succeeded]. apply hist_total_set.
      - apply choose_raise_hist in E1. subst h1. cbn [chose succeeded]. split; auto. split; intros; lia. }
    destruct S as (W1 & G1 & T1). destruct (IH h1 rs2 h2 W1 E2) as (L2 & W2 & G2 & T2 & A2).
    unfold count_if in *. cbn [length filter]. split; [lia|]. split; auto. split; [|split].
    + intros k. rewrite G2, G1. destruct (chose k r); cbn [length]; lia.
    + rewrite T2, T1. destruct (succeeded r); cbn [length]; lia.
    + intros Hp [Hr|Hr].
      * subst r. apply (choose_assert (c_penalties c) (c_point c) threshold h (c_suite c) h1 Hw) in E1; auto.
        intros r ms Hin. apply Hp; auto. left; auto.
      * apply A2 in Hr; auto. intros c' r' ms' Hc. apply Hp. right; auto.
Qed.
Lemma within_empty threshold : (0 < threshold)%Z -> within threshold [].
Proof. intros H k. unfold hist_get. cbn. lia. Qed.

(* ---------- capacity ---------- *)
Lemma NoDup_app_intro {A} (l1 l2 : list A) : NoDup l1 -> NoDup l2 -> (forall x, In x l1 -> ~ In x l2) -> NoDup (l1 ++ l2).
Proof.
  induction 1 as [|a l Hn Hd IH]; intros H2 H; cbn [app]; auto. constructor.
  - rewrite in_app_iff. intros [K|K]; [auto|]. apply (H a); [left|]; auto.
  - apply IH; auto. intros x Hx. apply H. right; auto.
Qed.
(** the positions of a suite *)
Definition keys (sr : suite) : list (string * Z) :=
  flat_map (fun '(r, ms) => map (fun i => (r, Z.of_nat i)) (seq 0 (length ms))) sr.
Lemma keys_length sr : length (keys sr) = suite_size sr.
Proof.
  unfold keys, suite_size. induction sr as [|[r ms] sr IH]; cbn [flat_map]; auto. rewrite !app_length, map_length, seq_length. cbn [snd]. lia.
Qed.
Lemma in_keys sr r i : In (r, i) (keys sr) <-> exists ms k, In (r, ms) sr /\ i = Z.of_nat k /\ k < length ms.
Proof.
  unfold keys. rewrite in_flat_map. split.
  - intros ([r' ms] & Hin & H). apply in_map_iff in H. destruct H as (k & E & Hk). apply in_seq in Hk.
    assert (r' = r /\ i = Z.of_nat k) as [-> ->] by (split; congruence). exists ms, k. repeat split; auto; lia.
  - intros (ms & k & Hin & -> & Hk). exists (r, ms). split; auto. apply in_map_iff. exists k. split; auto. apply in_seq. lia.
Qed.
Lemma keys_nodup sr : NoDup (map fst sr) -> NoDup (keys sr).
Proof.
  induction sr as [|[r ms] sr IH]; cbn [map keys flat_map fst]; intros H; [constructor|]. apply NoDup_cons_iff in H. destruct H as [Hr Hd].
  apply NoDup_app_intro.
  - apply FinFun.Injective_map_NoDup; [|apply seq_NoDup]. intros a b E. assert (Z.of_nat a = Z.of_nat b) by congruence. lia.
  - apply IH; auto.
  - intros [q i] H1 H2. apply in_map_iff in H1. destruct H1 as (k & E & _). assert (q = r) by congruence. subst q.
    apply (in_keys sr) in H2. destruct H2 as (ms' & k' & Hin & _). apply Hr. apply in_map_iff. exists (r, ms'). auto.
Qed.
Definition hsum (h : hist) (l : list (string * Z)) : Z := fold_right (fun k s => (hist_get h k + s)%Z) 0%Z l.
Lemma hsum_set_out h k l : ~ In k l -> hsum (dict_set key_eqb k (hist_get h k + 1)%Z h) l = hsum h l.
Proof.
  induction l as [|a l IH]; intros H; cbn [hsum fold_right]; auto. rewrite hist_get_set, key_eqb_neq; [|firstorder congruence].
  unfold hsum in IH. rewrite IH; auto. firstorder.
Qed.
Lemma hsum_set h k l : NoDup l -> In k l -> hsum (dict_set key_eqb k (hist_get h k + 1)%Z h) l = (hsum h l + 1)%Z.
Proof.
  induction 1 as [|a l Hn Hd IH]; intros Hin; [destruct Hin|]. cbn [hsum fold_right]. rewrite hist_get_set.
  destruct (key_eqb_spec k a) as [->|N].
  - pose proof (hsum_set_out h a l Hn) as E. unfold hsum in E. rewrite E. lia.
  - destruct Hin as [->|Hin]; [contradiction|]. unfold hsum in IH. rewrite IH by auto. lia.
Qed.
Lemma hsum_bounds threshold h l : within threshold h -> (0 <= hsum h l <= threshold * Z.of_nat (length l))%Z.
Proof.
  intros Hw. induction l as [|a l IH]; cbn [hsum fold_right length]; [lia|]. pose proof (Hw a). unfold hsum in IH. lia.
Qed.
Lemma hsum_room threshold h l : within threshold h -> (hsum h l < threshold * Z.of_nat (length l))%Z ->
  exists k, In k l /\ (hist_get h k < threshold)%Z.
Proof.
  intros Hw. induction l as [|a l IH]; cbn [hsum fold_right length]; [lia|]. intros H.
  destruct (Z_lt_dec (hist_get h a) threshold); [exists a; split; [left|]; auto|].
  destruct IH as (k & Hk & Hl); [pose proof (Hw a); unfold hsum; lia|]. exists k. split; [right|]; auto.
Qed.
Lemma hsum_full threshold h l : within threshold h -> (threshold * Z.of_nat (length l) <= hsum h l)%Z ->
  forall k, In k l -> hist_get h k = threshold.
Proof.
  intros Hw. induction l as [|a l IH]; cbn [hsum fold_right length]; [intros _ k []|]. intros H k [->|Hk].
  - pose proof (hsum_bounds threshold h l Hw) as B. pose proof (Hw k). unfold hsum in B. lia.
  - apply IH; auto. pose proof (hsum_bounds threshold h l Hw) as B. pose proof (Hw a). unfold hsum in *. lia.
Qed.

Lemma choose_capacity penalties sr pt threshold h : (0 < threshold)%Z -> within threshold h -> NoDup (map fst sr) ->
  penalties_fit penalties sr pt -> (forall r ms ps v, In (r, ms) sr -> penalties r ms pt = Ok ps -> In v ps -> exists q, v = Fin q) ->
  exists res h', choose_medoid penalties sr pt threshold h = (res, h') /\ within threshold h' /\
    ((hsum h (keys sr) < threshold * Z.of_nat (suite_size sr))%Z -> succeeded res = true /\ hsum h' (keys sr) = (hsum h (keys sr) + 1)%Z) /\
    ((threshold * Z.of_nat (suite_size sr) <= hsum h (keys sr))%Z -> res = Raise ValueError /\ h' = h).
Proof.
  intros Ht Hw Hn Hf Hq.
  destruct (choose_result penalties pt threshold h (or_intror Hw) sr Hf)
    as [(n & k & r & m & v & E & (ms & ps & E1 & E2 & E3 & E4 & Av & E5) & _)|[E Hno]].
  - assert (Hk : In (r, Z.of_nat k) (keys sr)).
    { apply in_keys. exists ms, k. split; [eapply nth_error_In; eauto|]. split; auto. apply nth_error_Some. congruence. }
    assert (Lt : (hist_get h (r, Z.of_nat k) < threshold)%Z) by (destruct Av as [Av|Av]; lia).
    eexists _, _. split; [exact E|]. split; [|split].
    + intros q. rewrite hist_get_set. pose proof (Hw q). destruct (key_eqb_spec (r, Z.of_nat k) q) as [<-|]; lia.
    + intros _. split; auto. apply hsum_set; auto. apply keys_nodup; auto.
    + intros Hfull. exfalso. rewrite <- keys_length in Hfull. pose proof (hsum_full threshold h (keys sr) Hw Hfull _ Hk). lia.
  - eexists _, _. split; [exact E|]. split; [auto|]. split; [|auto]. intros Hroom. exfalso.
    rewrite <- keys_length in Hroom. destruct (hsum_room threshold h (keys sr) Hw Hroom) as ([r i] & Hk & Hl).
    apply in_keys in Hk. destruct Hk as (ms & k & Hin & -> & Lk). destruct (Hf r ms Hin) as (_ & ps & Ep & Lp & _).
    destruct (In_nth_error _ _ Hin) as [n En].
    destruct (nth_error ms k) as [m|] eqn:Em; [|apply nth_error_None in Em; lia].
    destruct (nth_error ps k) as [v|] eqn:Ev; [|apply nth_error_None in Ev; lia].
    assert (v = PInf).
    { apply (Hno n k r m v). exists ms, ps. repeat split; auto. right; auto.
      intros j w Hj _. destruct (Hq r ms ps w Hin Ep (nth_error_In _ _ Hj)) as [q ->]. reflexivity. }
    subst v. destruct (Hq r ms ps PInf Hin Ep (nth_error_In _ _ Ev)) as [q Eq]. discriminate.
Qed.

Lemma choices_capacity sr threshold (calls : list call) : (0 < threshold)%Z -> NoDup (map fst sr) ->
  (forall c, In c calls -> c_suite c = sr /\ penalties_fit (c_penalties c) sr (c_point c) /\
     forall r ms ps v, In (r, ms) sr -> c_penalties c r ms (c_point c) = Ok ps -> In v ps -> exists q, v = Fin q) ->
  forall h rs h', within threshold h -> choices threshold calls h = (rs, h') ->
  forall i x, nth_error rs i = Some x ->
    ((hsum h (keys sr) + Z.of_nat i < threshold * Z.of_nat (suite_size sr))%Z -> succeeded x = true) /\
    ((threshold * Z.of_nat (suite_size sr) <= hsum h (keys sr) + Z.of_nat i)%Z -> x = Raise ValueError).
Proof.
  intros Ht Hn. induction calls as [|c cs IH]; intros Hc h rs h' Hw; cbn [choices].
  - intros E i x Hx. assert (rs = []) by congruence. subst. destruct i; discriminate.
  - destruct (Hc c (or_introl eq_refl)) as (Es & Hf & Hq). rewrite Es.
    destruct (choose_capacity (c_penalties c) sr (c_point c) threshold h Ht Hw Hn Hf Hq) as (r & h1 & E1 & W1 & Room & Full).
    rewrite E1. destruct (choices threshold cs h1) as [rs2 h2] eqn:E2. intros E.
    assert (rs = r :: rs2) by congruence. subst rs. intros i x Hx. destruct i as [|i]; cbn in Hx.
    + assert (x = r) by congruence. subst x. split; intros H; [apply Room|apply Full]; lia.
    + assert (Hc' : forall c0, In c0 cs -> c_suite c0 = sr /\ penalties_fit (c_penalties c0) sr (c_point c0) /\
        forall r ms ps v, In (r, ms) sr -> c_penalties c0 r ms (c_point c0) = Ok ps -> In v ps -> exists q, v = Fin q)
        by (intros c0 H0; apply Hc; right; auto).
      destruct (IH Hc' h1 rs2 h2 W1 E2 i x Hx) as [P Q].
      destruct (Z_lt_dec (hsum h (keys sr)) (threshold * Z.of_nat (suite_size sr))) as [L|L].
      * destruct (Room L) as [_ Hs]. split; intros H; [apply P|apply Q]; lia.
      * destruct (Full ltac:(lia)) as [_ ->]. split; intros H; [lia|]. apply Q. lia.
Qed.

(* ---------- drawing ---------- *)
Section Draw.
Context (set_order : list Z -> list Z) (choice : list Z -> Z -> res (list Z)).
Hypothesis Hd : draws choice.
Hypothesis Ho : any_order set_order.
Definition open_values (lo hi : Z) (bl : list Z) : list Z := filter (fun v => negb (existsb (Z.eqb v) bl)) (zrange lo (hi + 1)).
Lemma in_open lo hi bl v : In v (open_values lo hi bl) <-> (lo <= v <= hi)%Z /\ ~ In v bl.
Proof.
  unfold open_values. rewrite filter_In, in_zrange, negb_true_iff. split; intros [A B]; (split; [lia|]).
  - intros H. assert (existsb (Z.eqb v) bl = true) by (apply existsb_exists; exists v; split; auto; lia). congruence.
  - destruct (existsb (Z.eqb v) bl) eqn:E; auto. apply existsb_exists in E. destruct E as (w & Hw & E).
    assert (v = w) by lia. subst w. contradiction.
Qed.
Lemma open_nodup lo hi bl : NoDup (open_values lo hi bl).
Proof. apply NoDup_filter, zrange_nodup. Qed.

Lemma random_ok n lo hi bl r : random_integers_with_blacklist set_order choice n lo hi bl = Ok r ->
  Z.of_nat (length r) = n /\ NoDup r /\ (forall v, In v r -> (lo <= v <= hi)%Z /\ ~ In v bl) /\
  (Z.of_nat (length r) = Z.of_nat (length (open_values lo hi bl)) -> forall v, (lo <= v <= hi)%Z -> ~ In v bl -> In v r).
Proof.
  unfold random_integers_with_blacklist. fold (open_values lo hi bl). intros E. pose proof (Ho (open_values lo hi bl)) as P.
  destruct (Hd (set_order (open_values lo hi bl)) n) as [D1 D2].
  destruct (Z_le_dec 0 n) as [L1|L1]; [|rewrite D2 in E by lia; discriminate].
  destruct (Z_le_dec n (Z.of_nat (length (set_order (open_values lo hi bl))))) as [L2|L2]; [|rewrite D2 in E by lia; discriminate].
  destruct (D1 (conj L1 L2)) as (r' & rest & E' & Ln & Pm). assert (r' = r) by congruence. subst r'.
  assert (Pa : Permutation (r ++ rest) (open_values lo hi bl)) by (eapply perm_trans; eauto).
  assert (Nd : NoDup (r ++ rest)) by (eapply Permutation_NoDup; [apply Permutation_sym; exact Pa|apply open_nodup]).
  split; auto. split; [|split].
  - clear - Nd. induction r as [|a r IH]; [constructor|]. cbn [app] in Nd. apply NoDup_cons_iff in Nd. destruct Nd as [A B].
    constructor; auto. intros H. apply A, in_or_app. auto.
  - intros v Hv. apply in_open. eapply Permutation_in; [exact Pa|]. apply in_or_app; auto.
  - intros Hl v H1 H2. pose proof (Permutation_length Pa) as PL. rewrite app_length in PL.
    destruct rest; [|cbn in PL; lia]. rewrite app_nil_r in Pa. eapply Permutation_in; [apply Permutation_sym; exact Pa|]. apply in_open; auto.
Qed.
Lemma random_total n lo hi bl allowed : NoDup allowed -> (forall v, In v allowed <-> (lo <= v <= hi)%Z /\ ~ In v bl) ->
  ((0 <= n <= Z.of_nat (length allowed))%Z -> exists r, random_integers_with_blacklist set_order choice n lo hi bl = Ok r) /\
  (~ (0 <= n <= Z.of_nat (length allowed))%Z -> random_integers_with_blacklist set_order choice n lo hi bl = Raise ValueError).
Proof.
  intros Na Ha. assert (P : Permutation (set_order (open_values lo hi bl)) allowed).
  { eapply perm_trans; [apply Ho|]. apply NoDup_Permutation; auto using open_nodup. intros v. rewrite Ha, in_open. tauto. }
  apply Permutation_length in P. unfold random_integers_with_blacklist. fold (open_values lo hi bl).
  destruct (Hd (set_order (open_values lo hi bl)) n) as [D1 D2]. rewrite <- P. split; intros H; [|auto].
  destruct (D1 H) as (r & _ & E & _). eauto.
Qed.
Lemma divmod_inj (y a b : Z) : (0 < y)%Z -> (a / y, a mod y)%Z = (b / y, b mod y)%Z -> a = b.
Proof.
  intros Hy E. assert (a / y = b / y /\ a mod y = b mod y)%Z as [E1 E2] by (split; congruence).
  rewrite (Z.div_mod a y), (Z.div_mod b y) by lia. congruence.
Qed.
Lemma random_points_ok n bl x_len y_len pts : 0 < y_len ->
  random_points_different_to_medoids set_order choice n bl x_len y_len = Ok pts ->
  Z.of_nat (length pts) = n /\ NoDup pts /\
  forall p, In p pts -> in_grid x_len y_len p /\ ~ In (fst p * Z.of_nat y_len + snd p)%Z bl.
Proof.
  intros Hy. unfold random_points_different_to_medoids.
  destruct (random_integers_with_blacklist set_order choice n 0 (Z.of_nat x_len * Z.of_nat y_len - 1) bl) as [r|] eqn:E; cbn [bind]; [|discriminate].
  intros H. assert (pts = map (fun i => (i / Z.of_nat y_len, i mod Z.of_nat y_len)%Z) r) by congruence. subst pts. clear H.
  apply random_ok in E. destruct E as (L & Nd & Hin & _). rewrite map_length. split; auto. split.
  - apply FinFun.Injective_map_NoDup; auto. intros a b. apply divmod_inj. lia.
  - intros p Hp. apply in_map_iff in Hp. destruct Hp as (i & <- & Hi). destruct (Hin i Hi) as [B1 B2]. cbn [fst snd].
    pose proof (Z.mod_pos_bound i (Z.of_nat y_len) ltac:(lia)) as M.
    pose proof (Z.div_mod i (Z.of_nat y_len) ltac:(lia)) as D. split.
    + unfold in_grid. cbn [fst snd]. split; [|lia]. split; [apply Z.div_pos; lia|]. apply Z.div_lt_upper_bound; [lia|].
      rewrite Z.mul_comm. lia.
    + replace (i / Z.of_nat y_len * Z.of_nat y_len + i mod Z.of_nat y_len)%Z with i by lia. auto.
Qed.
Lemma random_points_all bl x_len y_len pts : 0 < y_len ->
  (forall b, In b bl -> (b < 0 \/ Z.of_nat x_len * Z.of_nat y_len <= b)%Z) ->
  random_points_different_to_medoids set_order choice (Z.of_nat (x_len * y_len)) bl x_len y_len = Ok pts ->
  forall p, in_grid x_len y_len p -> In p pts.
Proof.
  intros Hy Hb. unfold random_points_different_to_medoids.
  destruct (random_integers_with_blacklist set_order choice _ 0 (Z.of_nat x_len * Z.of_nat y_len - 1) bl) as [r|] eqn:E; cbn [bind]; [|discriminate].
  intros H. assert (pts = map (fun i => (i / Z.of_nat y_len, i mod Z.of_nat y_len)%Z) r) by congruence. subst pts. clear H.
  intros [x y] [Hx Hyy]. cbn [fst snd] in *. apply random_ok in E. destruct E as (L & Nd & Hin & Hall).
  apply in_map_iff. exists (x * Z.of_nat y_len + y)%Z. split.
  - f_equal; [rewrite Z.div_add_l by lia; rewrite Z.div_small by lia; lia|].
    rewrite Z.add_comm, Z.mod_add by lia. apply Z.mod_small; lia.
  - assert (B : (0 <= x * Z.of_nat y_len + y < Z.of_nat x_len * Z.of_nat y_len)%Z).
    { split; [nia|]. assert ((x + 1) * Z.of_nat y_len <= Z.of_nat x_len * Z.of_nat y_len)%Z by (apply Z.mul_le_mono_nonneg_r; lia). lia. }
    apply Hall; [|lia|intros K; apply Hb in K; lia]. rewrite L.
    assert (Q : Permutation (open_values 0 (Z.of_nat x_len * Z.of_nat y_len - 1) bl) (zrange 0 (Z.of_nat x_len * Z.of_nat y_len))).
    { apply NoDup_Permutation; auto using open_nodup, zrange_nodup. intros v. rewrite in_open, in_zrange. split; [intros [? ?]; lia|].
      intros V. split; [lia|]. intros K. apply Hb in K. lia. }
    apply Permutation_length in Q. rewrite Q, zrange_length. lia.
Qed.
End Draw.

Lemma in_extract point_order sr y_len m : any_order point_order -> In m (flat_map snd sr) ->
  In (fst m * Z.of_nat y_len + snd m)%Z (extract_all_medoid_indices point_order sr y_len).
Proof.
  intros Ho Hm. unfold extract_all_medoid_indices.
  apply (in_map (fun m : point => (fst m * Z.of_nat y_len + snd m)%Z) (point_order (nodup point_dec (flat_map snd sr))) m).
  eapply Permutation_in; [apply Permutation_sym, Ho|]. apply nodup_In. auto.
Qed.
Lemma extract_in point_order sr y_len i : any_order point_order -> In i (extract_all_medoid_indices point_order sr y_len) ->
  exists m, In m (flat_map snd sr) /\ i = (fst m * Z.of_nat y_len + snd m)%Z.
Proof.
  intros Ho Hi. unfold extract_all_medoid_indices in Hi. apply in_map_iff in Hi. destruct Hi as (m & <- & Hm). exists m. split; auto.
  apply (Permutation_in _ (Ho _)) in Hm. apply nodup_In in Hm. auto.
Qed.

(* ---------- rows ---------- *)
Lemma rows_fold penalties sr region_id R threshold : forall pts rows0 h0 rows h,
  foldM (fun '(rows, h) random_point =>
           let '(result, h) := choose_medoid penalties sr random_point threshold h in
           '(r, i, m) <- result ;;
           _ <- factory_from_repr r ;;
           series <- series_at R random_point ;;
           row <- medoid_row region_id r i m series ;;
           Ok (rows ++ [row], h)%list) pts (rows0, h0) = Ok (rows, h) ->
  exists picks new, rows = (rows0 ++ new)%list /\
    choices threshold (map (fun p => Call sr p penalties) pts) h0 = (map Ok picks, h) /\
    length picks = length pts /\
    Forall2 (fun '(p, (r, i, m)) row => exists md s, factory_from_repr r = Ok md /\ series_at R p = Ok s /\
       row = ([FStr region_id] ++ map snd (as_dict md) ++ [FInt i; FInt (fst m); FInt (snd m)] ++ map (FNum 3) s)%list)
      (combine pts picks) new.
Proof.
  induction pts as [|p pts IH]; intros rows0 h0 rows h; cbn [foldM map choices].
  - intros E. assert (rows = rows0 /\ h = h0) as [-> ->] by (split; congruence). exists [], []. rewrite app_nil_r. repeat split; auto. constructor.
  - destruct (choose_medoid penalties sr p threshold h0) as [res h1] eqn:E1. cbn [c_penalties c_suite c_point].
    rewrite E1. destruct res as [[[r i] m]|e]; cbn [bind]; [|discriminate].
    destruct (factory_from_repr r) as [md|] eqn:Ef; cbn [bind]; [|discriminate].
    destruct (series_at R p) as [s|] eqn:Es; cbn [bind]; [|discriminate].
    unfold medoid_row at 1. rewrite Ef. cbn [bind]. intros E.
    destruct (IH _ _ _ _ E) as (picks & new & -> & Ec & L & F). rewrite Ec.
    exists ((r, i, m) :: picks). eexists. split; [rewrite <- app_assoc; reflexivity|]. cbn [map length combine]. split; [reflexivity|]. split; [lia|].
    cbn [app]. constructor; auto. exists md, s. auto.
Qed.

Lemma dict_set_keys (h : hist) k v : NoDup (map fst h) -> NoDup (map fst (dict_set key_eqb k v h)) /\
  (forall q, In q (map fst (dict_set key_eqb k v h)) <-> q = k \/ In q (map fst h)).
Proof.
  induction h as [|[q n] h IH]; cbn [dict_set map fst].
  - intros _. split; [repeat constructor; auto|]. intros q. cbn. split; intros [H|[]]; auto.
  - intros H. apply NoDup_cons_iff in H. destruct H as [Hq Hn]. destruct (IH Hn) as [IH1 IH2].
    destruct (key_eqb_spec q k) as [->|N]; cbn [map fst].
    + split; [constructor; auto|]. intros q. cbn. firstorder.
    + split.
      * constructor; auto. rewrite IH2. intros [E|E]; auto.
      * intros q'. cbn. rewrite IH2. firstorder.
Qed.
Lemma choices_keys threshold calls : forall h rs h', choices threshold calls h = (rs, h') -> NoDup (map fst h) ->
  (forall k, In k (map fst h) -> (0 < hist_get h k)%Z) -> (forall k, 0 <= hist_get h k)%Z ->
  NoDup (map fst h') /\ (forall k, In k (map fst h') -> (0 < hist_get h' k)%Z) /\ (forall k, 0 <= hist_get h' k)%Z.
Proof.
  induction calls as [|c cs IH]; intros h rs h'; cbn [choices].
  - intros E. assert (h' = h) by congruence. subst. auto.
  - destruct (choose_medoid _ _ _ threshold h) as [r h1] eqn:E1. destruct (choices threshold cs h1) as [rs2 h2] eqn:E2.
    intros E Hn Hp Hz. assert (h' = h2) by congruence. subst h'. destruct r as [[[r i] m]|e].
    + apply choose_below in E1. destruct E1 as [-> _]. destruct (dict_set_keys h (r, i) (hist_get h (r, i) + 1)%Z Hn) as [N K].
      apply (IH _ _ _ E2); auto.
      * intros k Hk. rewrite hist_get_set. destruct (key_eqb_spec (r, i) k) as [<-|Ne]; [pose proof (Hz (r, i)); lia|].
        apply K in Hk. destruct Hk as [->|Hk]; [contradiction|]. auto.
      * intros k. rewrite hist_get_set. pose proof (Hz k). destruct (key_eqb_spec (r, i) k) as [<-|]; lia.
    + apply choose_raise_hist in E1. subst h1. apply (IH _ _ _ E2); auto.
Qed.
(** any threshold *)
Lemma choices_counts threshold (calls : list call) : forall h rs h', choices threshold calls h = (rs, h') ->
  (forall k, hist_get h' k = hist_get h k + Z.of_nat (count_if (chose k) rs))%Z /\
  (hist_total h' = hist_total h + Z.of_nat (count_if succeeded rs))%Z.
Proof.
  induction calls as [|c cs IH]; intros h rs h'; cbn [choices].
  - intros E. assert (rs = [] /\ h' = h) as [-> ->] by (split; congruence). cbn. split; intros; lia.
  - destruct (choose_medoid _ _ _ threshold h) as [r h1] eqn:E1. destruct (choices threshold cs h1) as [rs2 h2] eqn:E2.
    intros E. assert (rs = r :: rs2 /\ h' = h2) as [-> ->] by (split; congruence). destruct (IH _ _ _ E2) as [G T].
    unfold count_if in *. cbn [filter]. destruct r as [[[r i] m]|e].
    + apply choose_below in E1. destruct E1 as [-> _]. split.
      * intros k. rewrite G, hist_get_set. cbn [chose]. destruct (key_eqb_spec (r, i) k) as [<-|]; cbn [length]; lia.
      * rewrite T, hist_total_set. cbn [succeeded length]. lia.
    + apply choose_raise_hist in E1. subst h1. cbn [chose succeeded]. auto.
Qed.
Lemma hist_get_in (h : hist) k n : NoDup (map fst h) -> In (k, n) h -> hist_get h k = n.
Proof.
  unfold hist_get. induction h as [|[q v] h IH]; cbn [map fst dict_get]; intros Hn []; apply NoDup_cons_iff in Hn; destruct Hn as [A B].
  - assert (q = k /\ v = n) as [-> ->] by (split; congruence). rewrite key_eqb_refl. auto.
  - rewrite key_eqb_neq; auto. intros ->. apply A. apply in_map_iff. exists (k, n). auto.
Qed.
Lemma hist_in_get (h : hist) k : hist_get h k <> 0%Z -> In (k, hist_get h k) h.
Proof.
  unfold hist_get. induction h as [|[q v] h IH]; cbn [dict_get]; [congruence|].
  destruct (key_eqb_spec q k) as [->|N]; [left; auto|right; auto].
Qed.

(** the positions of a suite with their medoids *)
Lemma medoid_data_ok (g : rect) sr (R : stregion fnum) :
  (forall r ms m, In (r, ms) sr -> In m ms -> exists s, series_at R (fst m - x1 g, snd m - y1 g)%Z = Ok s) ->
  exists data, retrieve_medoid_data g sr R = Ok data /\
    Forall2 (fun '(r, ms) '(r', entries) => r' = r /\
      Forall2 (fun '(i, m) '(i', m', s) => i' = Z.of_nat i /\ m' = m /\ series_at R (fst m - x1 g, snd m - y1 g)%Z = Ok s) (enumerate ms) entries) sr data.
Proof.
  intros H. unfold retrieve_medoid_data. induction sr as [|[r ms] sr IH]; cbn [mapM]; [eexists; split; [reflexivity|constructor]|].
  assert (A : exists entries, mapM (fun '(i, medoid) => series <- series_at R (fst medoid - x1 g, snd medoid - y1 g)%Z ;; Ok (Z.of_nat i, medoid, series)) (enumerate ms) = Ok entries /\
     Forall2 (fun '(i, m) '(i', m', s) => i' = Z.of_nat i /\ m' = m /\ series_at R (fst m - x1 g, snd m - y1 g)%Z = Ok s) (enumerate ms) entries).
  { assert (Hm : forall m, In m ms -> exists s, series_at R (fst m - x1 g, snd m - y1 g)%Z = Ok s) by (intros m Hm; apply (H r ms); [left|]; auto).
    unfold enumerate. generalize 0. clear - Hm. induction ms as [|m ms IH]; intros k; cbn [length seq combine mapM]; [eexists; split; [reflexivity|constructor]|].
    destruct (Hm m (or_introl eq_refl)) as [s Es]. rewrite Es. cbn [bind]. destruct (IH (fun m' Hm' => Hm m' (or_intror Hm')) (S k)) as (l & El & F).
    rewrite El. cbn [bind]. eexists. split; [reflexivity|]. constructor; auto. }
  destruct A as (entries & Ea & Fa). rewrite Ea. cbn [bind].
  destruct IH as (data & Ed & Fd). { intros r' ms' m Hin. apply (H r' ms'). right; auto. }
  rewrite Ed. cbn [bind]. eexists. split; [reflexivity|]. constructor; auto.
Qed.
