(** C157: the search of fuzzy k-medoids in floating point. *)
From Coq Require Import Lia Lqa QArith Qabs Permutation.
From Verif Require Import Base.Py Base.PyFacts Base.Arr Base.ArrFacts Base.Float Base.FloatFacts Model.KMedoids Model.KMedoidsFuzzy Model.Rounded Model.FuzzyRounded Model.FuzzySearchRounded
  Spec.Medoids Spec.Rounded Spec.Ieee Spec.KMedoidsRounded Spec.FuzzyRounded Spec.FuzzySearchRounded Proofs.KMedoidsFacts Proofs.RoundedFacts Proofs.KMedoidsRoundedFacts Proofs.FuzzySearchRoundedFacts
  Proofs.DistanceFacts Props.Ieee Props.KMedoidsRounded Props.FuzzyRounded.
From Coq Require Import ZifyBool ZifyNat.
Local Close Scope Q_scope.
Local Open Scope nat_scope.

(** The memberships of given medoids are computed without an error iff the sums are within the tolerance; then memberships,
    costs and total are the ones of the specification. *)
Theorem C157_memberships : forall rnd sum power X m D tol ms,
  instance X D -> ~ (m == 1)%Q -> valid_indices X ms -> ms <> [] ->
  (sums_close rnd sum power X D m tol ms ->
     exists c, compute_membership_fcm_r rnd sum power X m (map (fun i => (i, nth (Z.to_nat i) X [])) ms) D tol = Ok c /\
       f_u c = computed_memberships rnd power X D m ms /\
       f_costs c = map (computed_cost rnd sum power X D m ms) (seq 0 (length ms)) /\ f_total c = computed_total rnd sum power X D m ms) /\
  (~ sums_close rnd sum power X D m tol ms ->
     compute_membership_fcm_r rnd sum power X m (map (fun i => (i, nth (Z.to_nat i) X [])) ms) D tol = Raise AssertionError).
Proof.
  intros rnd sum power X m D tol ms HI Hm HV Hne. change (map (fun i => (i, nth (Z.to_nat i) X [])) ms) with (mk X ms). rewrite fcm_r_value by auto.
  assert (B : sums_close rnd sum power X D m tol ms <-> forallb (fun row => close_to_one_r rnd tol (sum row)) (computed_memberships rnd power X D m ms) = true).
  { rewrite forallb_forall. unfold computed_memberships, sums_close. split.
    - intros H row Hr. apply in_map_iff in Hr. destruct Hr as (i & <- & Hi). apply in_seq in Hi. apply H. lia.
    - intros H i Hi. apply (H _ (in_map (fun i => map (computed_membership rnd power X D m ms i) (seq 0 (length ms))) (seq 0 (length X)) i (proj2 (in_seq (length X) 0 i) (conj (Nat.le_0_l i) Hi)))). }
  split; intros H.
  - apply B in H. rewrite H. eexists. split; [ reflexivity | ]. repeat split.
  - destruct (forallb _ _); [ exfalso; apply H, B; reflexivity | reflexivity ].
Qed.
Print Assumptions C157_memberships.

Lemma fcm_known rnd sum power X m D tol k : instance X D -> ~ (m == 1)%Q -> 0 < k ->
  (forall ms, valid_indices X ms -> NoDup ms -> length ms = k -> sums_close rnd sum power X D m tol ms) ->
  forall ms, good_r X k ms -> compute_membership_fcm_r rnd sum power X m (mk X ms) D tol = Ok (fcost_r rnd sum power X m D ms).
Proof.
  intros HI Hm Hk Hc ms (V & N & L). assert (Hne : ms <> []) by (intros ->; cbn in L; lia).
  destruct (C157_memberships rnd sum power X m D tol ms HI Hm V Hne) as [ H _ ]. destruct (H (Hc ms V N L)) as (c & E & _).
  change (map (fun i => (i, nth (Z.to_nat i) X [])) ms) with (mk X ms) in E. rewrite E. rewrite fcm_r_value in E by auto. destruct (forallb _ _); [ congruence | discriminate ].
Qed.

(** However sums are formed and rounded, as long as the memberships of k different medoids always add up to 1 within the
    tolerance: the search returns iff some exchange of a starting medoid lowers the computed total by more than the tolerance;
    otherwise it fails with UnboundLocalError. *)
Theorem C157_returns : forall rnd sum power choice X m D tol init max_iter k ms0,
  rounding rnd -> instance X D -> ~ (m == 1)%Q -> fle (Fin 0) tol = true -> starts_from choice X k init ms0 -> NoDup ms0 ->
  (forall ms, valid_indices X ms -> NoDup ms -> length ms = k -> sums_close rnd sum power X D m tol ms) ->
  ((exists j i, rounded_swap rnd sum power X D m tol ms0 j i) ->
     exists r, run_kmedoids_fuzzy_r rnd sum power choice X (Z.of_nat k) m D init max_iter tol = Ok r) /\
  (~ (exists j i, rounded_swap rnd sum power X D m tol ms0 j i) ->
     run_kmedoids_fuzzy_r rnd sum power choice X (Z.of_nat k) m D init max_iter tol = Raise UnboundLocalError).
Proof.
  intros rnd sum power choice X m D tol init mi k ms0 HR HI Hm Ht (Hs & Hl & Hk & HV) Hnd Hc.
  pose proof (f_run_spec_r rnd sum power X m D tol k HR Hk Ht (fcm_known rnd sum power X m D tol k HI Hm Hk Hc) choice init mi ms0 Hs (conj HV (conj Hnd Hl))) as R.
  assert (Himp : forall j i, rounded_swap rnd sum power X D m tol ms0 j i -> i < length X /\ j < k /\ imp_r rnd sum power X m D tol ms0 j i).
  { intros j i (before & old & after & E & Ej & Hi & Hn & G). subst ms0 j. rewrite app_length in Hl. cbn in Hl.
    split; auto. split; [lia|]. split; auto. unfold gain_r. rewrite replace_nth_middle. auto. }
  split.
  - intros (j & i & H). apply Himp in H. destruct H as (Hi & Hj & HI'). destruct R as [[O _]|(_ & r & E & _)]; [|eauto].
    exfalso. apply (O i j Hi Hj HI').
  - intros Hn. destruct R as [[_ E]|(NO & _)]; auto. exfalso. apply NO.
    intros i j Hi Hj [Hni G']. apply Hn. exists j, i.
    destruct (nth_split ms0 0%Z (n := j) ltac:(lia)) as (b & a & Em & Eb).
    exists b, (nth j ms0 0%Z), a. split; auto. split; auto. split; auto. split; auto. unfold gain_r in G'.
    rewrite Em, <- Eb, replace_nth_middle, Eb, <- Em in G'. auto.
Qed.
Print Assumptions C157_returns.

(** What a successful call returns: k different samples as medoids, with their computed memberships, costs and total; the total
    is below the one of the starting medoids, with a computed difference above the tolerance; and after stopping before the limit no
    exchange lowers the computed total by more than the tolerance. *)
Theorem C157_result : forall rnd sum power choice X m D tol init max_iter k ms0 r,
  rounding rnd -> instance X D -> ~ (m == 1)%Q -> fle (Fin 0) tol = true -> starts_from choice X k init ms0 -> NoDup ms0 ->
  (forall ms, valid_indices X ms -> NoDup ms -> length ms = k -> sums_close rnd sum power X D m tol ms) ->
  run_kmedoids_fuzzy_r rnd sum power choice X (Z.of_nat k) m D init max_iter tol = Ok r ->
  valid_indices X (fr_medoids r) /\ NoDup (fr_medoids r) /\ length (fr_medoids r) = k /\
  flt (fr_total r) (computed_total rnd sum power X D m ms0) = true /\
  flt tol (rsub rnd (computed_total rnd sum power X D m ms0) (fr_total r)) = true /\
  fr_u r = computed_memberships rnd power X D m (fr_medoids r) /\
  fr_costs r = map (computed_cost rnd sum power X D m (fr_medoids r)) (seq 0 k) /\
  fr_total r = computed_total rnd sum power X D m (fr_medoids r) /\
  (0 <= fr_cc r <= Z.max 0 (max_iter + 1))%Z /\
  ((fr_cc r <= max_iter)%Z -> forall j i, ~ rounded_swap rnd sum power X D m tol (fr_medoids r) j i).
Proof.
  intros rnd sum power choice X m D tol init mi k ms0 r HR HI Hm Ht (Hs & Hl & Hk & HV) Hnd Hc Hr.
  destruct (f_run_spec_r rnd sum power X m D tol k HR Hk Ht (fcm_known rnd sum power X m D tol k HI Hm Hk Hc) choice init mi ms0 Hs (conj HV (conj Hnd Hl)))
    as [[_ E]|(_ & r' & E & (V & N & L) & G & Hu & Hco & Htot & Hcc & Hopt)]; [congruence|].
  rewrite Hr in E. injection E as <-. unfold gain_r in G.
  do 3 (split; [assumption|]). split; [ rewrite Htot; eapply rgain_less; eauto | ]. split; [rewrite Htot; exact G|]. do 4 (split; [assumption|]).
  intros Hlim j i (b & old & a & Em & Ej & Hi & Hn & G'). apply (Hopt Hlim i j Hi).
  - rewrite <- L, Em, app_length. cbn. lia.
  - split; auto. unfold gain_r. rewrite Em, <- Ej, replace_nth_middle, <- Em. auto.
Qed.
Print Assumptions C157_result.

(** In double precision with the tolerance 0.001 the sums are always within the tolerance, so the search either returns or fails
    with UnboundLocalError, never with the AssertionError of the check: if powers of different samples are doubles of at least
    2^-1022 and their sums do not overflow. *)
Theorem C157_double : forall ord N h power choice X m D init max_iter k ms0,
  summation ord N h -> k <= N -> (Z.of_nat (h + k + 2) <= 2 ^ 40)%Z -> instance X D -> ~ (m == 1)%Q -> starts_from choice X k init ms0 -> NoDup ms0 ->
  (forall ms, valid_indices X ms -> NoDup ms -> length ms = k ->
    (forall i j, i < length X -> j < k -> nth j ms 0%Z <> Z.of_nat i ->
       exists p, computed_power double power X D m ms i j = Fin p /\ is_double p /\ (/ inject_Z (2 ^ 1022) <= p)%Q) /\
    (forall i j, i < length X -> j < k -> nth j ms 0%Z = Z.of_nat i -> computed_power double power X D m ms i j = PInf) /\
    (forall i, i < length X -> ~ In (Z.of_nat i) ms -> is_fin (computed_sum double power X D m ms i) = true)) ->
  (forall ms, valid_indices X ms -> NoDup ms -> length ms = k -> sums_close double (sum_by double ord) power X D m (Fin (1 # 1000)) ms) /\
  ((exists r, run_kmedoids_fuzzy_r double (sum_by double ord) power choice X (Z.of_nat k) m D init max_iter (Fin (1 # 1000)) = Ok r) \/
   run_kmedoids_fuzzy_r double (sum_by double ord) power choice X (Z.of_nat k) m D init max_iter (Fin (1 # 1000)) = Raise UnboundLocalError).
Proof.
  intros ord N h power choice X m D init mi k ms0 Ho HN Hb HI Hm HS Hnd HP.
  assert (SC : forall ms, valid_indices X ms -> NoDup ms -> length ms = k -> sums_close double (sum_by double ord) power X D m (Fin (1 # 1000)) ms).
  { intros ms V Nd L. assert (Hne : ms <> []) by (intros ->; destruct HS as (_ & _ & Hk & _); cbn in L; lia).
    destruct (HP ms V Nd L) as (P1 & P2 & P3). subst k.
    destruct (C156_double ord N h power X m D ms Ho HN Hb HI Hm V Nd Hne P1 P2 P3) as (c & Ec & _).
    change (map (fun i => (i, nth (Z.to_nat i) X [])) ms) with (mk X ms) in Ec. rewrite fcm_r_value in Ec by auto.
    destruct (forallb _ _) eqn:F; [ | discriminate ]. rewrite forallb_forall in F. intros i Hi.
    apply (F _ (in_map (fun i => map (computed_membership double power X D m ms i) (seq 0 (length ms))) (seq 0 (length X)) i (proj2 (in_seq (length X) 0 i) (conj (Nat.le_0_l i) Hi)))). }
  split; [ exact SC | ]. pose proof HS as (Hs & Hl & Hk & HV).
  destruct (f_run_spec_r double (sum_by double ord) power X m D (Fin (1 # 1000)) k double_rounding Hk eq_refl (fcm_known double (sum_by double ord) power X m D (Fin (1 # 1000)) k HI Hm Hk SC) choice init mi ms0 Hs (conj HV (conj Hnd Hl)))
    as [[_ E]|(_ & r' & E & _)]; [ right; exact E | left; exists r'; exact E ].
Qed.
Print Assumptions C157_double.

(** the instance of C156 in eight binary digits: the hypotheses hold and the search returns *)
Lemma f_close : forall ms, valid_indices f_X ms -> NoDup ms -> length ms = 2 -> sums_close r8 (sum_by r8 one_by_one) f_power f_X f_D 2 (Fin (1 # 8)) ms.
Proof.
  intros [ | a [ | b [ | ] ] ] V Nd L; try discriminate. pose proof (V a (or_introl eq_refl)) as A. pose proof (V b (or_intror (or_introl eq_refl))) as B. cbn in A, B.
  assert (Hab : a <> b) by (intros ->; inversion Nd as [ | ? ? H ]; apply H; left; reflexivity).
  assert (Ca : (a = 0 \/ a = 1 \/ a = 2)%Z) by lia. assert (Cb : (b = 0 \/ b = 1 \/ b = 2)%Z) by lia. clear V Nd L A B.
  intros i Hi. cbn in Hi. assert (Ci : i = 0 \/ i = 1 \/ i = 2) by lia. clear Hi.
  destruct Ca as [ -> | [ -> | -> ] ], Cb as [ -> | [ -> | -> ] ]; try lia; destruct Ci as [ -> | [ -> | -> ] ]; vm_compute; reflexivity.
Qed.
Example C157_ex : starts_from (fun _ _ => Raise ValueError) f_X 2 (Some [0; 2]%Z) [0; 2]%Z /\ NoDup [0; 2]%Z /\
  exists r, run_kmedoids_fuzzy_r r8 (sum_by r8 one_by_one) f_power (fun _ _ => Raise ValueError) f_X 2 2 f_D (Some [0; 2]%Z) 10 (Fin (1 # 8)) = Ok r /\ fr_medoids r = [1; 2]%Z.
Proof.
  split; [ split; [ reflexivity | split; [ reflexivity | split; [ lia | exact f_valid ] ] ] | ]. split; [ exact f_nodup | ]. eexists. split; vm_compute; reflexivity.
Qed.
Example C157_unbound : run_kmedoids_fuzzy_r r8 (sum_by r8 one_by_one) f_power (fun _ _ => Raise ValueError) f_X 2 2 f_D (Some [1; 2]%Z) 10 (Fin (1 # 8)) = Raise UnboundLocalError.
Proof. vm_compute. reflexivity. Qed.
