(** Properties C31-C33 and C75: fuzzy k-medoids and fuzzy masks. *)
From Coq Require Import ZifyBool ZifyNat Lqa.
From Verif Require Import Base.Py Base.PyFacts Base.Arr Base.ArrFacts Base.Float Base.FloatFacts
     Spec.Grid Model.Region Model.FuzzyMask Model.KMedoids Model.KMedoidsFuzzy Spec.Medoids Spec.Fuzzy
     Proofs.RegionFacts Proofs.KMedoidsFacts Proofs.FuzzyMaskFacts Proofs.KMedoidsFuzzyFacts Props.Scaling Props.KMedoids.

(* ---------------------------------------------------------------- C31 *)
(** For every fuzzifier m other than 1 whose power function meets the contract (for m = 2 it is the identity,
    see below), samples pairwise at positive finite distances and distinct medoids: the call returns, with one
    row per sample and one column per medoid. *)
Theorem C31_memberships : forall (power : power_fn) X m D tol ms,
  instance X D -> ~ (m == 1)%Q -> power_contract (fun x => power x (1 / (m - 1))%Q) -> separated X D ->
  fle (Fin 0) tol = true -> valid_indices X ms -> NoDup ms -> ms <> [] ->
  exists c, compute_membership_fcm power X m (map (fun i => (i, nth (Z.to_nat i) X [])) ms) D tol = Ok c /\
    length (f_u c) = length X /\
    (forall row, In row (f_u c) -> length row = length ms /\ feqv (fsum row) (Fin 1)) /\
    (* a sample that is not a medoid: memberships in (0,1], larger for nearer medoids *)
    (forall i row, nth_error (f_u c) i = Some row -> ~ In (Z.of_nat i) ms ->
       (forall u, In u row -> flt (Fin 0) u = true /\ fle u (Fin 1) = true) /\
       (forall j j' u u', nth_error row j = Some u -> nth_error row j' = Some u' ->
          flt (dist_j X D ms j i) (dist_j X D ms j' i) = true -> flt u' u = true)) /\
    (* a medoid: 1 in its own cluster and 0 in the others *)
    (forall j0 i row, nth_error ms j0 = Some (Z.of_nat i) -> nth_error (f_u c) i = Some row ->
       forall j u, nth_error row j = Some u -> u = if (j =? j0)%nat then Fin 1 else Fin 0) /\
    (* costs: distances weighted with the memberships *)
    f_costs c = map (fun j => fsum (map (fun i => fmul (nth j (nth i (f_u c) []) NaN) (dist_j X D ms j i)) (seq 0 (length X))))
                    (seq 0 (length ms)) /\
    f_total c = fsum (f_costs c).
Proof.
  intros power X m D tol ms HI Hm Hpw Hsep Ht HV Hnd Hne. set (pw := fun x => power x (1 / (m - 1))%Q) in *.
  exists (fcost_of power X m D ms). split; [apply (fcm_ok power X m D tol); auto|].
  assert (Hrow : forall i row, nth_error (memberships X D pw ms) i = Some row -> i < length X /\ row = map (membership X D pw ms i) (seq 0 (length ms))).
  { intros i row H. unfold memberships in H. rewrite nth_error_map, nth_error_seq in H.
    destruct (Nat.ltb_spec i (length X)); cbn in H; [|discriminate]. injection H as <-. auto. }
  assert (Hent : forall i j u, nth_error (map (membership X D pw ms i) (seq 0 (length ms))) j = Some u -> j < length ms /\ u = membership X D pw ms i j).
  { intros i j u H. rewrite nth_error_map, nth_error_seq in H. destruct (Nat.ltb_spec j (length ms)); cbn in H; [|discriminate].
    injection H as <-. auto. }
  cbn [f_u fcost_of f_costs f_total]. fold pw.
  split; [unfold memberships; rewrite map_length, seq_length; auto|].
  split. { intros row Hr. apply In_nth_error in Hr. destruct Hr as [i Hr]. apply Hrow in Hr. destruct Hr as [Hi ->].
    split; [rewrite map_length, seq_length; auto|]. apply (row_sum power X m D Hpw Hsep ms i); auto. }
  split. { intros i row Hr Hn. apply Hrow in Hr. destruct Hr as [Hi ->]. split.
    - intros u Hu. apply In_nth_error in Hu. destruct Hu as [j Hu]. apply Hent in Hu. destruct Hu as [Hj ->].
      destruct (membership_other power X m D Hpw Hsep ms i HV Hne Hi Hn) as [_ P]. destruct (P j Hj) as (v & E & _ & Hv1 & Hv2).
      fold pw in E. rewrite E. split; [apply flt_Fin|apply fle_Fin]; auto.
    - intros j j' u u' Hu Hu' Hd. apply Hent in Hu, Hu'. destruct Hu as [Hj ->], Hu' as [Hj' ->].
      apply (membership_order power X m D Hpw Hsep ms i j j'); auto. }
  split. { intros j0 i row Hj0 Hr j u Hu. apply Hrow in Hr. destruct Hr as [Hi ->]. apply Hent in Hu. destruct Hu as [Hj ->].
    apply (membership_medoid power X m D Hpw Hsep ms i j0); auto.
    - apply nth_error_Some. congruence.
    - apply nth_error_nth. auto. }
  split; [|reflexivity].
  apply map_ext_in. intros j Hj. apply in_seq in Hj. unfold fuzzy_cost. f_equal. apply map_ext_in. intros i Hi. apply in_seq in Hi.
  unfold memberships. rewrite nth_map_lt with (d' := 0) by (rewrite seq_length; lia). rewrite seq_nth by lia. cbn [plus].
  rewrite nth_map_lt with (d' := 0) by (rewrite seq_length; lia). rewrite seq_nth by lia. reflexivity.
Qed.
Print Assumptions C31_memberships.

(* the default fuzzifier m = 2: the exponent is 1 *)
Definition power_one : power_fn := fun x _ => x.
Example C31_power_identity : power_contract (fun x => power_one x (1 / (2 - 1))%Q).
Proof.
  split; [reflexivity|]. split.
  - intros q Hq. exists q. auto.
  - intros q q' p p' _ H E E'. injection E as <-. injection E' as <-. auto.
Qed.
Example C31_separated : separated ex_X ex_M /\ instance ex_X ex_M.
Proof.
  split; [|repeat split]. intros a b Ha Hb. cbn in Ha, Hb.
  do 5 (destruct a as [|a]; [do 5 (destruct b as [|b]; [vm_compute; first [reflexivity|eexists; split; [reflexivity|reflexivity]]|]); lia|]). lia.
Qed.
Example C31_nonvacuous : exists c,
  compute_membership_fcm power_one ex_X 2 (map (fun i => (i, nth (Z.to_nat i) ex_X [])) [0; 4]%Z) ex_M (Fin (1#1000)) = Ok c /\
  map (map (fun u => match u with Fin q => Qred q | _ => 5%Q end)) (f_u c) = [[1; 0]; [8#9; 1#9]; [7#9; 2#9]; [1#9; 8#9]; [0; 1]]%Q.
Proof. eexists. split; [vm_compute; reflexivity|]. vm_compute. reflexivity. Qed.

(* ---------------------------------------------------------------- C32 *)
Lemma replace_nth_mid {A} (b : list A) old a v : replace_nth (b ++ old :: a) (length b) v = b ++ v :: a.
Proof. induction b; cbn; auto. f_equal; auto. Qed.

(** Under the same conditions the search returns a result if and only if some exchange of an initial medoid for
    another sample lowers the total by more than tol; otherwise UnboundLocalError is raised. *)
Theorem C32_returns_iff_initial_medoids_improvable :
  forall (power : power_fn) choice X m D tol init max_iter k ms0,
  instance X D -> ~ (m == 1)%Q -> power_contract (fun x => power x (1 / (m - 1))%Q) -> separated X D ->
  fle (Fin 0) tol = true -> starts_from choice X k init ms0 -> NoDup ms0 ->
  ((exists j i, improving_swap X D (fun x => power x (1 / (m - 1))%Q) tol ms0 j i) ->
     exists r, run_kmedoids_fuzzy power choice X (Z.of_nat k) m D init max_iter tol = Ok r) /\
  (~ (exists j i, improving_swap X D (fun x => power x (1 / (m - 1))%Q) tol ms0 j i) ->
     run_kmedoids_fuzzy power choice X (Z.of_nat k) m D init max_iter tol = Raise UnboundLocalError).
Proof.
  intros power choice X m D tol init mi k ms0 HI Hm Hpw Hsep Ht (Hs & Hl & Hk & HV) Hnd.
  set (pw := fun x => power x (1 / (m - 1))%Q) in *.
  assert (Hfcm : forall ms, good X k ms -> compute_membership_fcm power X m (mk X ms) D tol = Ok (fcost_of power X m D ms)).
  { intros ms (V & N & L). apply fcm_ok; auto. intros ->. cbn in L. lia. }
  pose proof (f_run_spec power X m D tol k Hk Ht Hfcm choice init mi ms0 Hs (conj HV (conj Hnd Hl))) as R.
  assert (Himp : forall j i, improving_swap X D pw tol ms0 j i -> i < length X /\ j < k /\ imp power X m D tol ms0 j i).
  { intros j i (before & old & after & E & Ej & Hi & Hn & G). subst ms0 j. rewrite app_length in Hl. cbn in Hl.
    split; auto. split; [lia|]. split; auto. unfold gain. fold pw.
    rewrite replace_nth_mid. auto. }
  split.
  - intros (j & i & H). apply Himp in H. destruct H as (Hi & Hj & HI'). destruct R as [[O _]|(_ & r & E & _)]; [|eauto].
    exfalso. apply (O i j Hi Hj HI').
  - intros Hn. destruct R as [[_ E]|(NO & _)]; auto. exfalso.
    assert (O : optimal power X m D tol k ms0).
    { intros i j Hi Hj [Hni G']. apply Hn. exists j, i.
      destruct (nth_split ms0 0%Z (n := j) ltac:(lia)) as (b & a & Em & Eb).
      exists b, (nth j ms0 0%Z), a. split; auto. split; auto. split; auto. split; auto. unfold gain in G'. fold pw in G'.
      rewrite Em, <- Eb, replace_nth_mid, Eb, <- Em in G'. auto. }
    contradiction.
Qed.
Print Assumptions C32_returns_iff_initial_medoids_improvable.

(** What a successful call returns: distinct sample indices as medoids, at a total lower than that of the initial
    medoids by more than tol, with the memberships, costs and total of those medoids; and after stopping before
    the iteration limit no exchange improves. *)
Theorem C32_result : forall (power : power_fn) choice X m D tol init max_iter k ms0 r,
  instance X D -> ~ (m == 1)%Q -> power_contract (fun x => power x (1 / (m - 1))%Q) -> separated X D ->
  fle (Fin 0) tol = true -> starts_from choice X k init ms0 -> NoDup ms0 ->
  run_kmedoids_fuzzy power choice X (Z.of_nat k) m D init max_iter tol = Ok r ->
  let pw := fun x => power x (1 / (m - 1))%Q in
  valid_indices X (fr_medoids r) /\ NoDup (fr_medoids r) /\ length (fr_medoids r) = k /\
  flt tol (fsub (fuzzy_total X D pw ms0) (fr_total r)) = true /\
  fr_u r = memberships X D pw (fr_medoids r) /\
  fr_costs r = map (fuzzy_cost X D pw (fr_medoids r)) (seq 0 k) /\
  fr_total r = fuzzy_total X D pw (fr_medoids r) /\
  (fr_cc r + 1 <= Z.max 0 max_iter + 2)%Z /\
  ((fr_cc r <= max_iter)%Z -> forall j i, ~ improving_swap X D pw tol (fr_medoids r) j i).
Proof.
  intros power choice X m D tol init mi k ms0 r HI Hm Hpw Hsep Ht (Hs & Hl & Hk & HV) Hnd Hr pw.
  assert (Hfcm : forall ms, good X k ms -> compute_membership_fcm power X m (mk X ms) D tol = Ok (fcost_of power X m D ms)).
  { intros ms (V & N & L). apply fcm_ok; auto. intros ->. cbn in L. lia. }
  destruct (f_run_spec power X m D tol k Hk Ht Hfcm choice init mi ms0 Hs (conj HV (conj Hnd Hl)))
    as [[_ E]|(_ & r' & E & (V & N & L) & G & Hu & Hc & Htot & Hcc & Hopt)]; [congruence|].
  rewrite Hr in E. injection E as <-. fold pw in Hu, Hc, Htot. unfold gain in G. fold pw in G.
  do 3 (split; [assumption|]). split; [rewrite Htot; exact G|]. do 3 (split; [assumption|]). split; [lia|].
  intros Hlim j i (b & old & a & Em & Ej & Hi & Hn & G'). apply (Hopt Hlim i j Hi).
  - rewrite <- L, Em, app_length. cbn. lia.
  - split; auto. unfold gain. fold pw.
    rewrite Em, <- Ej, replace_nth_mid, <- Em. auto.
Qed.
Print Assumptions C32_result.

Example C32_returns : exists r,
  run_kmedoids_fuzzy power_one ex_choice ex_X 2 2 ex_M (Some [0; 2]%Z) 1000 (Fin (1#1000)) = Ok r /\ fr_medoids r = [3; 1]%Z.
Proof. eexists. split; [vm_compute; reflexivity|]. reflexivity. Qed.
Example C32_unbound : run_kmedoids_fuzzy power_one ex_choice ex_X 2 2 ex_M (Some [3; 1]%Z) 1000 (Fin (1#1000)) = Raise UnboundLocalError.
Proof. vm_compute. reflexivity. Qed.

(* ---------------------------------------------------------------- C75 *)
(** Whatever the initial medoids, the tolerance and the limit: if some sample is at distance 0 from another one,
    the fuzzy search ends with AssertionError. *)
Theorem C75_equal_samples_raise : forall (power : power_fn) choice X m D tol init max_iter k ms0 a b,
  instance X D -> ~ (m == 1)%Q -> power PInf (1 / (m - 1))%Q = PInf -> starts_from choice X k init ms0 ->
  a < length X -> b < length X -> a <> b -> feqb (sample_dist X D a b) (Fin 0) = true ->
  run_kmedoids_fuzzy power choice X (Z.of_nat k) m D init max_iter tol = Raise AssertionError.
Proof. intros power choice X m D tol init mi k ms0 a b HI Hm Hp (Hs & Hl & Hk & HV). intros. eapply f_run_duplicate with (ms0 := ms0) (a := a) (b := b); auto. Qed.
Print Assumptions C75_equal_samples_raise.

Example C75_nonvacuous : instance ex_dup_X ex_dup_D /\ feqb (sample_dist ex_dup_X ex_dup_D 0 1) (Fin 0) = true /\
  run_kmedoids_fuzzy power_one ex_choice ex_dup_X 2 2 ex_dup_D (Some [2; 3]%Z) 1000 (Fin (1#1000)) = Raise AssertionError.
Proof. split; [repeat split|]. split; vm_compute; reflexivity. Qed.

(* ---------------------------------------------------------------- C33 *)
(** Membership in a fuzzy mask: for finite memberships u_0 .. u_(k-1) of a point, the point belongs to cluster c
    iff no membership exceeds u_c by more than the threshold. *)
Theorem C33_member_iff : forall u c t m x y s, mk_fmask u c t = Ok m -> wf3 u -> in_grid (a3x u) (a3y u) (x, y) ->
  series3 u x y = Ok s -> (forall v, In v s -> is_fin v = true) ->
  exists uc b, nth_error s (Z.to_nat c) = Some uc /\ fmask_is_member m (Some (x, y)) = Ok b /\
    (b = true <-> forall v, In v s -> fle (fsub v uc) t = true).
Proof.
  intros u c t m x y s Hm Hw Hg Hs Hf. apply mk_fmask_ok in Hm. destruct Hm as (-> & Hc & Ht0 & Ht1).
  assert (Hwf : fmask_wf (FMask u c t)) by (split; auto).
  destruct (is_member_value _ Hwf (x, y) Hg) as (s' & best & ub & uc & Es & Ls & Eb & Eub & Euc & E).
  cbn [fm_u fst snd fm_cluster fm_threshold] in *. rewrite Hs in Es. injection Es as <-.
  exists uc, (fle (fsub ub uc) t). split; auto. split; auto.
  assert (Hnn : forall v, In v s -> is_nan v = false) by (intros v Hv; specialize (Hf v Hv); destruct v; auto; discriminate).
  destruct (np_argmax_spec s best Hnn Eb) as (m0 & Em & P). rewrite Eub in Em. injection Em as <-.
  assert (Fub : is_fin ub = true) by (apply Hf; eapply nth_error_In; eauto).
  assert (Fuc : is_fin uc = true) by (apply Hf; eapply nth_error_In; eauto).
  destruct ub as [| | |qb]; try discriminate. destruct uc as [| | |qc]; try discriminate.
  split.
  - intros H v Hv. pose proof (Hf v Hv) as Fv. destruct v as [| | |q]; try discriminate.
    apply In_nth_error in Hv. destruct Hv as [n Hv]. destruct (P n _ Hv) as [L _]. apply fle_Fin in L.
    eapply fle_trans; [|exact H]. cbn [fsub fopp fadd]. apply fle_Fin. lra.
  - intros H. apply H. eapply nth_error_In; eauto.
Qed.
Print Assumptions C33_member_iff.

(** Every point with finite memberships belongs to some cluster, whatever the threshold. *)
Theorem C33_some_cluster : forall u t x y s, wf3 u -> 0 < a3t u -> in_grid (a3x u) (a3y u) (x, y) ->
  fle (Fin 0) t = true -> fle t (Fin 1) = true ->
  series3 u x y = Ok s -> (forall v, In v s -> is_fin v = true) ->
  exists c m, mk_fmask u c t = Ok m /\ fmask_is_member m (Some (x, y)) = Ok true /\
    (forall v, In v s -> fle v (nth (Z.to_nat c) s NaN) = true).
Proof.
  intros u t x y s Hw Hk Hg Ht0 Ht1 Hs Hf.
  destruct (series3_ok u x y Hw (proj1 Hg) (proj2 Hg)) as (s' & Es & Ls & _). rewrite Hs in Es. injection Es as <-.
  destruct (np_argmax s) as [best|] eqn:Eb; [|destruct s; [cbn in Ls; lia|discriminate]].
  pose proof (np_argmax_lt _ _ Eb) as Hb.
  assert (Hnn : forall v, In v s -> is_nan v = false) by (intros v Hv; specialize (Hf v Hv); destruct v; auto; discriminate).
  destruct (np_argmax_spec s best Hnn Eb) as (ub & Eub & P).
  exists (Z.of_nat best), (FMask u (Z.of_nat best) t).
  assert (Hmk : mk_fmask u (Z.of_nat best) t = Ok (FMask u (Z.of_nat best) t)) by (apply mk_fmask_ok; repeat split; auto; lia).
  split; auto. destruct (C33_member_iff _ _ _ _ x y s Hmk Hw Hg Hs Hf) as (uc & b & Euc & E & Hiff).
  rewrite Nat2Z.id in *. rewrite Eub in Euc. injection Euc as <-. rewrite E. split.
  - f_equal. apply Hiff. intros v Hv. assert (Fv := Hf v Hv). assert (Fub : is_fin ub = true) by (apply Hf; eapply nth_error_In; eauto).
    apply In_nth_error in Hv. destruct Hv as [n Hv]. destruct (P n _ Hv) as [L _].
    destruct v as [| | |q]; try discriminate. destruct ub as [| | |qb]; try discriminate.
    apply fle_Fin in L. eapply fle_trans; [|exact Ht0]. cbn [fsub fopp fadd]. apply fle_Fin. lra.
  - intros v Hv. rewrite (nth_error_nth _ _ _ Eub). apply In_nth_error in Hv. destruct Hv as [n Hv]. apply (P n v Hv).
Qed.
Print Assumptions C33_some_cluster.

(** A larger threshold keeps every member (no condition on the memberships). *)
Theorem C33_monotone : forall u c t t' m m' pt, mk_fmask u c t = Ok m -> mk_fmask u c t' = Ok m' -> fle t t' = true ->
  fmask_is_member m (Some pt) = Ok true -> fmask_is_member m' (Some pt) = Ok true.
Proof.
  intros u c t t' m m' [x y] Hm Hm' Hle. apply mk_fmask_ok in Hm, Hm'. destruct Hm as (-> & _), Hm' as (-> & _).
  cbn [fmask_is_member fm_u fm_cluster fm_threshold].
  destruct (series3 u x y) as [s|]; [|discriminate]. cbn [bind]. destruct (np_argmax s) as [best|]; [|discriminate]. cbn [bind].
  destruct (getitem s (Z.of_nat best)) as [ub|]; [|discriminate]. cbn [bind].
  destruct (getitem s c) as [uc|]; [|discriminate]. cbn [bind]. intros H. injection H as H. f_equal. eapply fle_trans; eauto.
Qed.
Print Assumptions C33_monotone.

(** Iterating a mask gives its members in row-major order, cluster_len counts them, and both can be repeated. *)
Theorem C33_iteration_and_length : forall u c t m, mk_fmask u c t = Ok m -> wf3 u ->
  exists members, fmask_for m 0 = (0, Ok members) /\ fmask_cluster_len m 0 = (0, Ok (length members)) /\
    exists keep, members = filter keep (grid (a3x u) (a3y u)) /\
      forall pt, in_grid (a3x u) (a3y u) pt -> fmask_is_member m (Some pt) = Ok (keep pt).
Proof.
  intros u c t m Hm Hw. apply mk_fmask_ok in Hm. destruct Hm as (-> & Hc & Ht0 & Ht1).
  assert (Hwf : fmask_wf (FMask u c t)) by (split; auto).
  exists (filter (memb (FMask u c t)) (grid (a3x u) (a3y u))).
  unfold fmask_cluster_len. rewrite fmask_for_spec by auto. cbn [fm_u skipn]. split; auto. split; auto.
  exists (memb (FMask u c t)). split; auto. intros pt Hpt. apply is_member_memb; auto.
Qed.
Print Assumptions C33_iteration_and_length.

(** A missing membership: the point belongs to no cluster. *)
Theorem C33_missing_membership : forall u c t m x y s, mk_fmask u c t = Ok m -> wf3 u -> in_grid (a3x u) (a3y u) (x, y) ->
  series3 u x y = Ok s -> In NaN s -> fmask_is_member m (Some (x, y)) = Ok false.
Proof.
  intros u c t m x y s Hm Hw Hg Hs Hn. apply mk_fmask_ok in Hm. destruct Hm as (-> & Hc & Ht0 & Ht1).
  assert (Hwf : fmask_wf (FMask u c t)) by (split; auto).
  destruct (is_member_value _ Hwf (x, y) Hg) as (s' & best & ub & uc & Es & Ls & Eb & Eub & Euc & E).
  cbn [fm_u fst snd fm_cluster fm_threshold] in *. rewrite Hs in Es. injection Es as <-.
  assert (ub = NaN).
  { assert (G : forall l seen bi best0, nth_error seen bi = Some best0 -> best0 = NaN \/ In NaN l ->
       nth_error (seen ++ l) (arg_best_aux argmax_better l (length seen) bi best0) = Some NaN).
    { clear. induction l as [|a l IH]; intros seen bi best0 Hb Hor; cbn [arg_best_aux].
      - rewrite app_nil_r. destruct Hor as [->|[]]. auto.
      - replace (seen ++ a :: l) with ((seen ++ [a]) ++ l) by (rewrite <- app_assoc; auto).
        replace (S (length seen)) with (length (seen ++ [a])) by (rewrite app_length; cbn; lia).
        destruct (argmax_better a best0) eqn:B; apply IH.
        + rewrite nth_error_app2, Nat.sub_diag by lia. reflexivity.
        + unfold argmax_better in B. destruct Hor as [->|[->|H]]; auto. discriminate.
        + rewrite nth_error_app1; auto. apply nth_error_Some. congruence.
        + unfold argmax_better in B. destruct Hor as [->|[->|H]]; auto. cbn in B. rewrite andb_true_r in B.
          destruct best0; cbn in B; auto; discriminate. }
    destruct s as [|a s]; [destruct Hn|]. cbn [np_argmax] in Eb. injection Eb as Eb.
    specialize (G s [a] 0 a eq_refl). rewrite <- Eb in Eub. cbn [length app] in G. rewrite G in Eub; [congruence|].
    destruct Hn as [->|Hn]; auto. }
  subst ub. rewrite E. reflexivity.
Qed.
Print Assumptions C33_missing_membership.

(** With memberships in [0,1]: threshold 1 puts every point in every cluster. *)
Theorem C33_threshold_one : forall u c m x y s, mk_fmask u c (Fin 1) = Ok m -> wf3 u -> in_grid (a3x u) (a3y u) (x, y) ->
  series3 u x y = Ok s -> (forall v, In v s -> fle (Fin 0) v = true /\ fle v (Fin 1) = true) ->
  fmask_is_member m (Some (x, y)) = Ok true.
Proof.
  intros u c m x y s Hm Hw Hg Hs Hr.
  assert (Hf : forall v, In v s -> is_fin v = true).
  { intros v Hv. destruct (Hr v Hv) as [H1 H2]. destruct v; auto; discriminate. }
  destruct (C33_member_iff _ _ _ _ x y s Hm Hw Hg Hs Hf) as (uc & b & Euc & E & Hiff). rewrite E. f_equal. apply Hiff.
  intros v Hv. destruct (Hr v Hv) as [H1 H2]. destruct (Hr uc (nth_error_In _ _ Euc)) as [H3 H4].
  pose proof (Hf v Hv). pose proof (Hf uc (nth_error_In _ _ Euc)). destruct v; try discriminate. destruct uc; try discriminate.
  apply fle_Fin in H1, H2, H3, H4. cbn [fsub fopp fadd]. apply fle_Fin. lra.
Qed.
Print Assumptions C33_threshold_one.

Definition ex_mask_u : arr3 fnum := mk3 2 1 3 [Fin (1#2); Fin 1; Fin (1#3); Fin (1#2); Fin 0; Fin (2#3)].

Lemma C33_tie : exists m0 m1, mk_fmask ex_mask_u 0 (Fin 0) = Ok m0 /\ mk_fmask ex_mask_u 1 (Fin 0) = Ok m1 /\
  fmask_is_member m0 (Some (0, 0)%Z) = Ok true /\ fmask_is_member m1 (Some (0, 0)%Z) = Ok true.
Proof. eexists. eexists. repeat (split; [vm_compute; reflexivity|]). vm_compute. reflexivity. Qed.

(** The documentation says that with threshold 0 each point belongs only to one cluster: not when two
    memberships are equal. *)
Theorem C33_threshold_zero_is_crisp_refuted :
  ~ (forall u c c' m m' x y, wf3 u -> in_grid (a3x u) (a3y u) (x, y) ->
       (forall v, In v (a3d u) -> fle (Fin 0) v = true /\ fle v (Fin 1) = true) ->
       mk_fmask u c (Fin 0) = Ok m -> mk_fmask u c' (Fin 0) = Ok m' ->
       fmask_is_member m (Some (x, y)) = Ok true -> fmask_is_member m' (Some (x, y)) = Ok true -> c = c').
Proof.
  intros H. destruct C33_tie as (m0 & m1 & E0 & E1 & M0 & M1).
  assert (0 = 1)%Z; [|lia].
  apply (H ex_mask_u 0%Z 1%Z m0 m1 0%Z 0%Z); auto; try reflexivity.
  - unfold in_grid; cbn; lia.
  - intros v Hv. cbn in Hv. decompose [or] Hv; subst; try contradiction; vm_compute; auto.
Qed.
Print Assumptions C33_threshold_zero_is_crisp_refuted.

Example C33_nonvacuous : exists m, mk_fmask ex_mask_u 0 (Fin (1#4)) = Ok m /\
  fmask_for m 0 = (0, Ok [(0, 0); (0, 1)]%Z) /\ fmask_cluster_len m 0 = (0, Ok 2).
Proof. eexists. split; [vm_compute; reflexivity|]. split; vm_compute; reflexivity. Qed.
(** building the mask from the table of memberships of the samples puts sample x*y_len+y at point (x, y) *)
Theorem C33_from_memberships : forall uij x y c t, wf2 uij -> a2x uij = x * y -> (0 <= c < Z.of_nat (a2y uij))%Z ->
  fle (Fin 0) t = true -> fle t (Fin 1) = true ->
  exists m, from_uij_and_region uij x y c t = Ok m /\ fm_cluster m = c /\ fm_threshold m = t /\
    a3t (fm_u m) = a2y uij /\ a3x (fm_u m) = x /\ a3y (fm_u m) = y /\ wf3 (fm_u m) /\
    forall j i l, j < a2y uij -> i < x -> l < y ->
      get3 (fm_u m) (Z.of_nat j) (Z.of_nat i) (Z.of_nat l) = get2 uij (Z.of_nat (i * y + l)) (Z.of_nat j).
Proof.
  intros uij x y c t Hw Hx Hc Ht0 Ht1. destruct (from_uij_spec uij x y c t Hw Hx Hc Ht0 Ht1) as (m & E & (W & _) & E1 & E2 & E3 & E4 & E5 & P).
  exists m. repeat (split; [assumption|]). intros j i l Hj Hi Hl.
  rewrite get3_nat by lia. rewrite get2_nat by (rewrite ?Hx; auto; apply flat_lt; auto). rewrite P by auto. reflexivity.
Qed.
Print Assumptions C33_from_memberships.
