(** Facts for Model/FuzzyMask.v. *)
From Coq Require Import ZifyBool ZifyNat Lqa.
From Verif Require Import Base.Py Base.PyFacts Base.Arr Base.ArrFacts Base.Float Base.FloatFacts
     Spec.Grid Model.Region Model.FuzzyMask Proofs.RegionFacts.

(** a mask as the constructor accepts it *)
Definition fmask_wf (m : fmask) : Prop :=
  wf3 (fm_u m) /\ (0 <= fm_cluster m < Z.of_nat (a3t (fm_u m)))%Z /\
  fle (Fin 0) (fm_threshold m) = true /\ fle (fm_threshold m) (Fin 1) = true.

Lemma mk_fmask_ok u c t m : mk_fmask u c t = Ok m <->
  (m = FMask u c t /\ (0 <= c < Z.of_nat (a3t u))%Z /\ fle (Fin 0) t = true /\ fle t (Fin 1) = true).
Proof.
  unfold mk_fmask, py_assert. split.
  - destruct (fle (Fin 0) t), (fle t (Fin 1)), (Z.leb_spec 0 c), (Z.ltb_spec c (Z.of_nat (a3t u))); cbn; intros E; try discriminate.
    injection E as <-. repeat split; auto.
  - intros (-> & Hc & -> & ->). replace (0 <=? c)%Z with true by lia. replace (c <? Z.of_nat (a3t u))%Z with true by lia. reflexivity.
Qed.

Section Member.
  Variable m : fmask.
  Hypothesis Hwf : fmask_wf m.
  Let u := fm_u m.

  Lemma is_member_value pt : in_grid (a3x u) (a3y u) pt ->
    exists s best ub uc, series3 u (fst pt) (snd pt) = Ok s /\ length s = a3t u /\ np_argmax s = Ok best /\
      nth_error s best = Some ub /\ nth_error s (Z.to_nat (fm_cluster m)) = Some uc /\
      fmask_is_member m (Some pt) = Ok (fle (fsub ub uc) (fm_threshold m)).
  Proof.
    destruct Hwf as (Hw & Hc & _). intros [Hx Hy]. destruct pt as [x y]. cbn [fst snd] in *.
    destruct (series3_ok u x y Hw Hx Hy) as (s & Es & Ls & Ps).
    assert (Hs : s <> []) by (destruct s; cbn in Ls; [unfold u in Ls; lia|congruence]).
    destruct (np_argmax s) as [best|] eqn:Eb; [|destruct s; [congruence|discriminate]].
    pose proof (np_argmax_lt _ _ Eb) as Hb.
    destruct (nth_error s best) as [ub|] eqn:Eub; [|apply nth_error_None in Eub; lia].
    destruct (nth_error s (Z.to_nat (fm_cluster m))) as [uc|] eqn:Euc; [|apply nth_error_None in Euc; unfold u in *; lia].
    exists s, best, ub, uc. repeat split; auto.
    unfold fmask_is_member. fold u. rewrite Es. cbn [bind]. rewrite Eb. cbn [bind].
    unfold getitem. rewrite norm_index_of_nat by auto. rewrite Eub. cbn [bind].
    rewrite norm_index_in by (rewrite Ls; exact Hc). rewrite Euc. reflexivity.
  Qed.

  Definition memb (pt : point) : bool := match fmask_is_member m (Some pt) with Ok b => b | Raise _ => false end.
  Lemma is_member_memb pt : in_grid (a3x u) (a3y u) pt -> fmask_is_member m (Some pt) = Ok (memb pt).
  Proof. intros H. destruct (is_member_value pt H) as (s & b & ub & uc & _ & _ & _ & _ & _ & E). unfold memb. rewrite E. reflexivity. Qed.

  Lemma fmask_for_spec idx : fmask_for m idx = (0, Ok (filter memb (skipn idx (grid (a3x u) (a3y u))))).
  Proof.
    rewrite <- grid_from_skipn. unfold fmask_for, fmask_next. fold u.
    assert (G : forall fuel idx, a3x u * a3y u - idx < fuel ->
      run_for (member_next (fun pt => fmask_is_member m (Some pt)) (a3x u) (a3y u) (S (a3x u * a3y u))) fuel idx
      = (0, Ok (filter memb (grid_from (a3x u) (a3y u) idx)))); [|apply G; lia].
    clear idx. induction fuel as [|fuel IH]; intros idx Hf; [lia|]. cbn [run_for].
    pose proof (member_next_spec (fun pt => fmask_is_member m (Some pt)) memb (fun _ => Ok tt) (fun _ => tt) (a3x u) (a3y u) is_member_memb (fun _ _ _ => eq_refl)
       (S (a3x u * a3y u)) idx ltac:(lia)) as Hn.
    destruct (filter memb (grid_from (a3x u) (a3y u) idx)) as [|p ps] eqn:Ef.
    - rewrite Hn. reflexivity.
    - destruct Hn as (idx' & E & Eps & Hi & Hg & Hm). rewrite E. rewrite IH by lia. rewrite <- Eps. reflexivity.
  Qed.
End Member.

(** building a mask from the memberships of the samples *)
Lemma flat_pairs_nth n k j i : i < n -> j < k ->
  nth_error (flat_map (fun j => map (fun i => (j, i)) (seq 0 n)) (seq 0 k)) (j * n + i) = Some (j, i).
Proof.
  intros Hi. revert j. assert (G : forall k b j, j < k ->
    nth_error (flat_map (fun j => map (fun i => (j, i)) (seq 0 n)) (seq b k)) (j * n + i) = Some (b + j, i)).
  { clear k. induction k as [|k IH]; intros b j Hj; [lia|]. cbn [seq flat_map]. destruct j as [|j].
    - rewrite nth_error_app1 by (rewrite map_length, seq_length; lia). cbn. rewrite nth_error_map, nth_error_seq.
      replace (i <? n)%nat with true by lia. cbn. rewrite Nat.add_0_r. reflexivity.
    - rewrite nth_error_app2 by (rewrite map_length, seq_length; lia). rewrite map_length, seq_length.
      replace (S j * n + i - n) with (j * n + i) by lia. rewrite IH by lia. f_equal. f_equal. lia. }
  intros j Hj. rewrite G by auto. reflexivity.
Qed.

Lemma flat_pairs_length n k : length (flat_map (fun j => map (fun i => (j, i)) (seq 0 n)) (seq 0 k)) = k * n.
Proof.
  assert (G : forall b, length (flat_map (fun j => map (fun i => (j, i)) (seq 0 n)) (seq b k)) = k * n); [|apply G].
  induction k as [|k IH]; intros b; cbn; auto. rewrite app_length, map_length, seq_length, IH. lia.
Qed.

Lemma from_uij_spec uij x y c t : wf2 uij -> a2x uij = x * y -> (0 <= c < Z.of_nat (a2y uij))%Z ->
  fle (Fin 0) t = true -> fle t (Fin 1) = true ->
  exists m, from_uij_and_region uij x y c t = Ok m /\ fmask_wf m /\ fm_cluster m = c /\ fm_threshold m = t /\
    a3t (fm_u m) = a2y uij /\ a3x (fm_u m) = x /\ a3y (fm_u m) = y /\
    forall j i l, j < a2y uij -> i < x -> l < y -> at3 (fm_u m) j i l = at2 uij (i * y + l) j.
Proof.
  intros Hw Hx Hc Ht1 Ht2. unfold from_uij_and_region, py_assert. rewrite Hx, Nat.eqb_refl. cbn [bind].
  set (pairs := flat_map _ _).
  set (g := fun ji : nat * nat => match get2 uij (Z.of_nat (snd ji)) (Z.of_nat (fst ji)) with Ok v => v | Raise _ => NaN end).
  rewrite mapM_ok with (g := g).
  2:{ intros [j i] Hin. unfold pairs in Hin. apply in_flat_map in Hin. destruct Hin as (j' & Hj & Hin).
      apply in_map_iff in Hin. destruct Hin as (i' & E & Hi). inversion E; subst. apply in_seq in Hi, Hj.
      destruct (get2_ok uij (Z.of_nat i) (Z.of_nat j) Hw ltac:(lia) ltac:(lia)) as (v & Ev & _).
      unfold g. cbn [fst snd]. rewrite Ev. reflexivity. }
  cbn [bind]. unfold reshape3. rewrite map_length. unfold pairs. rewrite flat_pairs_length.
  replace (a2y uij * (x * y)) with (a2y uij * x * y) by lia. rewrite Nat.eqb_refl. cbn [bind].
  set (arr := mk3 _ _ _ _).
  exists (FMask arr c t). split; [apply mk_fmask_ok; repeat split; auto; apply Hc|]. cbn [fm_u fm_cluster fm_threshold].
  assert (Hw3 : wf3 arr) by (unfold wf3, arr; cbn; rewrite map_length, flat_pairs_length; lia).
  split; [split; [exact Hw3|split; [exact Hc|split; auto]]|]. do 5 (split; [reflexivity|]).
  intros j i l Hj Hi Hl. unfold at3, arr. cbn [a3d a3x a3y]. rewrite nth_error_map.
  replace ((j * x + i) * y + l) with (j * (x * y) + (i * y + l)) by lia.
  assert (i * y + l < x * y) by (apply flat_lt; auto).
  rewrite flat_pairs_nth by auto. cbn [option_map]. unfold g. cbn [fst snd].
  rewrite get2_nat by lia. destruct (at2_some uij (i * y + l) j Hw ltac:(lia) Hj) as [v Ev]. rewrite Ev. reflexivity.
Qed.
