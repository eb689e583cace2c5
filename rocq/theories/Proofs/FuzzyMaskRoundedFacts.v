(** Facts for Model/FuzzyMaskRounded.v. *)
From Coq Require Import ZifyBool ZifyNat Lqa QArith.
From Verif Require Import Base.Py Base.PyFacts Base.Arr Base.ArrFacts Base.Float Base.FloatFacts
     Spec.Grid Model.Region Model.FuzzyMask Model.Rounded Model.FuzzyMaskRounded Proofs.RegionFacts Proofs.FuzzyMaskFacts.
Local Close Scope Q_scope. Local Open Scope nat_scope.

Section Member.
  Variable rnd : Q -> fnum.
  Variable m : fmask.
  Hypothesis Hwf : fmask_wf m.
  Let u := fm_u m.

  Lemma is_member_value_r pt : in_grid (a3x u) (a3y u) pt ->
    exists s best ub uc, series3 u (fst pt) (snd pt) = Ok s /\ length s = a3t u /\ np_argmax s = Ok best /\
      nth_error s best = Some ub /\ nth_error s (Z.to_nat (fm_cluster m)) = Some uc /\
      fmask_is_member_r rnd m (Some pt) = Ok (fle (rsub rnd ub uc) (fm_threshold m)).
  Proof.
    destruct Hwf as (Hw & Hc & _). intros [Hx Hy]. destruct pt as [x y]. cbn [fst snd] in *.
    destruct (series3_ok u x y Hw Hx Hy) as (s & Es & Ls & Ps).
    assert (Hs : s <> []) by (destruct s; cbn in Ls; [unfold u in Ls; lia|congruence]).
    destruct (np_argmax s) as [best|] eqn:Eb; [|destruct s; [congruence|discriminate]].
    pose proof (np_argmax_lt _ _ Eb) as Hb.
    destruct (nth_error s best) as [ub|] eqn:Eub; [|apply nth_error_None in Eub; lia].
    destruct (nth_error s (Z.to_nat (fm_cluster m))) as [uc|] eqn:Euc; [|apply nth_error_None in Euc; unfold u in *; lia].
    exists s, best, ub, uc. repeat split; auto.
    unfold fmask_is_member_r. fold u. rewrite Es. cbn [bind]. rewrite Eb. cbn [bind].
    unfold getitem. rewrite norm_index_of_nat by auto. rewrite Eub. cbn [bind].
    rewrite norm_index_in by (rewrite Ls; exact Hc). rewrite Euc. reflexivity.
  Qed.

  Definition memb_r (pt : point) : bool := match fmask_is_member_r rnd m (Some pt) with Ok b => b | Raise _ => false end.
  Lemma is_member_memb_r pt : in_grid (a3x u) (a3y u) pt -> fmask_is_member_r rnd m (Some pt) = Ok (memb_r pt).
  Proof. intros H. destruct (is_member_value_r pt H) as (s & b & ub & uc & _ & _ & _ & _ & _ & E). unfold memb_r. rewrite E. reflexivity. Qed.

  Lemma fmask_for_spec_r idx : fmask_for_r rnd m idx = (0, Ok (filter memb_r (skipn idx (grid (a3x u) (a3y u))))).
  Proof.
    rewrite <- grid_from_skipn. unfold fmask_for_r, fmask_next_r. fold u.
    assert (G : forall fuel idx, a3x u * a3y u - idx < fuel ->
      run_for (member_next (fun pt => fmask_is_member_r rnd m (Some pt)) (a3x u) (a3y u) (S (a3x u * a3y u))) fuel idx
      = (0, Ok (filter memb_r (grid_from (a3x u) (a3y u) idx)))); [|apply G; lia].
    clear idx. induction fuel as [|fuel IH]; intros idx Hf; [lia|]. cbn [run_for].
    pose proof (member_next_spec (fun pt => fmask_is_member_r rnd m (Some pt)) memb_r (fun _ => Ok tt) (fun _ => tt) (a3x u) (a3y u) is_member_memb_r (fun _ _ _ => eq_refl)
       (S (a3x u * a3y u)) idx ltac:(lia)) as Hn.
    destruct (filter memb_r (grid_from (a3x u) (a3y u) idx)) as [|p ps] eqn:Ef.
    - rewrite Hn. reflexivity.
    - destruct Hn as (idx' & E & Eps & Hi & Hg & Hm). rewrite E. rewrite IH by lia. rewrite <- Eps. reflexivity.
  Qed.
End Member.
