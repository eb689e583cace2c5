(** Facts for Model/FuzzySearchRounded.v. *)
From Coq Require Import ZifyBool ZifyNat Lqa QArith.
From Verif Require Import Base.Py Base.PyFacts Base.Arr Base.ArrFacts Base.Float Base.FloatFacts
     Spec.Grid Model.Region Model.FuzzyMask Model.KMedoids Model.KMedoidsFuzzy Model.Rounded Model.FuzzyRounded Model.FuzzyMaskRounded Model.FuzzySearchRounded Spec.Medoids Spec.Fuzzy Spec.Rounded Spec.FuzzyRounded Spec.FuzzySearchRounded
     Proofs.KMedoidsFacts Proofs.FuzzyMaskFacts Proofs.FuzzyMaskRoundedFacts Proofs.KMedoidsFuzzyFacts Proofs.KMedoidsRoundedFacts Proofs.FuzzyRoundedFacts.
Local Close Scope Q_scope. Local Open Scope nat_scope.

Section Search.
    Variables (rnd : Q -> fnum) (sum : list fnum -> fnum) (power : power_fn) (X : dataset) (m : Q) (D : distance) (tol : fnum).
    Local Notation U := (computed_memberships rnd power X D m).
    Local Notation C := (computed_cost rnd sum power X D m).
    Local Notation T := (computed_total rnd sum power X D m).
    Definition fcost_r (ms : list Z) : fcost :=
      mkfcost (U ms) (map (C ms) (seq 0 (length ms))) (T ms) (map (fun i => map (fun j => dist_j X D ms j i) (seq 0 (length ms))) (seq 0 (length X))).

    Lemma fcm_r_value ms : instance X D -> ~ (m == 1)%Q -> valid_indices X ms -> ms <> [] ->
      compute_membership_fcm_r rnd sum power X m (mk X ms) D tol
      = if forallb (fun row => close_to_one_r rnd tol (sum row)) (U ms) then Ok (fcost_r ms) else Raise AssertionError.
    Proof using.
      intros HI Hm HV Hne. unfold compute_membership_fcm_r. rewrite mk_indices, mk_length, dist_to_medoids_spec by auto. cbn [bind].
      replace (length ms =? 0)%nat with false by (destruct ms; cbn; congruence).
      assert (Qeq_bool m 1 = false) as ->. { destruct (Qeq_bool m 1) eqn:E; auto. apply Qeq_bool_iff in E. contradiction. }
      rewrite map_length, seq_length, Nat.eqb_refl. cbn [bind].
      rewrite mapM_ok with (g := fun _ => tt).
      2:{ intros mi Hin. apply HV in Hin. rewrite norm_index_in by auto. reflexivity. }
      cbn [bind]. rewrite enumerate_map, map_map.
      assert (E : map (fun i => fcm_row_r rnd power m (length X) ms i (map (fun j => dist_j X D ms j i) (seq 0 (length ms)))) (seq 0 (length X)) = U ms).
      { apply map_ext. intros i. apply fcm_row_r_eq; auto. }
      rewrite E. unfold py_assert. destruct (forallb _ _); cbn [bind]; [|reflexivity].
      assert (Ec : map (fun i => sum (map (fun '(u, d) => rmul rnd (nth i u NaN) (nth i d NaN))
          (combine (U ms) (map (fun i0 => map (fun j => dist_j X D ms j i0) (seq 0 (length ms))) (seq 0 (length X))))))
          (seq 0 (length ms)) = map (C ms) (seq 0 (length ms))).
      { apply map_ext_in. intros j Hj. apply in_seq in Hj. unfold computed_cost, computed_memberships. rewrite combine_map, map_map. f_equal.
        apply map_ext. intros i. rewrite !nth_map_lt with (d' := 0) by (rewrite seq_length; lia).
        rewrite !seq_nth by lia. reflexivity. }
      rewrite Ec. reflexivity.
    Qed.

    Variable k : nat.
    Hypothesis HR : rounding rnd.
    Hypothesis Hk : 0 < k.
    Hypothesis Htol : fle (Fin 0) tol = true.
    Definition good_r (ms : list Z) := valid_indices X ms /\ NoDup ms /\ length ms = k.
    Hypothesis Hfcm : forall ms, good_r ms -> compute_membership_fcm_r rnd sum power X m (mk X ms) D tol = Ok (fcost_r ms).

    Definition fok_r (st : fstate) (ms : list Z) : Prop :=
      good_r ms /\ fs_medoids st = mk X ms /\ fs_total st = T ms /\ fs_costs st = map (C ms) (seq 0 k) /\
      (fs_u st = None \/ fs_u st = Some (U ms)).

    Definition gain_r (ms ms' : list Z) : Prop := flt tol (rsub rnd (T ms) (T ms')) = true.
    Definition better_r (ms : list Z) (st' : fstate) (ms' : list Z) : Prop := gain_r ms ms' /\ fs_u st' <> None.
    Definition imp_r (ms : list Z) (j i : nat) : Prop := ~ In (Z.of_nat i) ms /\ gain_r ms (replace_nth ms j (Z.of_nat i)).

    Lemma f_try_spec_r st ms sw i j : fok_r st ms -> j < k -> i < length X ->
      exists st' ms' sw', f_try_swap_r rnd sum power X m D tol i (st, sw) j = Ok (st', sw') /\ fok_r st' ms' /\
        ((st' = st /\ ms' = ms /\ sw' = sw /\ ~ imp_r ms j i) \/ (sw' = true /\ better_r ms st' ms' /\ imp_r ms j i)).
    Proof using HR Htol Hfcm Hk.
      intros Hok Hj Hi. pose proof Hok as ((HV & Hnd & Hl) & Hmd & Ht & Hc & Hu). unfold f_try_swap_r. rewrite Hmd, mk_indices.
      destruct (existsb (Z.eqb (Z.of_nat i)) ms) eqn:E.
      - exists st, ms, sw. split; auto. split; auto. left. repeat split; auto. intros [Hn _]. apply Hn.
        apply existsb_exists in E. destruct E as (x & Hx & Ex). apply Z.eqb_eq in Ex. subst. auto.
      - assert (Hn : ~ In (Z.of_nat i) ms).
        { intros Hin. assert (existsb (Z.eqb (Z.of_nat i)) ms = true); [|congruence].
          apply existsb_exists. exists (Z.of_nat i). split; auto. apply Z.eqb_refl. }
        rewrite getitem_sample by lia. cbn [bind]. rewrite Nat2Z.id. rewrite mk_replace by (auto; lia). cbn [bind].
        set (ms' := replace_nth ms j (Z.of_nat i)).
        assert (Hg : good_r ms').
        { split; [apply replace_valid; auto|]. split; [apply replace_nodup; auto|]. unfold ms'. rewrite replace_nth_length; auto. }
        rewrite Hfcm by auto. cbn [bind]. cbn [f_total f_u f_costs fcost_r]. rewrite Ht.
        destruct (flt tol (rsub rnd (T ms) (T ms'))) eqn:G.
        + exists (mkfst (mk X ms') (Some (U ms')) (map (C ms') (seq 0 (length ms'))) (T ms')), ms', true.
          split; auto. split.
          * split; auto. destruct Hg as (_ & _ & Hl'). rewrite Hl'. repeat split; auto.
          * right. split; auto. split; [split; [exact G|cbn; discriminate]|split; auto].
        + exists st, ms, sw. split; auto. split; auto. left. repeat split; auto. intros [_ G']. unfold gain_r in G'. fold ms' in G'. congruence.
    Qed.

    Lemma better_trans_r ms st1 ms1 st2 ms2 : better_r ms st1 ms1 -> better_r ms1 st2 ms2 -> better_r ms st2 ms2.
    Proof using HR Htol Hfcm Hk. intros [G1 _] [G2 U]. split; auto. unfold gain_r in *. eapply (rgain_trans rnd HR); eauto. Qed.

    (* fold of steps that each either change nothing or improve *)
    Lemma fold_steps_r {A} (f : fstate * bool -> A -> res (fstate * bool)) (P : list Z -> A -> Prop) l :
      (forall st ms sw a, In a l -> fok_r st ms -> exists st' ms' sw', f (st, sw) a = Ok (st', sw') /\ fok_r st' ms' /\
        ((st' = st /\ ms' = ms /\ sw' = sw /\ ~ P ms a) \/ (sw' = true /\ better_r ms st' ms' /\ P ms a))) ->
      forall st ms sw, fok_r st ms -> exists st' ms' sw', foldM f l (st, sw) = Ok (st', sw') /\ fok_r st' ms' /\
        ((st' = st /\ ms' = ms /\ sw' = sw /\ forall a, In a l -> ~ P ms a) \/ (sw' = true /\ better_r ms st' ms' /\ exists a, In a l /\ P ms a)).
    Proof using HR Htol Hfcm Hk.
      induction l as [|a l IH]; intros H st ms sw Hok; cbn [foldM].
      - exists st, ms, sw. split; auto. split; auto. left. repeat split; auto.
      - destruct (H st ms sw a (or_introl eq_refl) Hok) as (st1 & ms1 & sw1 & E1 & Hok1 & C1). rewrite E1. cbn [bind].
        destruct (IH (fun st ms sw b Hb => H st ms sw b (or_intror Hb)) st1 ms1 sw1 Hok1) as (st2 & ms2 & sw2 & E2 & Hok2 & C2).
        exists st2, ms2, sw2. split; auto. split; auto.
        destruct C1 as [(-> & -> & -> & N1)|(S1 & B1 & P1)], C2 as [(-> & -> & -> & N2)|(S2 & B2 & b & Hb & P2)].
        + left. repeat split; auto. intros b [<-|Hb]; auto.
        + right. split; auto. split; auto. exists b. split; [right|]; auto.
        + right. split; auto. split; auto. exists a. split; [left|]; auto.
        + right. split; auto. split; [eapply better_trans_r; eauto|]. exists a. split; [left|]; auto.
    Qed.

    Lemma f_pass_spec_r st ms : fok_r st ms -> exists st' ms' sw', f_one_pass_r rnd sum power X (Z.of_nat k) m D tol st = Ok (st', sw') /\ fok_r st' ms' /\
      ((st' = st /\ ms' = ms /\ sw' = false /\ forall i j, i < length X -> j < k -> ~ imp_r ms j i) \/
       (sw' = true /\ better_r ms st' ms' /\ exists i j, i < length X /\ j < k /\ imp_r ms j i)).
    Proof using HR Htol Hfcm Hk.
      intros Hok. unfold f_one_pass_r. rewrite Nat2Z.id.
      destruct (fold_steps_r (fun s i => foldM (f_try_swap_r rnd sum power X m D tol i) (seq 0 k) s)
        (fun ms i => exists j, j < k /\ imp_r ms j i) (seq 0 (length X))) with (st := st) (ms := ms) (sw := false) as (st' & ms' & sw' & E & Hok' & C); auto.
      - clear st ms Hok. intros st ms sw i Hi Hok. apply in_seq in Hi.
        destruct (fold_steps_r (f_try_swap_r rnd sum power X m D tol i) (fun ms j => imp_r ms j i) (seq 0 k)) with (st := st) (ms := ms) (sw := sw)
          as (st' & ms' & sw' & E & Hok' & C); auto.
        + intros st0 ms0 sw0 j Hj Hok0. apply in_seq in Hj. apply f_try_spec_r; auto; lia.
        + exists st', ms', sw'. split; auto. split; auto. destruct C as [(-> & -> & -> & N)|(-> & B & j & Hj & I)].
          * left. repeat split; auto. intros (j & Hj & I). apply (N j); auto. apply in_seq; lia.
          * right. split; auto. split; auto. exists j. apply in_seq in Hj. split; auto; lia.
      - exists st', ms', sw'. split; auto. split; auto. destruct C as [(-> & -> & -> & N)|(-> & B & i & Hi & j & Hj & I)].
        + left. repeat split; auto. intros i j Hi Hj I. apply (N i); [apply in_seq; lia|eauto].
        + right. split; auto. split; auto. exists i, j. apply in_seq in Hi. split; [lia|auto].
    Qed.

    Definition optimal_r (ms : list Z) := forall i j, i < length X -> j < k -> ~ imp_r ms j i.

    Lemma f_loop_spec_r max_iter fuel : forall cc st ms, fok_r st ms -> (0 <= cc)%Z ->
      (max_iter + 2 - cc < Z.of_nat fuel)%Z -> 1 <= fuel ->
      exists st' ms' cc', f_loop_r rnd sum power fuel X (Z.of_nat k) m D max_iter tol cc st = Ok (st', cc') /\ fok_r st' ms' /\
        ((st' = st /\ ms' = ms /\ optimal_r ms) \/ (better_r ms st' ms' /\ ~ optimal_r ms)) /\
        (cc <= cc')%Z /\ (cc' <= Z.max cc (max_iter + 1))%Z /\ ((cc' <= max_iter)%Z -> optimal_r ms').
    Proof using HR Htol Hfcm Hk.
      induction fuel as [|fuel IH]; intros cc st ms Hok Hcc Hf Hf1; [lia|]. cbn [f_loop_r].
      destruct (f_pass_spec_r st ms Hok) as (st1 & ms1 & sw & E & Hok1 & C). rewrite E. cbn [bind].
      destruct (Z.ltb_spec max_iter cc) as [Hlim|Hlim].
      - exists st1, ms1, cc. split; auto. split; auto. split.
        { destruct C as [(-> & -> & _ & N)|(_ & B & i & j & Hi & Hj & I)]; auto. right. split; auto. intros O. apply (O i j); auto. }
        split; [lia|]. split; lia.
      - destruct C as [(-> & -> & -> & N)|(-> & B & i & j & Hi & Hj & I)]; cbn [negb].
        + exists st, ms, cc. split; auto. split; auto. split; auto. split; [lia|]. split; [lia|]. intros _. exact N.
        + destruct (IH (cc + 1)%Z st1 ms1 Hok1 ltac:(lia) ltac:(lia) ltac:(lia)) as (st2 & ms2 & cc2 & E2 & Hok2 & C2 & B1 & B2 & O).
          exists st2, ms2, cc2. split; auto. split; auto. split; [|split; [lia|split; [lia|auto]]].
          right. split; [|intros O'; apply (O' i j); auto]. destruct C2 as [(-> & -> & _)|[B' _]]; auto. eapply better_trans_r; eauto.
    Qed.

    Lemma concat_length_r {A B} (f : B -> list A) w l : (forall b, length (f b) = w) -> length (concat (map f l)) = length l * w.
    Proof using. intros H. induction l as [|b l IH]; cbn; auto. rewrite app_length, H, IH. reflexivity. Qed.

    Lemma f_report_ok_r r ms : good_r ms -> fr_u r = U ms -> fr_medoids r = ms ->
      f_show_report_r rnd (Z.of_nat k) r = Ok tt.
    Proof using HR Htol Hfcm Hk.
      intros (HV & Hnd & Hl) Hu Hr. unfold f_show_report_r. rewrite Hu, Hr.
      assert (Hn : 0 < length X).
      { destruct ms as [|z ms]; cbn in Hl; [lia|]. specialize (HV z (or_introl eq_refl)). lia. }
      assert (Hlen : length (U ms) = length X) by (unfold computed_memberships; rewrite map_length, seq_length; auto).
      rewrite Hlen.
      assert (Hw : match U ms with [] => 0 | row :: _ => length row end = k).
      { unfold computed_memberships. destruct (length X) eqn:E; [lia|]. cbn [seq map]. rewrite map_length, seq_length. auto. }
      rewrite Hw. set (arr := mk2 (length X) k (concat (U ms))).
      assert (Hwf : wf2 arr).
      { unfold wf2, arr. cbn. unfold computed_memberships. rewrite concat_length_r with (w := k).
        - rewrite seq_length. auto.
        - intros i. rewrite map_length, seq_length. auto. }
      set (step := fun (_ : unit) i => mask <- from_uij_and_region arr 1 (length X) i (Fin 0) ;; _).
      assert (Hs : forall u i, (0 <= i < Z.of_nat k)%Z -> step u i = Ok tt).
      { intros u i Hi. unfold step.
        destruct (from_uij_spec arr 1 (length X) i (Fin 0) Hwf ltac:(cbn; lia) Hi eq_refl eq_refl) as (mk0 & E & Hmw & _).
        rewrite E. cbn [bind]. unfold fmask_cluster_len_r. rewrite fmask_for_spec_r by auto. cbn [snd bind].
        destruct (Nat.eqb_spec (length X) 0) as [|Hnz]; [lia|]. cbn [bind].
        unfold getitem. rewrite norm_index_in by (rewrite Hl; auto). rewrite nth_error_nth' with (d := 0%Z) by lia. reflexivity. }
      clearbody step.
      assert (G : forall is, (forall i, In i is -> 0 <= i < Z.of_nat k)%Z -> foldM step is tt = Ok tt).
      { induction is as [|i is IH]; intros H; cbn [foldM]; auto. rewrite Hs by (apply H; left; auto). cbn [bind].
        apply IH. intros; apply H; right; auto. }
      apply G. intros i Hi. apply in_zrange in Hi. lia.
    Qed.

    Theorem f_run_spec_r choice init max_iter ms0 :
      (match init with None | Some [] => choice (length X) (Z.of_nat k) | Some l => Ok l end) = Ok ms0 -> good_r ms0 ->
      (optimal_r ms0 /\ run_kmedoids_fuzzy_r rnd sum power choice X (Z.of_nat k) m D init max_iter tol = Raise UnboundLocalError) \/
      (~ optimal_r ms0 /\ exists r, run_kmedoids_fuzzy_r rnd sum power choice X (Z.of_nat k) m D init max_iter tol = Ok r /\
         good_r (fr_medoids r) /\ gain_r ms0 (fr_medoids r) /\ fr_u r = U (fr_medoids r) /\
         fr_costs r = map (C (fr_medoids r)) (seq 0 k) /\ fr_total r = T (fr_medoids r) /\
         (0 <= fr_cc r <= Z.max 0 (max_iter + 1))%Z /\ ((fr_cc r <= max_iter)%Z -> optimal_r (fr_medoids r))).
    Proof using HR Htol Hfcm Hk.
      intros Hinit Hg. pose proof Hg as (HV & Hnd & Hl). unfold run_kmedoids_fuzzy_r, choose_initial_medoids. rewrite Hinit. cbn [bind].
      rewrite medoids_ok by auto. cbn [bind]. rewrite Hfcm by auto. cbn [bind]. cbn [f_costs f_total fcost_r]. rewrite Hl.
      set (st0 := mkfst _ _ _ _).
      assert (Hok : fok_r st0 ms0) by (split; auto; repeat split; auto).
      destruct (f_loop_spec_r max_iter (S (S (Z.to_nat (max_iter + 1)))) 0%Z st0 ms0 Hok ltac:(lia) ltac:(lia) ltac:(lia))
        as (st & ms & cc & E & Hok' & C & C1 & C2 & O).
      rewrite E. cbn [bind]. destruct C as [(-> & -> & Opt)|[[G U] NO]].
      - left. split; auto.
      - right. split; auto. pose proof Hok' as (Hg' & Hmd & Ht & Hc & Hu). destruct Hu as [Hu|Hu]; [contradiction|]. rewrite Hu.
        rewrite Hmd, mk_indices. rewrite (f_report_ok_r _ ms) by auto. cbn [bind]. eexists. split; [reflexivity|].
        cbn [fr_medoids fr_u fr_costs fr_total fr_cc]. do 5 (split; [assumption || reflexivity|]). split; [lia|auto].
    Qed.
End Search.
