(** Facts about the floats of [Float]. *)
From Coq Require Import Qabs Lqa.
From Verif Require Import Base.Py Base.PyFacts Base.Float.
Local Open Scope Q_scope.

Lemma Qltb_spec a b : Qltb a b = true <-> a < b.
Proof.
  unfold Qltb. rewrite negb_true_iff. split; intros H.
  - apply Qnot_le_lt. intros L. apply Qle_bool_iff in L. congruence.
  - destruct (Qle_bool b a) eqn:E; auto. apply Qle_bool_iff in E. exfalso; lra.
Qed.

Lemma Qltb_false a b : Qltb a b = false <-> b <= a.
Proof.
  unfold Qltb. rewrite negb_false_iff. apply Qle_bool_iff.
Qed.

Lemma flt_irrefl a : flt a a = false.
Proof. destruct a; auto. cbn. apply Qltb_false. lra. Qed.

Lemma flt_trans a b c : flt a b = true -> flt b c = true -> flt a c = true.
Proof.
  destruct a, b, c; cbn; try congruence.
  rewrite !Qltb_spec; lra.
Qed.

Lemma flt_antisym a b : flt a b = true -> flt b a = false.
Proof.
  intros H; destruct (flt b a) eqn:E; auto.
  pose proof (flt_trans _ _ _ H E) as C. rewrite flt_irrefl in C; discriminate.
Qed.

Lemma flt_not_nan a b : flt a b = true -> is_nan a = false /\ is_nan b = false.
Proof. destruct a, b; cbn; try congruence; auto. Qed.

Lemma nlt_trans a b c : is_nan b = false ->
  flt b a = false -> flt c b = false -> flt c a = false.
Proof.
  destruct a, b, c; cbn; try congruence; rewrite ?Qltb_false; intros; try lra; auto.
Qed.

Lemma feqb_refl a : is_nan a = false -> feqb a a = true.
Proof. destruct a; cbn; try congruence. intros _. apply Qeq_bool_iff. reflexivity. Qed.

Lemma feqb_sym a b : feqb a b = feqb b a.
Proof.
  destruct a, b; cbn; auto. destruct (Qeq_bool q q0) eqn:E, (Qeq_bool q0 q) eqn:E2; auto.
  - apply Qeq_bool_iff in E. symmetry in E. apply Qeq_bool_iff in E. congruence.
  - apply Qeq_bool_iff in E2. symmetry in E2. apply Qeq_bool_iff in E2. congruence.
Qed.

Lemma feqb_trans a b c : feqb a b = true -> feqb b c = true -> feqb a c = true.
Proof.
  destruct a, b, c; cbn; try congruence. rewrite !Qeq_bool_iff. intros; lra.
Qed.

Lemma feqb_nlt a b : feqb a b = true -> flt a b = false.
Proof.
  destruct a, b; cbn; try congruence. rewrite Qeq_bool_iff, Qltb_false. lra.
Qed.

Lemma nlt_total a b : is_nan a = false -> is_nan b = false ->
  flt a b = false -> flt b a = false -> feqb a b = true.
Proof.
  destruct a, b; cbn; try congruence. intros _ _. rewrite !Qltb_false, Qeq_bool_iff. lra.
Qed.

Lemma feqb_flt_l a b c : feqb a b = true -> flt a c = flt b c.
Proof.
  destruct a, b, c; cbn; try congruence. rewrite Qeq_bool_iff. intros H.
  destruct (Qltb q q1) eqn:E1, (Qltb q0 q1) eqn:E2; auto;
    rewrite ?Qltb_spec, ?Qltb_false in *; lra.
Qed.

Lemma feqb_flt_r a b c : feqb a b = true -> flt c a = flt c b.
Proof.
  destruct a, b, c; cbn; try congruence. rewrite Qeq_bool_iff. intros H.
  destruct (Qltb q1 q) eqn:E1, (Qltb q1 q0) eqn:E2; auto;
    rewrite ?Qltb_spec, ?Qltb_false in *; lra.
Qed.

Lemma fle_iff a b : is_nan a = false -> is_nan b = false -> (fle a b = true <-> flt b a = false).
Proof.
  intros Ha Hb. unfold fle. rewrite orb_true_iff. split.
  - intros [H|H]; [apply flt_antisym; auto|]. rewrite feqb_sym in H. apply feqb_nlt; auto.
  - intros H. destruct (flt a b) eqn:E; auto. right. apply nlt_total; auto.
Qed.

Lemma fle_refl a : is_nan a = false -> fle a a = true.
Proof. intros H. apply fle_iff; auto. apply flt_irrefl. Qed.

Lemma fle_not_nan a b : fle a b = true -> is_nan a = false /\ is_nan b = false.
Proof. destruct a, b; cbn; try congruence; auto. Qed.

Lemma fle_trans a b c : fle a b = true -> fle b c = true -> fle a c = true.
Proof.
  intros H1 H2. destruct (fle_not_nan _ _ H1), (fle_not_nan _ _ H2).
  apply fle_iff in H1; auto. apply fle_iff in H2; auto. apply fle_iff; auto.
  apply nlt_trans with b; auto.
Qed.

Lemma fle_total a b : is_nan a = false -> is_nan b = false -> fle a b = true \/ fle b a = true.
Proof.
  intros Ha Hb. destruct (flt b a) eqn:E.
  - right. unfold fle; rewrite E; auto.
  - left. apply fle_iff; auto.
Qed.

Lemma fle_antisym a b : fle a b = true -> fle b a = true -> feqb a b = true.
Proof.
  intros H1 H2. destruct (fle_not_nan _ _ H1).
  apply nlt_total; auto; [apply fle_iff in H2|apply fle_iff in H1]; auto.
Qed.

Lemma fle_Fin x y : fle (Fin x) (Fin y) = true <-> x <= y.
Proof. rewrite fle_iff by auto. cbn. apply Qltb_false. Qed.

Lemma flt_Fin x y : flt (Fin x) (Fin y) = true <-> x < y.
Proof. cbn. apply Qltb_spec. Qed.

Lemma flt_le_trans a b c : flt a b = true -> fle b c = true -> flt a c = true.
Proof.
  intros H1 H2. unfold fle in H2. apply orb_true_iff in H2. destruct H2 as [H2|H2].
  - eapply flt_trans; eauto.
  - rewrite <- (feqb_flt_r _ _ a H2). auto.
Qed.

Lemma fle_lt_trans a b c : fle a b = true -> flt b c = true -> flt a c = true.
Proof.
  intros H1 H2. unfold fle in H1. apply orb_true_iff in H1. destruct H1 as [H1|H1].
  - eapply flt_trans; eauto.
  - rewrite (feqb_flt_l _ _ c H1). auto.
Qed.

Lemma flt_fle a b : flt a b = true -> fle a b = true.
Proof. unfold fle; intros ->; auto. Qed.

(* ---------- feqv ---------- *)
Lemma feqv_refl a : feqv a a.
Proof. destruct a; cbn; auto. reflexivity. Qed.
Lemma feqv_sym a b : feqv a b -> feqv b a.
Proof. destruct a, b; cbn; auto. symmetry; auto. Qed.
Lemma feqv_trans a b c : feqv a b -> feqv b c -> feqv a c.
Proof. destruct a, b, c; cbn; auto; try contradiction. intros; lra. Qed.
#[global] Instance feqv_equiv : RelationClasses.Equivalence feqv.
Proof. split; [exact feqv_refl|exact feqv_sym|exact feqv_trans]. Qed.

Lemma feqb_feqv a b : feqb a b = true -> feqv a b.
Proof. destruct a, b; cbn; try congruence; auto. apply Qeq_bool_iff. Qed.
Lemma feqv_feqb a b : is_nan a = false -> feqv a b -> feqb a b = true.
Proof. destruct a, b; cbn; try congruence; try tauto. intros _; apply Qeq_bool_iff. Qed.

Lemma feqv_is_nan a b : feqv a b -> is_nan a = is_nan b.
Proof. destruct a, b; cbn; tauto. Qed.

From Coq Require Import Morphisms.
#[global] Instance fadd_mor : Proper (feqv ==> feqv ==> feqv) fadd.
Proof. intros a a' Ha b b' Hb. destruct a, a', b, b'; cbn in *; try tauto. rewrite Ha, Hb; reflexivity. Qed.
#[global] Instance fopp_mor : Proper (feqv ==> feqv) fopp.
Proof. intros a a' Ha. destruct a, a'; cbn in *; try tauto. rewrite Ha; reflexivity. Qed.
#[global] Instance fsub_mor : Proper (feqv ==> feqv ==> feqv) fsub.
Proof. intros a a' Ha b b' Hb. unfold fsub. rewrite Ha, Hb; reflexivity. Qed.
#[global] Instance fabs_mor : Proper (feqv ==> feqv) fabs.
Proof. intros a a' Ha. destruct a, a'; cbn in *; try tauto. rewrite Ha; reflexivity. Qed.

Lemma Qsgn_mor x y : x == y -> Qsgn x = Qsgn y.
Proof.
  unfold Qsgn, Qeq. intros H. destruct x as [n d], y as [n' d']; cbn in *.
  destruct (Z.compare_spec n 0), (Z.compare_spec n' 0); auto; exfalso; nia.
Qed.

Lemma Qsgn_cases x : (Qsgn x = Eq /\ x == 0) \/ (Qsgn x = Lt /\ x < 0) \/ (Qsgn x = Gt /\ 0 < x).
Proof.
  unfold Qsgn, Qeq, Qlt. destruct x as [n d]; cbn. destruct (Z.compare_spec n 0); [left|right;left|right;right]; split; auto; lia.
Qed.

#[global] Instance fmul_mor : Proper (feqv ==> feqv ==> feqv) fmul.
Proof.
  intros a a' Ha b b' Hb. destruct a, a'; cbn in Ha; try tauto; destruct b, b'; cbn in Hb; try tauto;
  cbn; auto; try (rewrite (Qsgn_mor _ _ Hb); reflexivity); try (rewrite (Qsgn_mor _ _ Ha); reflexivity).
  rewrite Ha, Hb; reflexivity.
Qed.

Lemma Qeq_bool_mor x y z : x == y -> Qeq_bool x z = Qeq_bool y z.
Proof.
  intros H. destruct (Qeq_bool x z) eqn:E, (Qeq_bool y z) eqn:E2; auto.
  - apply Qeq_bool_iff in E. assert (Qeq_bool y z = true) by (apply Qeq_bool_iff; lra). congruence.
  - apply Qeq_bool_iff in E2. assert (Qeq_bool x z = true) by (apply Qeq_bool_iff; lra). congruence.
Qed.

#[global] Instance fdiv_mor : Proper (feqv ==> feqv ==> feqv) fdiv.
Proof.
  intros a a' Ha b b' Hb. destruct a, a'; cbn in Ha; try tauto; destruct b, b'; cbn in Hb; try tauto;
  cbn; auto; try (rewrite (Qsgn_mor _ _ Hb); reflexivity); try reflexivity.
  rewrite (Qeq_bool_mor q1 q2 0 Hb). destruct (Qeq_bool q2 0); [rewrite (Qsgn_mor _ _ Ha); reflexivity|].
  cbn. rewrite Ha, Hb; reflexivity.
Qed.

Lemma flt_mor a a' b b' : feqv a a' -> feqv b b' -> flt a b = flt a' b'.
Proof.
  destruct a, a'; cbn; try tauto; destruct b, b'; cbn; try tauto. intros H1 H2.
  destruct (Qltb q q1) eqn:E1, (Qltb q0 q2) eqn:E2; auto;
    rewrite ?Qltb_spec, ?Qltb_false in *; lra.
Qed.
#[global] Instance flt_mor' : Proper (feqv ==> feqv ==> eq) flt.
Proof. intros a a' Ha b b' Hb. apply flt_mor; auto. Qed.
#[global] Instance feqb_mor' : Proper (feqv ==> feqv ==> eq) feqb.
Proof.
  intros a a' Ha b b' Hb. destruct a, a'; cbn in Ha; try tauto; destruct b, b'; cbn in Hb; try tauto; auto.
  cbn. rewrite (Qeq_bool_mor q q0 q1 Ha).
  destruct (Qeq_bool q0 q1) eqn:E, (Qeq_bool q0 q2) eqn:E2; auto.
  - apply Qeq_bool_iff in E. assert (Qeq_bool q0 q2 = true) by (apply Qeq_bool_iff; lra). congruence.
  - apply Qeq_bool_iff in E2. assert (Qeq_bool q0 q1 = true) by (apply Qeq_bool_iff; lra). congruence.
Qed.
#[global] Instance fle_mor' : Proper (feqv ==> feqv ==> eq) fle.
Proof. intros a a' Ha b b' Hb. unfold fle. rewrite Ha, Hb; reflexivity. Qed.

Lemma fadd_comm a b : feqv (fadd a b) (fadd b a).
Proof. destruct a, b; cbn; auto. lra. Qed.

(* ---------- sums ---------- *)
Fixpoint qsum (l : list Q) : Q := match l with [] => 0 | x :: xs => x + qsum xs end.

Lemma qsum_app l1 l2 : qsum (l1 ++ l2) == qsum l1 + qsum l2.
Proof. induction l1; cbn; [lra|]. rewrite IHl1; lra. Qed.

Lemma fsum_acc_fin l acc :
  feqv (fold_left fadd (map Fin l) (Fin acc)) (Fin (acc + qsum l)).
Proof.
  revert acc; induction l as [|x xs IH]; intros acc; cbn; [lra|].
  etransitivity; [apply IH|]. cbn. lra.
Qed.

Lemma fsum_fin l : feqv (fsum (map Fin l)) (Fin (qsum l)).
Proof. unfold fsum. etransitivity; [apply fsum_acc_fin|]. cbn; lra. Qed.

Lemma fold_fadd_nan l : fold_left fadd l NaN = NaN.
Proof. induction l; auto. Qed.

Lemma fsum_nan l : In NaN l -> fsum l = NaN.
Proof.
  unfold fsum. generalize (Fin 0). induction l as [|x xs IH]; cbn; intros acc H; [contradiction|].
  destruct H as [->|H]; auto. replace (fadd acc NaN) with NaN by (destruct acc; auto).
  apply fold_fadd_nan.
Qed.

Lemma fold_fadd_mor l l' a a' : Forall2 feqv l l' -> feqv a a' ->
  feqv (fold_left fadd l a) (fold_left fadd l' a').
Proof.
  intros H; revert a a'; induction H; cbn; auto. intros a a' Ha. apply IHForall2. rewrite H, Ha; reflexivity.
Qed.
Lemma fsum_mor l l' : Forall2 feqv l l' -> feqv (fsum l) (fsum l').
Proof. intros H; apply fold_fadd_mor; auto; reflexivity. Qed.

Lemma fin_list l : (forall x, In x l -> is_fin x = true) -> exists q, l = map Fin q.
Proof.
  induction l as [|x xs IH]; intros H; [exists []; auto|].
  destruct IH as [q ->]; [intros; apply H; right; auto|].
  specialize (H x (or_introl eq_refl)). destruct x; try discriminate. exists (q0 :: q); auto.
Qed.

(* ---------- nanmin / nanmax ---------- *)
Lemma fold_fmin2_spec l x :
  is_nan x = false -> (forall y, In y l -> is_nan y = false) ->
  let m := fold_left fmin2 l x in
  is_nan m = false /\ In m (x :: l) /\ forall y, In y (x :: l) -> fle m y = true.
Proof.
  revert x; induction l as [|a l IH]; intros x Hx Hl; cbn.
  - repeat split; auto. intros y [->|[]]. apply fle_refl; auto.
  - assert (F : fmin2 x a = if flt a x then a else x) by reflexivity.
    rewrite F; clear F. destruct (flt a x) eqn:E.
    + destruct (IH a) as (N & I & L).
      { apply Hl; left; auto. } { intros; apply Hl; right; auto. }
      split; [exact N|]. split.
      * cbn in I. tauto.
      * intros y [->|H]; [|apply L; auto].
        eapply fle_trans; [apply L; left; auto|]. apply flt_fle; auto.
    + destruct (IH x) as (N & I & L); auto.
      { intros; apply Hl; right; auto. }
      split; [exact N|]. split.
      * cbn in I. tauto.
      * intros y [->|[->|H]].
        -- apply L; left; auto.
        -- eapply fle_trans; [apply L; left; auto|]. apply fle_iff; auto. apply Hl; left; auto.
        -- apply L; right; auto.
Qed.

Lemma fold_fmax2_spec l x :
  is_nan x = false -> (forall y, In y l -> is_nan y = false) ->
  let m := fold_left fmax2 l x in
  is_nan m = false /\ In m (x :: l) /\ forall y, In y (x :: l) -> fle y m = true.
Proof.
  revert x; induction l as [|a l IH]; intros x Hx Hl; cbn.
  - repeat split; auto. intros y [->|[]]. apply fle_refl; auto.
  - assert (F : fmax2 x a = if flt x a then a else x) by reflexivity.
    rewrite F; clear F. destruct (flt x a) eqn:E.
    + destruct (IH a) as (N & I & L).
      { apply Hl; left; auto. } { intros; apply Hl; right; auto. }
      split; [exact N|]. split.
      * cbn in I. tauto.
      * intros y [->|H]; [|apply L; auto].
        eapply fle_trans; [|apply L; left; auto]. apply flt_fle; auto.
    + destruct (IH x) as (N & I & L); auto.
      { intros; apply Hl; right; auto. }
      split; [exact N|]. split.
      * cbn in I. tauto.
      * intros y [->|[->|H]].
        -- apply L; left; auto.
        -- eapply fle_trans; [|apply L; left; auto]. apply fle_iff; auto. apply Hl; left; auto.
        -- apply L; right; auto.
Qed.

Lemma nanmin_spec l m :
  nanmin l = Ok m ->
  (is_nan m = true /\ l <> [] /\ forall y, In y l -> is_nan y = true) \/
  (is_nan m = false /\ In m l /\ forall y, In y l -> is_nan y = false -> fle m y = true).
Proof.
  unfold nanmin. destruct l as [|a l0]; [discriminate|]. set (l := a :: l0).
  destruct (filter (fun x => negb (is_nan x)) l) as [|x xs] eqn:E; intros H; inversion H; subst; clear H.
  - left; repeat split; auto; [unfold l; discriminate|].
    intros y Hy. destruct (is_nan y) eqn:N; auto.
    assert (In y (filter (fun x => negb (is_nan x)) l)) by (apply filter_In; rewrite N; auto).
    rewrite E in H; contradiction.
  - right. assert (F : forall y, In y (x :: xs) -> In y l /\ is_nan y = false).
    { intros y Hy. rewrite <- E in Hy. apply filter_In in Hy. destruct Hy as [H1 H2].
      apply negb_true_iff in H2; auto. }
    destruct (fold_fmin2_spec xs x) as (N & I & L).
    + apply F; left; auto.
    + intros; apply F; right; auto.
    + repeat split; auto.
      * apply F; auto.
      * intros y Hy Ny. apply L. rewrite <- E. apply filter_In; rewrite Ny; auto.
Qed.

Lemma nanmax_spec l m :
  nanmax l = Ok m ->
  (is_nan m = true /\ l <> [] /\ forall y, In y l -> is_nan y = true) \/
  (is_nan m = false /\ In m l /\ forall y, In y l -> is_nan y = false -> fle y m = true).
Proof.
  unfold nanmax. destruct l as [|a l0]; [discriminate|]. set (l := a :: l0).
  destruct (filter (fun x => negb (is_nan x)) l) as [|x xs] eqn:E; intros H; inversion H; subst; clear H.
  - left; repeat split; auto; [unfold l; discriminate|].
    intros y Hy. destruct (is_nan y) eqn:N; auto.
    assert (In y (filter (fun x => negb (is_nan x)) l)) by (apply filter_In; rewrite N; auto).
    rewrite E in H; contradiction.
  - right. assert (F : forall y, In y (x :: xs) -> In y l /\ is_nan y = false).
    { intros y Hy. rewrite <- E in Hy. apply filter_In in Hy. destruct Hy as [H1 H2].
      apply negb_true_iff in H2; auto. }
    destruct (fold_fmax2_spec xs x) as (N & I & L).
    + apply F; left; auto.
    + intros; apply F; right; auto.
    + repeat split; auto.
      * apply F; auto.
      * intros y Hy Ny. apply L. rewrite <- E. apply filter_In; rewrite Ny; auto.
Qed.

Lemma nanmin_ok l : l <> [] -> exists m, nanmin l = Ok m.
Proof. unfold nanmin; destruct l; try congruence. intros _. destruct (filter _ _); eauto. Qed.
Lemma nanmax_ok l : l <> [] -> exists m, nanmax l = Ok m.
Proof. unfold nanmax; destruct l; try congruence. intros _. destruct (filter _ _); eauto. Qed.

(* ---------- argmin / argmax ---------- *)

(** The index returned by [np.argmin] when no element is NaN: a first minimum. *)
Lemma arg_best_aux_min l : forall pre best bi,
  nth_error pre bi = Some best ->
  (forall x, In x (pre ++ l) -> is_nan x = false) ->
  (forall n x, nth_error pre n = Some x -> flt x best = false /\ (n < bi -> flt best x = true)%nat) ->
  let r := arg_best_aux argmin_better l (length pre) bi best in
  exists m, nth_error (pre ++ l) r = Some m /\
    forall n x, nth_error (pre ++ l) n = Some x -> flt x m = false /\ (n < r -> flt m x = true)%nat.
Proof.
  induction l as [|a l IH]; intros pre best bi Hb Hn Hp; cbn.
  - exists best. rewrite app_nil_r. auto.
  - assert (Na : is_nan a = false) by (apply Hn; apply in_or_app; right; left; auto).
    assert (Nb : is_nan best = false).
    { apply Hn; apply in_or_app; left. eapply nth_error_In; eauto. }
    assert (Ea : argmin_better a best = flt a best) by (unfold argmin_better; rewrite Na, Nb; auto).
    rewrite Ea.
    assert (Hlen : (length (pre ++ [a]) = S (length pre))%nat) by (rewrite app_length; cbn; lia).
    destruct (flt a best) eqn:E.
    + specialize (IH (pre ++ [a]) a (length pre)).
      rewrite Hlen in IH. rewrite <- app_assoc in IH. cbn [app] in IH. apply IH; auto.
      * rewrite nth_error_app2, Nat.sub_diag by lia; reflexivity.
      * intros n x Hx. destruct (Nat.lt_ge_cases n (length pre)).
        -- rewrite nth_error_app1 in Hx by auto. destruct (Hp n x Hx) as [P1 P2]. split.
           ++ destruct (flt x a) eqn:Exa; auto. exfalso.
              pose proof (flt_trans _ _ _ Exa E). congruence.
           ++ intros _. apply flt_le_trans with best; auto. apply fle_iff; auto.
              apply Hn; apply in_or_app; left; eapply nth_error_In; eauto.
        -- rewrite nth_error_app2 in Hx by auto.
           destruct (n - length pre)%nat as [|k] eqn:Ek; cbn in Hx; [|destruct k; discriminate].
           inversion Hx; subst. split; [apply flt_irrefl|lia].
    + specialize (IH (pre ++ [a]) best bi).
      rewrite Hlen in IH. rewrite <- app_assoc in IH. cbn [app] in IH. apply IH; auto.
      * rewrite nth_error_app1; auto. apply nth_error_Some; congruence.
      * intros n x Hx. destruct (Nat.lt_ge_cases n (length pre)).
        -- rewrite nth_error_app1 in Hx by auto. auto.
        -- rewrite nth_error_app2 in Hx by auto.
           destruct (n - length pre)%nat as [|k] eqn:Ek; cbn in Hx; [|destruct k; discriminate].
           inversion Hx; subst. split; auto. intros Hlt. exfalso.
           assert (bi < length pre)%nat by (apply nth_error_Some; congruence). lia.
Qed.

Lemma np_argmin_spec l r :
  (forall x, In x l -> is_nan x = false) -> np_argmin l = Ok r ->
  exists m, nth_error l r = Some m /\
    forall n x, nth_error l n = Some x -> fle m x = true /\ (n < r -> flt m x = true)%nat.
Proof.
  intros Hn H. destruct l as [|a l]; [discriminate|]. cbn in H. inversion H; subst r; clear H.
  destruct (arg_best_aux_min l [a] a 0) as (m & Hm & P); auto.
  - intros n x Hx. destruct n as [|n]; cbn in Hx; [|destruct n; discriminate]. inversion Hx; subst.
    split; [apply flt_irrefl|lia].
  - exists m. cbn [app length] in *. split; auto. intros n x Hx. destruct (P n x Hx) as [P1 P2].
    split; auto. apply fle_iff; auto; apply Hn; eapply nth_error_In; eauto.
Qed.

Lemma np_argmin_ok l : l <> [] -> exists r, np_argmin l = Ok r.
Proof. destruct l; try congruence. cbn; eauto. Qed.

Lemma arg_best_aux_lt better l i bi best : (bi < i -> arg_best_aux better l i bi best < i + length l)%nat.
Proof.
  revert i bi best; induction l as [|a l IH]; cbn; intros i bi best H; [lia|].
  destruct (better a best).
  - specialize (IH (S i) i a). lia.
  - specialize (IH (S i) bi best). lia.
Qed.

Lemma np_argmin_lt l r : np_argmin l = Ok r -> (r < length l)%nat.
Proof.
  destruct l as [|a l]; [discriminate|]. cbn. intros H; inversion H.
  pose proof (arg_best_aux_lt argmin_better l 1 0 a). lia.
Qed.

Lemma np_argmax_lt l r : np_argmax l = Ok r -> (r < length l)%nat.
Proof.
  destruct l as [|a l]; [discriminate|]. cbn. intros H; inversion H.
  pose proof (arg_best_aux_lt argmax_better l 1 0 a). lia.
Qed.

(** argmax of floats is argmin of the negated floats *)
Lemma flt_fopp a b : flt (fopp a) (fopp b) = flt b a.
Proof.
  destruct a, b; cbn; auto.
  destruct (Qltb (- q) (- q0)) eqn:E1, (Qltb q0 q) eqn:E2; auto; rewrite ?Qltb_spec, ?Qltb_false in *; lra.
Qed.
Lemma is_nan_fopp a : is_nan (fopp a) = is_nan a.
Proof. destruct a; auto. Qed.
Lemma feqb_fopp a b : feqb (fopp a) (fopp b) = feqb a b.
Proof.
  destruct a, b; cbn; auto.
  destruct (Qeq_bool (-q) (-q0)) eqn:E, (Qeq_bool q q0) eqn:E2; auto.
  - apply Qeq_bool_iff in E. assert (Qeq_bool q q0 = true) by (apply Qeq_bool_iff; lra). congruence.
  - apply Qeq_bool_iff in E2. assert (Qeq_bool (-q) (-q0) = true) by (apply Qeq_bool_iff; lra). congruence.
Qed.
Lemma fle_fopp a b : fle (fopp a) (fopp b) = fle b a.
Proof. unfold fle. rewrite flt_fopp, feqb_fopp, (feqb_sym a b). reflexivity. Qed.

Lemma arg_best_aux_fopp l i bi best :
  arg_best_aux argmax_better l i bi best
  = arg_best_aux argmin_better (map fopp l) i bi (fopp best).
Proof.
  revert i bi best; induction l as [|a l IH]; cbn; intros i bi best; auto.
  unfold argmin_better at 1, argmax_better at 1. rewrite !is_nan_fopp, flt_fopp.
  destruct (_ && _); apply IH.
Qed.

Lemma np_argmax_fopp l : np_argmax l = np_argmin (map fopp l).
Proof. destruct l; cbn; auto. rewrite arg_best_aux_fopp; auto. Qed.

Lemma np_argmax_spec l r :
  (forall x, In x l -> is_nan x = false) -> np_argmax l = Ok r ->
  exists m, nth_error l r = Some m /\
    forall n x, nth_error l n = Some x -> fle x m = true /\ (n < r -> flt x m = true)%nat.
Proof.
  intros Hn H. rewrite np_argmax_fopp in H.
  destruct (np_argmin_spec (map fopp l) r) as (m' & Hm & P); auto.
  - intros x Hx. apply in_map_iff in Hx. destruct Hx as (y & <- & Hy). rewrite is_nan_fopp; auto.
  - rewrite nth_error_map in Hm. destruct (nth_error l r) as [m|] eqn:E; cbn in Hm; [|discriminate].
    inversion Hm; subst. exists m. split; auto. intros n x Hx.
    destruct (P n (fopp x)) as [P1 P2]; [rewrite nth_error_map, Hx; auto|].
    rewrite fle_fopp in P1. split; auto. intros Hlt. rewrite <- flt_fopp. auto.
Qed.
