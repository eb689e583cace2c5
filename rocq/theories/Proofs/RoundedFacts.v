(** Bounds for rounded arithmetic. *)
From Coq Require Import QArith Qabs Lqa ZifyBool ZifyNat.
From Verif Require Import Base.Py Base.PyFacts Base.Float Base.FloatFacts Model.Rounded Spec.Scaling Spec.Rounded.
Local Notation length := List.length.

Section R.
Context (rnd : Q -> fnum) (Hr : rounding rnd).
Lemma rnd_mono p q : (p <= q)%Q -> fle (rnd p) (rnd q) = true. Proof. apply Hr. Qed.
Lemma rnd_eq p q : (p == q)%Q -> feqv (rnd p) (rnd q).
Proof. intros E. apply feqb_feqv, fle_antisym; apply rnd_mono; lra. Qed.
Lemma rnd_nan q : is_nan (rnd q) = false.
Proof. apply (fle_not_nan _ _ (rnd_mono q q ltac:(lra))). Qed.
Lemma rnd_zero q : (q == 0)%Q -> feqv (rnd q) (Fin 0).
Proof. intros E. eapply feqv_trans; [apply (rnd_eq q 0 E)|apply Hr]. Qed.
Lemma rnd_one q : (q == 1)%Q -> feqv (rnd q) (Fin 1).
Proof. intros E. eapply feqv_trans; [apply (rnd_eq q 1 E)|apply Hr]. Qed.
Lemma fle_feqv a a' b b' : feqv a a' -> feqv b b' -> fle a b = true -> fle a' b' = true.
Proof.
  intros E1 E2 H. pose proof (fle_not_nan _ _ H) as [N1 N2].
  apply (fle_trans _ a); [|apply (fle_trans _ b); [exact H|]].
  - unfold fle. rewrite (feqv_feqb a' a); [apply orb_true_r| |apply feqv_sym; exact E1]. rewrite <- (feqv_is_nan _ _ E1). exact N1.
  - unfold fle. rewrite (feqv_feqb b b' N2 E2). apply orb_true_r.
Qed.
Lemma rnd_nonneg q : (0 <= q)%Q -> fle (Fin 0) (rnd q) = true.
Proof. intros H. eapply fle_feqv; [apply Hr|apply feqv_refl|apply (rnd_mono 0 q H)]. Qed.
Lemma rnd_le_one q : (q <= 1)%Q -> fle (rnd q) (Fin 1) = true.
Proof. intros H. eapply fle_feqv; [apply feqv_refl|apply Hr|apply (rnd_mono q 1 H)]. Qed.

(** one quotient: numerator between zero and the positive denominator *)
Lemma quotient_range n d : fle (Fin 0) n = true -> fle n d = true -> flt (Fin 0) d = true ->
  let s := rdiv rnd n d in
  is_nan s = true /\ d = PInf /\ n = PInf \/ fle (Fin 0) s = true /\ fle s (Fin 1) = true.
Proof.
  intros H0 H1 Hd. destruct n as [| | |n]; destruct d as [| | |d]; try discriminate; cbn zeta.
  - left. auto.
  - right. cbn. split; [apply rnd_nonneg; lra|]. apply rnd_le_one. lra.
  - right. apply flt_Fin in Hd. apply fle_Fin in H0. apply fle_Fin in H1. unfold rdiv. cbn [fdiv].
    destruct (Qeq_bool d 0) eqn:E; [apply Qeq_bool_iff in E; lra|]. cbn [rounded].
    split; [apply rnd_nonneg; apply Qle_shift_div_l; lra|apply rnd_le_one; apply Qle_shift_div_r; lra].
Qed.
End R.

Lemma nanmin_fin s lo : no_inf s -> nanmin s = Ok lo -> is_nan lo = false -> exists m, lo = Fin m /\ In (Fin m) s /\ forall a, In (Fin a) s -> (m <= a)%Q.
Proof.
  intros Hi H N. destruct (nanmin_spec _ _ H) as [(X & _)|(_ & I & L)]; [congruence|].
  pose proof (Hi _ I) as F. destruct lo as [| | |m]; try discriminate. exists m. split; [reflexivity|]. split; [exact I|].
  intros a Ha. apply fle_Fin. apply L; [exact Ha|reflexivity].
Qed.
Lemma nanmax_fin s hi : no_inf s -> nanmax s = Ok hi -> is_nan hi = false -> exists m, hi = Fin m /\ In (Fin m) s /\ forall a, In (Fin a) s -> (a <= m)%Q.
Proof.
  intros Hi H N. destruct (nanmax_spec _ _ H) as [(X & _)|(_ & I & L)]; [congruence|].
  pose proof (Hi _ I) as F. destruct hi as [| | |m]; try discriminate. exists m. split; [reflexivity|]. split; [exact I|].
  intros a Ha. apply fle_Fin. apply L; [exact Ha|reflexivity].
Qed.

(** the two ways a series can go *)
Lemma scale_series_cases rnd s s' lo hi : no_inf s -> scale_series_r rnd s = Ok (s', lo, hi) ->
  (all_nan s /\ s' = repeat NaN (length s)) \/
  (exists m, lo = Fin m /\ constant s /\ (forall a, In (Fin a) s -> a == m)%Q /\ s' = repeat (Fin 0) (length s)) \/
  (exists m M, lo = Fin m /\ hi = Fin M /\ (m < M)%Q /\ In (Fin m) s /\ In (Fin M) s /\ (forall a, In (Fin a) s -> m <= a <= M)%Q /\
     s' = map (fun v => rdiv rnd (rsub rnd v (Fin m)) (rsub rnd (Fin M) (Fin m))) s).
Proof.
  intros Hi H. unfold scale_series_r in H. destruct (nanmin s) as [a|e] eqn:E1; [|discriminate]. destruct (nanmax s) as [b|e] eqn:E2; [|discriminate].
  cbn [bind] in H. injection H as <- <- <-. unfold scale_this_point_r.
  destruct (is_nan a) eqn:N1.
  { left. destruct (nanmin_spec _ _ E1) as [(_ & _ & X)|(X & _)]; [|congruence]. split; [exact X|reflexivity]. }
  destruct (nanmin_fin _ _ Hi E1 N1) as (m & -> & Im & Lm).
  destruct (is_nan b) eqn:N2.
  { exfalso. destruct (nanmax_spec _ _ E2) as [(_ & _ & X)|(X & _)]; [|congruence]. specialize (X _ Im). discriminate. }
  destruct (nanmax_fin _ _ Hi E2 N2) as (M & -> & IM & LM). cbn [orb].
  pose proof (Lm _ IM) as B. destruct (feqb (Fin m) (Fin M)) eqn:E.
  - right. left. exists m. cbn in E. apply Qeq_bool_iff in E.
    assert (A : forall a, In (Fin a) s -> (a == m)%Q) by (intros a Ha; pose proof (Lm _ Ha); pose proof (LM _ Ha); lra).
    split; [reflexivity|]. split; [|split; [exact A|reflexivity]].
    intros u v Hu Hv Nu Nv. pose proof (Hi _ Hu). pose proof (Hi _ Hv). destruct u as [| | |u], v as [| | |v]; try discriminate.
    cbn. apply Qeq_bool_iff. rewrite (A _ Hu), (A _ Hv). reflexivity.
  - right. right. exists m, M. cbn in E. assert (~ (m == M)%Q) by (intros X; apply Qeq_bool_iff in X; congruence).
    split; [reflexivity|]. split; [reflexivity|]. split; [lra|]. split; [exact Im|]. split; [exact IM|]. split; [|reflexivity].
    intros a Ha. split; [apply Lm|apply LM]; exact Ha.
Qed.
