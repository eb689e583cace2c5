(** Property C150: the overall error in floating point. *)
From Coq Require Import QArith Qabs Qround Lqa ZifyBool ZifyNat Permutation.
From Verif Require Import Base.Py Base.PyFacts Base.Float Base.FloatFacts Model.Rounded Model.RoundedErrors Spec.Rounded Proofs.RoundedFacts Props.Rounded.
Local Close Scope Q_scope. Local Open Scope nat_scope.
Local Notation length := List.length.

Definition nonneg (v : fnum) : Prop := fle (Fin 0) v = true.

Section R.
Context (rnd : Q -> fnum) (Hr : rounding rnd).

Lemma radd_mono a b a' b' : nonneg a -> nonneg b -> fle a a' = true -> fle b b' = true ->
  nonneg (radd rnd a b) /\ fle (radd rnd a b) (radd rnd a' b') = true.
Proof.
  unfold nonneg. intros Ha Hb La Lb.
  assert (Ha' : fle (Fin 0) a' = true) by exact (fle_trans _ _ _ Ha La). assert (Hb' : fle (Fin 0) b' = true) by exact (fle_trans _ _ _ Hb Lb).
  destruct a as [| | |a], b as [| | |b], a' as [| | |a'], b' as [| | |b']; try discriminate; cbn; try (split; reflexivity);
    repeat match goal with H : fle (Fin _) (Fin _) = true |- _ => apply fle_Fin in H end.
  all: try (split; [apply rnd_nonneg; [exact Hr|lra]|]).
  all: try (pose proof (rnd_nan rnd Hr (a + b)%Q) as N; destruct (rnd (a + b)%Q); try discriminate; reflexivity).
  apply (rnd_mono rnd Hr). lra.
Qed.

Lemma square_mono a b : is_nan a = false -> fle (fabs a) (fabs b) = true -> nonneg (rmul rnd a a) /\ fle (rmul rnd a a) (rmul rnd b b) = true.
Proof.
  intros Na H. unfold nonneg. pose proof (fle_not_nan _ _ H) as [_ Nb].
  destruct a as [| | |a], b as [| | |b]; try discriminate; cbn; try (split; reflexivity).
  - split; [apply rnd_nonneg; [exact Hr|nra]|]. pose proof (rnd_nan rnd Hr (a * a)%Q) as N. destruct (rnd (a * a)%Q); try discriminate; reflexivity.
  - split; [apply rnd_nonneg; [exact Hr|nra]|]. pose proof (rnd_nan rnd Hr (a * a)%Q) as N. destruct (rnd (a * a)%Q); try discriminate; reflexivity.
  - split; [apply rnd_nonneg; [exact Hr|nra]|]. apply (rnd_mono rnd Hr). cbn in H. apply fle_Fin in H.
    assert (E : forall z, (Qabs z * Qabs z == z * z)%Q) by (intros z; rewrite <- Qabs_Qmult; apply Qabs_pos; nra).
    rewrite <- (E a), <- (E b). pose proof (Qabs_nonneg a). nra.
Qed.

Lemma sum_mono o : forall l l', Forall2 (fun a b => nonneg a /\ fle a b = true) l l' ->
  nonneg (sum_in rnd o l) /\ fle (sum_in rnd o l) (sum_in rnd o l') = true.
Proof.
  induction o as [|i|a IHa b IHb]; intros l l' F; cbn [sum_in].
  - split; reflexivity.
  - revert i. induction F as [|x y l l' Hxy F IH]; intros [|i]; cbn; try (split; reflexivity); auto.
  - destruct (IHa _ _ F) as [A1 A2]. destruct (IHb _ _ F) as [B1 B2]. apply radd_mono; assumption.
Qed.

Lemma div_mono a b n : 0 < n -> nonneg a -> fle a b = true -> fle (rdiv rnd a (fof_nat n)) (rdiv rnd b (fof_nat n)) = true.
Proof.
  intros Hn Ha L. assert (P : (0 < inject_Z (Z.of_nat n))%Q) by (change 0%Q with (inject_Z 0); rewrite <- Zlt_Qlt; lia).
  unfold rdiv, fof_nat, nonneg in *. destruct (Qsgn_cases (inject_Z (Z.of_nat n))) as [(_ & X)|[(_ & X)|(S & _)]]; try lra.
  assert (Q0 : Qeq_bool (inject_Z (Z.of_nat n)) 0 = false) by (destruct (Qeq_bool _ 0) eqn:E; [apply Qeq_bool_iff in E; lra|reflexivity]).
  destruct a as [| | |a], b as [| | |b]; try discriminate; cbn [fdiv]; rewrite ?S, ?Q0; cbn [rounded]; try reflexivity.
  - pose proof (rnd_nan rnd Hr (a / inject_Z (Z.of_nat n))%Q) as N. destruct (rnd _); try discriminate; reflexivity.
  - apply (rnd_mono rnd Hr). apply fle_Fin in L. unfold Qdiv. apply Qmult_le_compat_r; [exact L|]. apply Qlt_le_weak, Qinv_lt_0_compat. exact P.
Qed.
End R.

(** If no error grows in magnitude, the overall error does not grow: in floating point too, in whichever order the sum is
    built, even when it overflows. *)
Theorem C150_monotone : forall rnd sqrt o errors errors', rounding rnd ->
  (forall a b, fle (Fin 0) a = true -> fle a b = true -> fle (sqrt a) (sqrt b) = true) ->
  (exists v, In v errors /\ is_nan v = false) ->
  Forall2 (fun a b => is_nan a = is_nan b /\ (is_nan a = false -> fle (fabs a) (fabs b) = true)) errors errors' ->
  fle (root_mean_squared_r rnd sqrt o errors) (root_mean_squared_r rnd sqrt o errors') = true.
Proof.
  intros rnd sqrt o l l' Hr Hs Hex F.
  assert (SqN : forall v, is_nan (rmul rnd v v) = is_nan v).
  { intros [| | |q]; try reflexivity. cbn. apply (rnd_nan rnd Hr). }
  assert (Cnt : length (filter (fun v => negb (is_nan v)) (squared_r rnd l)) = length (filter (fun v => negb (is_nan v)) (squared_r rnd l'))).
  { clear Hex. unfold squared_r. induction F as [|a b l l' [N _] F IH]; [reflexivity|]. cbn [map filter]. rewrite !SqN, N. destruct (is_nan b); cbn [negb length]; [exact IH|rewrite IH; reflexivity]. }
  assert (Pos : 0 < length (filter (fun v => negb (is_nan v)) (squared_r rnd l))).
  { destruct Hex as (v & Hv & Nv). assert (X : In (rmul rnd v v) (filter (fun v => negb (is_nan v)) (squared_r rnd l))).
    { apply filter_In. split; [apply (in_map (fun v => rmul rnd v v)); exact Hv|]. rewrite SqN, Nv. reflexivity. }
    destruct (filter _ _); [destruct X|cbn; lia]. }
  unfold root_mean_squared_r, nanmean_r. rewrite <- Cnt.
  set (z := map (fun v => if is_nan v then Fin 0 else v)).
  assert (S : nonneg (sum_in rnd o (z (squared_r rnd l))) /\ fle (sum_in rnd o (z (squared_r rnd l))) (sum_in rnd o (z (squared_r rnd l'))) = true).
  { apply sum_mono; [exact Hr|]. clear - F SqN Hr. unfold z, squared_r. induction F as [|a b l l' [N L] F IH]; cbn [map]; constructor; [|exact IH].
    rewrite !SqN, <- N. destruct (is_nan a) eqn:Na; [split; reflexivity|]. apply square_mono; auto. }
  destruct S as [S1 S2]. apply Hs.
  - destruct (sum_in rnd o (z (squared_r rnd l))) as [| | |q] eqn:E; try discriminate.
    + pose proof (div_mono rnd Hr (Fin 0) PInf _ Pos eq_refl eq_refl) as D. eapply fle_trans; [|exact D]. unfold rdiv, fof_nat. cbn [fdiv].
      destruct (Qeq_bool _ 0) eqn:Q0; [apply Qeq_bool_iff in Q0; exfalso; assert (P : (0 < inject_Z (Z.of_nat (length (filter (fun v : fnum => negb (is_nan v)) (squared_r rnd l)))))%Q) by (change 0%Q with (inject_Z 0); rewrite <- Zlt_Qlt; lia); lra|].
      cbn [rounded]. apply rnd_nonneg; [exact Hr|]. unfold Qdiv. rewrite Qmult_0_l. lra.
    + pose proof (div_mono rnd Hr (Fin 0) (Fin q) _ Pos eq_refl S1) as D. eapply fle_trans; [|exact D]. unfold rdiv, fof_nat. cbn [fdiv].
      destruct (Qeq_bool _ 0) eqn:Q0; [apply Qeq_bool_iff in Q0; exfalso; assert (P : (0 < inject_Z (Z.of_nat (length (filter (fun v : fnum => negb (is_nan v)) (squared_r rnd l)))))%Q) by (change 0%Q with (inject_Z 0); rewrite <- Zlt_Qlt; lia); lra|].
      cbn [rounded]. apply rnd_nonneg; [exact Hr|]. unfold Qdiv. rewrite Qmult_0_l. lra.
  - apply div_mono; assumption.
Qed.
Print Assumptions C150_monotone.

(* rounding to two significant decimal digits, downwards, between 1 and 1000 *)
Definition two_digits (q : Q) : fnum :=
  if Qle_bool 1000 q then PInf
  else if Qle_bool 100 q then Fin (inject_Z (Qfloor (q / 10)) * 10)
  else Fin (inject_Z (Qfloor q)).
Lemma two_digits_rounding : rounding two_digits.
Proof.
  split; [|split; reflexivity]. intros p q H. unfold two_digits.
  destruct (Qle_bool 1000 p) eqn:E1; [apply Qle_bool_iff in E1; assert (E2 : Qle_bool 1000 q = true) by (apply Qle_bool_iff; lra); rewrite E2; reflexivity|].
  destruct (Qle_bool 1000 q) eqn:E2; [destruct (Qle_bool 100 p); reflexivity|].
  destruct (Qle_bool 100 p) eqn:E3.
  - apply Qle_bool_iff in E3. assert (E4 : Qle_bool 100 q = true) by (apply Qle_bool_iff; lra). rewrite E4. apply fle_Fin.
    apply Qmult_le_compat_r; [|discriminate]. rewrite <- Zle_Qle. apply Qfloor_resp_le. unfold Qdiv. apply Qmult_le_compat_r; [exact H|discriminate].
  - assert (L : (p < 100)%Q) by (apply Qnot_le_lt; intros X; apply Qle_bool_iff in X; congruence).
    destruct (Qle_bool 100 q) eqn:E4; apply fle_Fin.
    + apply Qle_bool_iff in E4. apply Qle_trans with 100%Q.
      * pose proof (Qfloor_le p). lra.
      * assert (X : (10 <= q / 10)%Q) by (apply Qle_shift_div_l; lra). apply Qfloor_resp_le in X. change (Qfloor 10) with 10%Z in X.
        apply Qle_trans with (inject_Z 10 * 10)%Q; [vm_compute; discriminate|]. apply Qmult_le_compat_r; [|discriminate]. rewrite <- Zle_Qle. exact X.
    + rewrite <- Zle_Qle. apply Qfloor_resp_le. exact H.
Qed.

(** Without rounding the order of the points does not matter.  With rounding it does: the same errors in another order can
    give another overall error. *)
Theorem C150_order_irrelevant_refuted : exists rnd o errors errors', rounding rnd /\ Permutation errors errors' /\
  exact_samples rnd errors /\ ~ feqv (root_mean_squared_r rnd (fun v => v) o errors) (root_mean_squared_r rnd (fun v => v) o errors').
Proof.
  exists two_digits, (Plus (Plus (At 0) (At 1)) (At 2)), (map Fin [6; 6; 10]%Q), (map Fin [10; 6; 6]%Q). split; [exact two_digits_rounding|].
  split; [cbn; apply (Permutation_trans (l' := map Fin [6; 10; 6]%Q)); [repeat constructor|constructor]|].
  split; [intros a Ia; cbn in Ia; repeat (destruct Ia as [Ia|Ia]; [injection Ia as <-; reflexivity|]); destruct Ia|].
  vm_compute. discriminate.
Qed.
Print Assumptions C150_order_irrelevant_refuted.

Example C150_ex :
  let o := Plus (Plus (At 0) (At 1)) (Plus (At 2) (At 3)) in
  feqv (root_mean_squared_r two_digits (fun v => v) o [Fin 3; NaN; Fin (-4); Fin 5]) (Fin 16) /\
  feqv (root_mean_squared_r two_digits (fun v => v) o [Fin (-3); NaN; Fin 7; Fin 5]) (Fin 27).
Proof. split; vm_compute; reflexivity. Qed.
