(** Properties C148 and C149: scaling and descaling in floating point. *)
From Coq Require Import QArith Qabs Qround Lqa ZifyBool ZifyNat.
From Verif Require Import Base.Py Base.PyFacts Base.Float Base.FloatFacts Model.Rounded Spec.Scaling Spec.Rounded Proofs.RoundedFacts.
Local Close Scope Q_scope. Local Open Scope nat_scope.
Local Notation length := List.length.

Lemma nth_map_inv {A B} (f : A -> B) l n y : nth_error (map f l) n = Some y -> exists x, nth_error l n = Some x /\ y = f x.
Proof. intros H. destruct (nth_error l n) as [x|] eqn:E; [|rewrite nth_error_map, E in H; discriminate]. exists x. rewrite nth_error_map, E in H. injection H as <-. auto. Qed.

(** With any rounding that keeps the order and 0 and 1, a scaled sample is missing or between 0 and 1. *)
Theorem C148_between_0_and_1 : forall rnd s s' lo hi, rounding rnd -> no_inf s -> apart rnd s ->
  scale_series_r rnd s = Ok (s', lo, hi) ->
  length s' = length s /\ (forall v, In v s' -> is_nan v = true \/ (fle (Fin 0) v = true /\ fle v (Fin 1) = true)) /\
  (all_nan s -> all_nan s') /\ (~ all_nan s -> constant s -> forall v, In v s' -> v = Fin 0).
Proof.
  intros rnd s s' lo hi Hr Hi Ha H. destruct (scale_series_cases rnd s s' lo hi Hi H) as [(N & ->)|[(m & -> & C & A & ->)|(m & M & -> & -> & Hm & Im & IM & B & ->)]].
  - split; [apply repeat_length|]. split; [intros v Hv; apply repeat_spec in Hv; subst; auto|].
    split; [intros _ v Hv; apply repeat_spec in Hv; subst; reflexivity|contradiction].
  - split; [apply repeat_length|]. split; [intros v Hv; apply repeat_spec in Hv; subst; right; split; reflexivity|].
    split; [|intros _ _ v Hv; apply repeat_spec in Hv; exact Hv]. intros N v Hv. exfalso.
    assert (X : nanmin s = Ok (Fin m)) by (unfold scale_series_r in H; destruct (nanmin s); [destruct (nanmax s); [injection H as _ <- _; reflexivity|discriminate]|discriminate]).
    destruct (nanmin_spec _ _ X) as [(Y & _)|(_ & I & _)]; [discriminate|]. specialize (N _ I). discriminate.
  - split; [apply map_length|]. split; [|split].
    + intros v Hv. apply in_map_iff in Hv. destruct Hv as (w & <- & Hw). pose proof (Hi _ Hw) as Fw. destruct w as [| | |w]; try discriminate; [left; reflexivity|].
      destruct (B _ Hw) as [B1 B2].
      destruct (quotient_range rnd Hr (rsub rnd (Fin w) (Fin m)) (rsub rnd (Fin M) (Fin m))) as [(X & _)|X].
      * apply rnd_nonneg; [exact Hr|]. change (0 <= w - m)%Q. lra.
      * apply rnd_mono; [exact Hr|]. change (w - m <= M - m)%Q. lra.
      * apply (Ha m M Im IM Hm).
      * left. exact X.
      * right. exact X.
    + intros N. specialize (N _ Im). discriminate.
    + intros _ C. specialize (C _ _ Im IM eq_refl eq_refl). cbn in C. apply Qeq_bool_iff in C. lra.
Qed.
Print Assumptions C148_between_0_and_1.

(** If the range of the series is not too large for a float, samples are missing exactly where they were, the order is kept
    (but different samples may become equal), and the least sample becomes 0 and the greatest 1. *)
Theorem C148_order_and_ends : forall rnd s s' lo hi, rounding rnd -> no_inf s -> apart rnd s ->
  scale_series_r rnd s = Ok (s', lo, hi) -> ~ all_nan s -> ~ constant s -> is_inf (rsub rnd hi lo) = false ->
  forall i j u v u' v', nth_error s i = Some u -> nth_error s j = Some v -> nth_error s' i = Some u' -> nth_error s' j = Some v' ->
  is_nan u' = is_nan u /\ (fle u v = true -> fle u' v' = true) /\
  (feqb u lo = true -> feqv u' (Fin 0)) /\ (feqb u hi = true -> feqv u' (Fin 1)).
Proof.
  intros rnd s s' lo hi Hr Hi Ha H NN NC NI i j u v u' v' Hu Hv Hu' Hv'.
  destruct (scale_series_cases rnd s s' lo hi Hi H) as [(N & ->)|[(m & -> & C & A & ->)|(m & M & -> & -> & Hm & Im & IM & B & ->)]]; [contradiction|contradiction|].
  pose proof (Ha m M Im IM Hm) as D0. change (rnd (M - m)%Q) with (rsub rnd (Fin M) (Fin m)) in D0.
  destruct (rsub rnd (Fin M) (Fin m)) as [| | |d] eqn:Ed; try discriminate. apply flt_Fin in D0.
  apply nth_map_inv in Hu'. destruct Hu' as (w & E & ->). rewrite Hu in E. injection E as <-.
  apply nth_map_inv in Hv'. destruct Hv' as (w & E & ->). rewrite Hv in E. injection E as <-.
  assert (Val : forall x, In (Fin x) s -> exists n, rsub rnd (Fin x) (Fin m) = Fin n /\ (0 <= n <= d)%Q /\ rdiv rnd (rsub rnd (Fin x) (Fin m)) (Fin d) = rnd (n / d)%Q).
  { intros x Hx. destruct (B _ Hx) as [B1 B2].
    assert (L0 : fle (Fin 0) (rsub rnd (Fin x) (Fin m)) = true) by (apply rnd_nonneg; [exact Hr|]; change (0 <= x - m)%Q; lra).
    assert (L1 : fle (rsub rnd (Fin x) (Fin m)) (Fin d) = true) by (rewrite <- Ed; apply rnd_mono; [exact Hr|]; change (x - m <= M - m)%Q; lra).
    destruct (rsub rnd (Fin x) (Fin m)) as [| | |n]; try discriminate. exists n. apply fle_Fin in L0. apply fle_Fin in L1. split; [reflexivity|]. split; [split; assumption|].
    unfold rdiv. cbn [fdiv]. destruct (Qeq_bool d 0) eqn:E; [apply Qeq_bool_iff in E; lra|reflexivity]. }
  apply nth_error_In in Hu. apply nth_error_In in Hv. pose proof (Hi _ Hu) as Fu. pose proof (Hi _ Hv) as Fv.
  split; [|split; [|split]].
  - destruct u as [| | |u]; try discriminate; [reflexivity|]. destruct (Val _ Hu) as (n & _ & _ & ->). apply (rnd_nan rnd Hr).
  - destruct u as [| | |u]; try discriminate. destruct v as [| | |v]; try discriminate. intros L. apply fle_Fin in L.
    destruct (Val _ Hu) as (n & En & Bn & ->). destruct (Val _ Hv) as (k & Ek & Bk & ->). apply (rnd_mono rnd Hr).
    assert (n <= k)%Q. { apply fle_Fin. rewrite <- En, <- Ek. apply (rnd_mono rnd Hr). change (u - m <= v - m)%Q. lra. }
    unfold Qdiv. apply Qmult_le_compat_r; [assumption|]. apply Qlt_le_weak, Qinv_lt_0_compat. exact D0.
  - destruct u as [| | |u]; try discriminate. intros E. cbn in E. apply Qeq_bool_iff in E. destruct (Val _ Hu) as (n & En & Bn & ->).
    apply (rnd_zero rnd Hr). assert (n == 0)%Q.
    { assert (X : feqv (Fin n) (Fin 0)). { rewrite <- En. apply (rnd_zero rnd Hr). change (u - m == 0)%Q. lra. } exact X. }
    rewrite H0. field. lra.
  - destruct u as [| | |u]; try discriminate. intros E. cbn in E. apply Qeq_bool_iff in E. destruct (Val _ Hu) as (n & En & Bn & ->).
    apply (rnd_one rnd Hr). assert (n == d)%Q.
    { assert (X : feqv (Fin n) (Fin d)). { rewrite <- En, <- Ed. apply (rnd_eq rnd Hr). change (u - m == M - m)%Q. lra. } exact X. }
    rewrite H0. field. lra.
Qed.
Print Assumptions C148_order_and_ends.

(* rounding down to quarters; from 100 on, to infinity *)
Definition quarter (q : Q) : fnum :=
  if Qle_bool 100 q then PInf else if Qle_bool q (-100) then NInf else Fin (inject_Z (Qfloor (q * 4)) / 4).
Lemma quarter_rounding : rounding quarter.
Proof.
  split; [|split; reflexivity]. intros p q H. unfold quarter.
  destruct (Qle_bool 100 p) eqn:E1.
  { apply Qle_bool_iff in E1. assert (E2 : Qle_bool 100 q = true) by (apply Qle_bool_iff; lra). rewrite E2. reflexivity. }
  assert (L1 : (p < 100)%Q) by (apply Qnot_le_lt; intros X; apply Qle_bool_iff in X; congruence).
  destruct (Qle_bool p (-100)) eqn:E2; [destruct (Qle_bool 100 q); [reflexivity|]; destruct (Qle_bool q (-100)); reflexivity|].
  assert (L2 : (-100 < p)%Q) by (apply Qnot_le_lt; intros X; apply Qle_bool_iff in X; congruence).
  destruct (Qle_bool 100 q); [reflexivity|]. destruct (Qle_bool q (-100)) eqn:E3; [apply Qle_bool_iff in E3; lra|].
  apply fle_Fin. unfold Qdiv. apply Qmult_le_compat_r; [|discriminate]. rewrite <- Zle_Qle. apply Qfloor_resp_le. lra.
Qed.
Lemma quarter_accurate : accurate 0 (1 # 4) quarter.
Proof.
  intros q. unfold quarter. destruct (Qle_bool 100 q); [left; reflexivity|]. destruct (Qle_bool q (-100)); [left; reflexivity|]. right. eexists. split; [reflexivity|].
  pose proof (Qfloor_le (q * 4)) as L. pose proof (Qlt_floor (q * 4)) as U. rewrite inject_Z_plus in U. change (inject_Z 1) with 1%Q in U.
  set (f := inject_Z (Qfloor (q * 4))) in *. assert (X : (f / 4 - q == (f - q * 4) * (1 # 4))%Q) by field.
  rewrite X. apply Qabs_Qle_condition. split; lra.
Qed.

(** Without rounding different samples stay different (C19).  With rounding they need not. *)
Theorem C148_order_strict_refuted : exists rnd s s' lo hi, rounding rnd /\ no_inf s /\ apart rnd s /\ exact_samples rnd s /\
  scale_series_r rnd s = Ok (s', lo, hi) /\ is_inf (rsub rnd hi lo) = false /\
  exists i j u v u' v', nth_error s i = Some u /\ nth_error s j = Some v /\ nth_error s' i = Some u' /\ nth_error s' j = Some v' /\
    flt u v = true /\ feqv u' v'.
Proof.
  exists quarter, (map Fin [0; 1; 2; 10]%Q). do 3 eexists. split; [exact quarter_rounding|].
  split; [intros v Hv; cbn in Hv; repeat (destruct Hv as [<-|Hv]; [reflexivity|]); destruct Hv|].
  split; [intros a b Ia Ib L; cbn in Ia, Ib; repeat (destruct Ia as [Ia|Ia]; [injection Ia as <-|]); try destruct Ia; repeat (destruct Ib as [Ib|Ib]; [injection Ib as <-|]); try destruct Ib; first [lra|reflexivity]|].
  split; [intros a Ia; cbn in Ia; repeat (destruct Ia as [Ia|Ia]; [injection Ia as <-; reflexivity|]); destruct Ia|].
  split; [reflexivity|]. split; [reflexivity|]. exists 1, 2. do 4 eexists. do 4 (split; [reflexivity|]). split; reflexivity.
Qed.
Print Assumptions C148_order_strict_refuted.

(** Series are promised to be scaled to [0, 1].  If the range of the series is too large for a float, its greatest sample
    becomes NaN although no sample is missing. *)
Theorem C148_greatest_sample_refuted : exists rnd s s' lo hi, rounding rnd /\ no_inf s /\ no_nan s /\ apart rnd s /\ exact_samples rnd s /\
  scale_series_r rnd s = Ok (s', lo, hi) /\ In NaN s'.
Proof.
  exists quarter, (map Fin [-60; 1; 60]%Q). do 3 eexists. split; [exact quarter_rounding|].
  split; [intros v Hv; cbn in Hv; repeat (destruct Hv as [<-|Hv]; [reflexivity|]); destruct Hv|].
  split; [intros v Hv; cbn in Hv; repeat (destruct Hv as [<-|Hv]; [reflexivity|]); destruct Hv|].
  split; [intros a b Ia Ib L; cbn in Ia, Ib; repeat (destruct Ia as [Ia|Ia]; [injection Ia as <-|]); try destruct Ia; repeat (destruct Ib as [Ib|Ib]; [injection Ib as <-|]); try destruct Ib; first [lra|reflexivity]|].
  split; [intros a Ia; cbn in Ia; repeat (destruct Ia as [Ia|Ia]; [injection Ia as <-; reflexivity|]); destruct Ia|].
  split; [reflexivity|]. cbn. auto.
Qed.
Print Assumptions C148_greatest_sample_refuted.

Example C148_ex : exists s', scale_series_r quarter [Fin 3; NaN; Fin 1; Fin 2; Fin 5] = Ok (s', Fin 1, Fin 5) /\
  Forall2 feqv s' [Fin (1 # 2); NaN; Fin 0; Fin (1 # 4); Fin 1].
Proof. eexists. split; [reflexivity|]. repeat constructor; cbn; reflexivity. Qed.

(* ---------------------------------------------------------------- C149 *)
(** Scaling and descaling gives the minimum back exactly, and every sample of a series without variation. *)
Theorem C149_minimum_restored : forall rnd s s' lo hi i u y, rounding rnd -> no_inf s -> apart rnd s -> exact_samples rnd s ->
  scale_series_r rnd s = Ok (s', lo, hi) -> is_inf (rsub rnd hi lo) = false ->
  nth_error s i = Some u -> feqb u lo = true -> nth_error (descale_series_r rnd lo hi s') i = Some y -> feqv y u.
Proof.
  intros rnd s s' lo hi i u y Hr Hi Ha Hx H NI Hu El Hy. unfold descale_series_r in Hy. apply nth_map_inv in Hy. destruct Hy as (v & Hv & ->).
  assert (Hm : exists m, lo = Fin m /\ In (Fin m) s /\ feqv v (Fin 0)).
  { destruct (scale_series_cases rnd s s' lo hi Hi H) as [(N & ->)|[(m & -> & C & A & ->)|(m & M & -> & -> & Hm & Im & IM & B & ->)]].
    - exfalso. pose proof (N _ (nth_error_In _ _ Hu)) as X. destruct u; discriminate.
    - exists m. split; [reflexivity|]. split.
      + assert (X : nanmin s = Ok (Fin m)) by (unfold scale_series_r in H; destruct (nanmin s); [destruct (nanmax s); [injection H as _ <- _; reflexivity|discriminate]|discriminate]).
        destruct (nanmin_spec _ _ X) as [(Y & _)|(_ & I & _)]; [discriminate|exact I].
      + apply nth_error_In in Hv. apply repeat_spec in Hv. subst v. reflexivity.
    - exists m. split; [reflexivity|]. split; [exact Im|].
      assert (NN : ~ all_nan s) by (intros N; specialize (N _ Im); discriminate).
      assert (NC : ~ constant s) by (intros C; specialize (C _ _ Im IM eq_refl eq_refl); cbn in C; apply Qeq_bool_iff in C; lra).
      destruct (C148_order_and_ends rnd s _ _ _ Hr Hi Ha H NN NC NI i i u u v v Hu Hu Hv Hv) as (_ & _ & X & _). apply X. exact El. }
  destruct Hm as (m & -> & Im & Hv0). destruct u as [| | |u]; try discriminate. cbn in El. apply Qeq_bool_iff in El.
  destruct v as [| | |v]; cbn in Hv0; try contradiction.
  assert (Hd : exists d, rsub rnd hi (Fin m) = Fin d).
  { destruct (rsub rnd hi (Fin m)) as [| | |d] eqn:Ed; try discriminate; [|eauto]. exfalso.
    assert (nanmax s = Ok hi) as X by (unfold scale_series_r in H; destruct (nanmin s); [destruct (nanmax s); [injection H as _ _ <-; reflexivity|discriminate]|discriminate]).
    assert (N : is_nan hi = false).
    { destruct (nanmax_spec _ _ X) as [(_ & _ & Y)|(Y & _)]; [|exact Y]. specialize (Y _ Im). discriminate. }
    destruct (nanmax_fin _ _ Hi X N) as (M & -> & _). unfold rsub in Ed. cbn in Ed. pose proof (rnd_nan rnd Hr (M + - m)%Q) as Z. rewrite Ed in Z. discriminate. }
  destruct Hd as (d & Ed). rewrite Ed. unfold rmul, radd. cbn [fmul rounded].
  assert (P : feqv (rnd (d * v)%Q) (Fin 0)) by (apply (rnd_zero rnd Hr); rewrite Hv0; ring).
  destruct (rnd (d * v)%Q) as [| | |p]; cbn in P; try contradiction. cbn [fadd rounded].
  eapply feqv_trans; [apply (rnd_eq rnd Hr (p + m)%Q m); rewrite P; ring|]. eapply feqv_trans; [apply Hx; exact Im|]. cbn. lra.
Qed.
Print Assumptions C149_minimum_restored.

(* the error of the two passes, number by number *)
Lemma abs_le a b : (Qabs a <= b <-> - b <= a <= b)%Q.
Proof. apply Qabs_Qle_condition. Qed.

(** Every other sample comes back up to rounding: with relative rounding error [u] (and [e] near zero) the error is at most
    u|x| + e + (1+u) (((1+u)^3 - 1) (x - min) + ((1+u)^2 + (1+u) d + 1) e) with d the rounded range. *)
Theorem C149_error_bound : forall u e rnd s s' m hi d i x y, (0 <= u)%Q -> (0 <= e)%Q -> rounding rnd -> accurate u e rnd ->
  no_inf s -> apart rnd s -> scale_series_r rnd s = Ok (s', Fin m, hi) -> ~ constant s -> rsub rnd hi (Fin m) = Fin d ->
  nth_error s i = Some (Fin x) -> nth_error (descale_series_r rnd (Fin m) hi s') i = Some (Fin y) ->
  (Qabs (y - x) <= u * Qabs x + e + (1 + u) * (((1 + u) * (1 + u) * (1 + u) - 1) * (x - m) + ((1 + u) * (1 + u) + (1 + u) * d + 1) * e))%Q.
Proof.
  intros u e rnd s s' m hi d i x y Hu He Hr Hacc Hi Ha H NC Ed Hx Hy.
  unfold descale_series_r in Hy. apply nth_map_inv in Hy. destruct Hy as (v & Hv & Ey).
  destruct (scale_series_cases rnd s s' (Fin m) hi Hi H) as [(N & ->)|[(m' & E & C & A & ->)|(m' & M & E & -> & Hm & Im & IM & B & ->)]].
  - specialize (N _ (nth_error_In _ _ Hx)). discriminate.
  - contradiction.
  - injection E as <-. apply nth_map_inv in Hv. destruct Hv as (w & E & ->). rewrite Hx in E. injection E as <-.
    destruct (B _ (nth_error_In _ _ Hx)) as [B1 B2]. pose proof (Ha m M Im IM Hm) as D0. change (rnd (M - m)%Q) with (rsub rnd (Fin M) (Fin m)) in D0.
    rewrite Ed in *. apply flt_Fin in D0.
    assert (L0 : fle (Fin 0) (rsub rnd (Fin x) (Fin m)) = true) by (apply rnd_nonneg; [exact Hr|]; change (0 <= x - m)%Q; lra).
    assert (L1 : fle (rsub rnd (Fin x) (Fin m)) (Fin d) = true) by (rewrite <- Ed; apply rnd_mono; [exact Hr|]; change (x - m <= M - m)%Q; lra).
    destruct (rsub rnd (Fin x) (Fin m)) as [| | |n] eqn:En; try discriminate. apply fle_Fin in L0. apply fle_Fin in L1.
    assert (Bn : (Qabs (n - (x - m)) <= u * (x - m) + e)%Q).
    { unfold rsub in En. cbn in En. destruct (Hacc (x + - m)%Q) as [X|(r & X & Y)]; rewrite En in X; [discriminate|injection X as <-].
      change (x + - m)%Q with (x - m)%Q in Y. rewrite (Qabs_pos (x - m)) in Y by lra. exact Y. }
    unfold rdiv in Ey. cbn [fdiv] in Ey. destruct (Qeq_bool d 0) eqn:Z; [apply Qeq_bool_iff in Z; lra|]. cbn [rounded] in Ey.
    assert (Q0 : (0 <= n / d)%Q) by (apply Qle_shift_div_l; lra).
    destruct (Hacc (n / d)%Q) as [X|(t & Et & Bt)].
    { exfalso. assert (L2 : fle (Fin 0) (rnd (n / d)%Q) = true) by (apply rnd_nonneg; assumption).
      assert (L3 : fle (rnd (n / d)%Q) (Fin 1) = true) by (apply rnd_le_one; [exact Hr|apply Qle_shift_div_r; lra]).
      destruct (rnd (n / d)%Q); discriminate. }
    rewrite Et in Ey. rewrite (Qabs_pos (n / d)%Q) in Bt by exact Q0.
    assert (T0 : (0 <= t)%Q). { apply fle_Fin. rewrite <- Et. apply rnd_nonneg; assumption. }
    unfold rmul in Ey. cbn [fmul rounded] in Ey.
    destruct (Hacc (d * t)%Q) as [X|(p & Ep & Bp)].
    { destruct (rnd (d * t)%Q) as [| | |p]; try discriminate. }
    rewrite Ep in Ey. unfold radd in Ey. cbn [fadd rounded] in Ey.
    destruct (Hacc (p + m)%Q) as [X|(r & Er & Br)]; [rewrite <- Ey in X; discriminate|]. rewrite Er in Ey. injection Ey as ->.
    assert (T1 : (0 <= d * t)%Q) by nra. rewrite (Qabs_pos (d * t)%Q) in Bp by exact T1.
    assert (Bdt : (- (u * n + e * d) <= d * t - n <= u * n + e * d)%Q).
    { apply abs_le in Bt. assert (K : (n / d * d == n)%Q) by (field; lra). set (q := (n / d)%Q) in *.
      assert (d * (t - q) <= d * (u * q + e))%Q by (apply Qmult_le_l; [exact D0|apply Bt]).
      assert (d * - (u * q + e) <= d * (t - q))%Q by (apply Qmult_le_l; [exact D0|apply Bt]).
      assert (d * (u * q + e) == u * n + e * d)%Q by (rewrite <- K; ring). assert (d * (t - q) == d * t - n)%Q by (rewrite <- K; ring).
      assert (d * - (u * q + e) == - (u * n + e * d))%Q by (rewrite <- K; ring). lra. }
    apply abs_le in Bn. apply abs_le in Bp.
    set (a := (x - m)%Q) in *. assert (A0 : (0 <= a)%Q) by (unfold a; lra).
    assert (N1 : (n <= (1 + u) * a + e)%Q) by lra.
    assert (UN : (u * n <= u * ((1 + u) * a + e))%Q) by (rewrite !(Qmult_comm u); apply Qmult_le_compat_r; assumption).
    assert (DT : (d * t <= (1 + u) * ((1 + u) * a + e) + e * d)%Q) by lra.
    assert (UDT : (u * (d * t) <= u * ((1 + u) * ((1 + u) * a + e) + e * d))%Q) by (rewrite !(Qmult_comm u); apply Qmult_le_compat_r; assumption).
    set (K := (((1 + u) * (1 + u) * (1 + u) - 1) * a + ((1 + u) * (1 + u) + (1 + u) * d + 1) * e)%Q).
    assert (PA : (- K <= p - a <= K)%Q).
    { assert (KE : (K == (u * a + e) + (u * ((1 + u) * a + e) + e * d) + (u * ((1 + u) * ((1 + u) * a + e) + e * d) + e))%Q) by (unfold K; ring).
      rewrite KE. lra. }
    assert (PM : (Qabs (p + m) <= Qabs x + K)%Q).
    { assert (E : (p + m == x + (p - a))%Q) by (unfold a; ring). rewrite E. eapply Qle_trans; [apply Qabs_triangle|].
      assert (Qabs (p - a) <= K)%Q by (apply abs_le; exact PA). lra. }
    assert (UPM : (u * Qabs (p + m) <= u * (Qabs x + K))%Q) by (rewrite !(Qmult_comm u); apply Qmult_le_compat_r; assumption).
    apply abs_le in Br. apply abs_le. assert (E : (r - x == (r - (p + m)) + (p - a))%Q) by (unfold a; ring). rewrite E. fold K. lra.
Qed.
Print Assumptions C149_error_bound.

(** Without rounding, scaling and descaling gives every sample back (C20).  With rounding it does not. *)
Theorem C149_exactly_restored_refuted : exists rnd s s' lo hi i x y, rounding rnd /\ accurate 0 (1 # 4) rnd /\ no_inf s /\ apart rnd s /\ exact_samples rnd s /\
  scale_series_r rnd s = Ok (s', lo, hi) /\ is_inf (rsub rnd hi lo) = false /\
  nth_error s i = Some (Fin x) /\ nth_error (descale_series_r rnd lo hi s') i = Some (Fin y) /\ ~ (x == y)%Q.
Proof.
  exists quarter, (map Fin [0; 1; 3]%Q). do 3 eexists. exists 1. do 2 eexists. split; [exact quarter_rounding|]. split; [exact quarter_accurate|].
  split; [intros v Hv; cbn in Hv; repeat (destruct Hv as [<-|Hv]; [reflexivity|]); destruct Hv|].
  split; [intros a b Ia Ib L; cbn in Ia, Ib; repeat (destruct Ia as [Ia|Ia]; [injection Ia as <-|]); try destruct Ia; repeat (destruct Ib as [Ib|Ib]; [injection Ib as <-|]); try destruct Ib; first [lra|reflexivity]|].
  split; [intros a Ia; cbn in Ia; repeat (destruct Ia as [Ia|Ia]; [injection Ia as <-; reflexivity|]); destruct Ia|].
  split; [reflexivity|]. split; [reflexivity|]. split; [reflexivity|]. split; [reflexivity|]. vm_compute. discriminate.
Qed.
Print Assumptions C149_exactly_restored_refuted.

Example C149_ex : exists s', scale_series_r quarter (map Fin [1; 2; 4; 9]%Q) = Ok (s', Fin 1, Fin 9) /\
  Forall2 feqv s' (map Fin [0; 0; 1 # 4; 1]%Q) /\ Forall2 feqv (descale_series_r quarter (Fin 1) (Fin 9) s') (map Fin [1; 1; 3; 9]%Q).
Proof. eexists. split; [reflexivity|]. split; repeat constructor; cbn; reflexivity. Qed.
