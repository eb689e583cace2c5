(** Property C151: scaling, descaling and the overall error in double precision. *)
From Coq Require Import QArith Qabs Qround Lqa ZifyBool ZifyNat Permutation.
From Verif Require Import Base.Py Base.PyFacts Base.Float Base.FloatFacts Model.Rounded Model.RoundedErrors Spec.Scaling Spec.Rounded Spec.Ieee
  Proofs.RoundedFacts Proofs.IeeeFacts Props.Rounded Props.RoundedErrors.
Local Close Scope Q_scope. Local Open Scope nat_scope.
Local Notation length := List.length.

(** every sample is missing or a double *)
Definition doubles (s : list fnum) : Prop := forall v, In v s -> is_nan v = true \/ exists q, v = Fin q /\ is_double q.

Lemma doubles_no_inf s : doubles s -> no_inf s.
Proof. intros D v Hv. destruct (D v Hv) as [N|(q & -> & _)]; [destruct v; try discriminate; reflexivity|reflexivity]. Qed.
Lemma doubles_in s a : doubles s -> In (Fin a) s -> is_double a.
Proof. intros D H. destruct (D _ H) as [N|(q & E & Q)]; [discriminate|injection E as ->; exact Q]. Qed.
Lemma double_rounding : rounding double.
Proof. apply float_rounding; lia. Qed.
Lemma doubles_apart s : doubles s -> apart double s.
Proof. intros D. apply float_apart; [lia|lia|]. intros a Ia. apply (doubles_in s a D Ia). Qed.
Lemma doubles_exact s : doubles s -> exact_samples double s.
Proof. intros D a Ia. apply float_exact; [lia|lia|]. apply (doubles_in s a D Ia). Qed.

(** [double] is what IEEE 754 asks for: the result is a double, and no double is nearer.  Doubles are not changed. *)
Theorem C151_rounds_to_nearest : forall q,
  (forall v, double q = Fin v -> is_double v /\ forall r, is_double r -> (Qabs (v - q) <= Qabs (r - q))%Q) /\
  (is_double q -> feqv (double q) (Fin q)).
Proof.
  intros q. split.
  - intros v E. apply (float_nearest 53 1074 1024 q v); [lia|lia|lia|exact E].
  - apply float_exact; lia.
Qed.
Print Assumptions C151_rounds_to_nearest.

(** Scaled series of doubles are missing or between 0 and 1. *)
Theorem C151_scaled : forall s s' lo hi, doubles s -> scale_series_r double s = Ok (s', lo, hi) ->
  length s' = length s /\ (forall v, In v s' -> is_nan v = true \/ (fle (Fin 0) v = true /\ fle v (Fin 1) = true)) /\
  (all_nan s -> all_nan s') /\ (~ all_nan s -> constant s -> forall v, In v s' -> v = Fin 0) /\
  (~ all_nan s -> ~ constant s -> is_inf (rsub double hi lo) = false ->
   forall i j u v u' v', nth_error s i = Some u -> nth_error s j = Some v -> nth_error s' i = Some u' -> nth_error s' j = Some v' ->
   is_nan u' = is_nan u /\ (fle u v = true -> fle u' v' = true) /\
   (feqb u lo = true -> feqv u' (Fin 0)) /\ (feqb u hi = true -> feqv u' (Fin 1))).
Proof.
  intros s s' lo hi D H. pose proof (doubles_no_inf s D) as Hi. pose proof (doubles_apart s D) as Ha.
  destruct (C148_between_0_and_1 double s s' lo hi double_rounding Hi Ha H) as (H1 & H2 & H3 & H4).
  do 4 (split; [assumption|]). intros NN NC NI. apply (C148_order_and_ends double s s' lo hi double_rounding Hi Ha H NN NC NI).
Qed.
Print Assumptions C151_scaled.

(** Descaling gives the minimum back exactly, and every other sample up to a few units in the last place of the sample and
    of its distance from the minimum. *)
Theorem C151_descaled : forall s s' lo hi d i x y, doubles s -> scale_series_r double s = Ok (s', Fin lo, hi) ->
  rsub double hi (Fin lo) = Fin d ->
  nth_error s i = Some (Fin x) -> nth_error (descale_series_r double (Fin lo) hi s') i = Some y ->
  ((x == lo)%Q -> feqv y (Fin x)) /\
  (forall z, y = Fin z -> (Qabs (z - x) <= / inject_Z (2 ^ 53) * Qabs x + / inject_Z (2 ^ 51) * (x - lo) + / inject_Z (2 ^ 1074) * (2 + d))%Q).
Proof.
  intros s s' lo hi d i x y D H Ed Hx Hy. pose proof (doubles_no_inf s D) as Hi. pose proof (doubles_apart s D) as Ha.
  assert (Min : (x == lo)%Q -> feqv y (Fin x)).
  { intros E. apply (C149_minimum_restored double s s' (Fin lo) hi i (Fin x) y double_rounding Hi Ha (doubles_exact s D) H); [rewrite Ed; reflexivity|exact Hx| |exact Hy].
    cbn. apply Qeq_bool_iff. exact E. }
  split; [exact Min|]. intros z ->.
  assert (P53 : (0 < / inject_Z (2 ^ 53))%Q) by (apply Qinv_lt_0_compat, inj_pos; reflexivity).
  assert (P51 : (/ inject_Z (2 ^ 51) == 4 * / inject_Z (2 ^ 53))%Q) by reflexivity.
  pose proof (inj_pos _ (pow_pos 1074 ltac:(lia))) as P1. pose proof (Qinv_lt_0_compat _ P1) as P2.
  assert (Facts : (lo <= x)%Q /\ (0 <= d)%Q).
  { destruct (scale_series_cases double s s' (Fin lo) hi Hi H) as [(N & ->)|[(m' & E & C & A & ->)|(m' & M & E & -> & Hm & Im & IM & B & ->)]].
    - specialize (N _ (nth_error_In _ _ Hx)). discriminate.
    - injection E as <-. assert (X : nanmin s = Ok (Fin lo) /\ nanmax s = Ok hi).
      { unfold scale_series_r in H. destruct (nanmin s); [destruct (nanmax s); [injection H as _ <- <-; auto|discriminate]|discriminate]. }
      destruct X as [Xm XM]. destruct (nanmin_spec _ _ Xm) as [(Y & _)|(_ & I & B)]; [discriminate|].
      assert (L : (lo <= x)%Q) by (apply fle_Fin, B; [apply (nth_error_In _ _ Hx)|reflexivity]). split; [exact L|].
      assert (N : is_nan hi = false). { destruct (nanmax_spec _ _ XM) as [(_ & _ & Y)|(Y & _)]; [specialize (Y _ I); discriminate|exact Y]. }
      destruct (nanmax_fin _ _ Hi XM N) as (M & -> & IM). destruct (nanmax_spec _ _ XM) as [(Y & _)|(_ & _ & B2)]; [discriminate|].
      assert (lo <= M)%Q by (apply fle_Fin, B2; [exact I|reflexivity]). apply fle_Fin. rewrite <- Ed. apply rnd_nonneg; [exact double_rounding|]. change (0 <= M - lo)%Q. lra.
    - injection E as <-. destruct (B _ (nth_error_In _ _ Hx)) as [B1 B2]. split; [exact B1|].
      apply fle_Fin. rewrite <- Ed. apply rnd_nonneg; [exact double_rounding|]. change (0 <= M - lo)%Q. lra. }
  destruct Facts as [L D0].
  assert (Q1 : (0 <= / inject_Z (2 ^ 53) * Qabs x)%Q) by (apply Qmult_le_0_compat; [lra|apply Qabs_nonneg]).
  assert (Q2 : (0 <= / inject_Z (2 ^ 1074) * d)%Q) by (apply Qmult_le_0_compat; lra).
  assert (Q3 : (0 <= / inject_Z (2 ^ 53) * (x - lo))%Q) by (apply Qmult_le_0_compat; lra).
  destruct (Qeq_dec x lo) as [E|NE].
  { specialize (Min E). cbn in Min. assert (Z : (z - x == 0)%Q) by lra. rewrite Z. change (Qabs 0) with 0%Q. rewrite P51. lra. }
  assert (NC : ~ constant s).
  { intros C. assert (I : In (Fin lo) s).
    { assert (X : nanmin s = Ok (Fin lo)) by (unfold scale_series_r in H; destruct (nanmin s); [destruct (nanmax s); [injection H as _ <- _; reflexivity|discriminate]|discriminate]).
      destruct (nanmin_spec _ _ X) as [(Y & _)|(_ & I & _)]; [discriminate|exact I]. }
    specialize (C _ _ (nth_error_In _ _ Hx) I eq_refl eq_refl). cbn in C. apply Qeq_bool_iff in C. contradiction. }
  set (e := ((1 # 2) / inject_Z (2 ^ 1074))%Q). assert (Ee : (2 * e == / inject_Z (2 ^ 1074))%Q) by (unfold e; field; lra).
  assert (Acc : accurate (/ inject_Z (2 ^ 53)) e double) by (apply float_accurate; lia).
  pose proof (C149_error_bound (/ inject_Z (2 ^ 53)) e double s s' lo hi d i x z ltac:(lra) ltac:(lra) double_rounding Acc Hi Ha H NC Ed Hx Hy) as B.
  eapply Qle_trans; [exact B|]. rewrite <- Ee, P51.
  set (u := (/ inject_Z (2 ^ 53))%Q) in *. assert (U1 : (u <= 1 # 100)%Q) by (vm_compute; discriminate).
  clearbody u e. clear B Acc Ed Hx Hy H. set (a := (x - lo)%Q) in *. assert (A0 : (0 <= a)%Q) by (unfold a; lra). clearbody a.
  assert (E0 : (0 <= e)%Q) by lra.
  assert (U2 : (u * u <= (1 # 100) * u)%Q) by nra.
  assert (C1 : ((1 + u) * ((1 + u) * (1 + u) * (1 + u) - 1) <= 4 * u)%Q).
  { assert (U3 : (u * u * u <= (1 # 100) * u)%Q) by nra. assert (U4 : (u * u * u * u <= (1 # 100) * u)%Q) by nra.
    assert (X : ((1 + u) * ((1 + u) * (1 + u) * (1 + u) - 1) == 3 * u + 6 * (u * u) + 4 * (u * u * u) + u * u * u * u)%Q) by ring. rewrite X. lra. }
  assert (C2 : (1 + (1 + u) * ((1 + u) * (1 + u) + 1) <= 4)%Q).
  { assert (X : (1 + (1 + u) * ((1 + u) * (1 + u) + 1) == 3 + 4 * u + 3 * (u * u) + u * (u * u))%Q) by ring. rewrite X.
    assert (u * (u * u) <= (1 # 100) * u)%Q by nra. lra. }
  assert (C3 : ((1 + u) * (1 + u) <= 2)%Q) by nra.
  assert (D1 : ((1 + u) * ((1 + u) * (1 + u) * (1 + u) - 1) * a <= 4 * u * a)%Q) by (apply Qmult_le_compat_r; assumption).
  assert (D2 : ((1 + (1 + u) * ((1 + u) * (1 + u) + 1)) * e <= 4 * e)%Q) by (apply Qmult_le_compat_r; assumption).
  assert (De : (0 <= d * e)%Q) by (apply Qmult_le_0_compat; assumption).
  assert (D3 : ((1 + u) * (1 + u) * (d * e) <= 2 * (d * e))%Q) by (apply Qmult_le_compat_r; assumption).
  assert (X : (u * Qabs x + e + (1 + u) * (((1 + u) * (1 + u) * (1 + u) - 1) * a + ((1 + u) * (1 + u) + (1 + u) * d + 1) * e) ==
               u * Qabs x + (1 + u) * ((1 + u) * (1 + u) * (1 + u) - 1) * a + (1 + (1 + u) * ((1 + u) * (1 + u) + 1)) * e + (1 + u) * (1 + u) * (d * e))%Q) by ring.
  rewrite X. assert (Y : (2 * e * (2 + d) == 4 * e + 2 * (d * e))%Q) by ring. rewrite Y. lra.
Qed.
Print Assumptions C151_descaled.

(** If no error grows in magnitude, the overall error in double precision does not grow. *)
Theorem C151_error_monotone : forall sqrt o errors errors',
  (forall a b, fle (Fin 0) a = true -> fle a b = true -> fle (sqrt a) (sqrt b) = true) ->
  (exists v, In v errors /\ is_nan v = false) ->
  Forall2 (fun a b => is_nan a = is_nan b /\ (is_nan a = false -> fle (fabs a) (fabs b) = true)) errors errors' ->
  fle (root_mean_squared_r double sqrt o errors) (root_mean_squared_r double sqrt o errors') = true.
Proof. intros. apply C150_monotone; try assumption. exact double_rounding. Qed.
Print Assumptions C151_error_monotone.

(* numbers that are doubles: an integer of at most 53 digits times a power of two *)
Lemma dyadic m e : (Z.abs m < 2 ^ 53)%Z -> (0 <= e + 1074)%Z -> (e <= 971)%Z ->
  is_double (inject_Z (m * 2 ^ (e + 1074)) / inject_Z (2 ^ 1074))%Q.
Proof.
  intros Hm He Hx. exists m, (e + 1074)%Z. split; [exact Hm|]. split; [exact He|]. split; [|reflexivity].
  apply Z.lt_le_trans with (2 ^ 53 * 2 ^ (e + 1074))%Z; [apply Z.mul_lt_mono_pos_r; [apply pow_pos; exact He|exact Hm]|].
  rewrite <- Z.pow_add_r by lia. apply Z.pow_le_mono_r; lia.
Qed.
Definition dy (m e : Z) : Q := Qred (inject_Z (m * 2 ^ (e + 1074)) / inject_Z (2 ^ 1074)).
Lemma dy_double m e : (Z.abs m < 2 ^ 53)%Z -> (0 <= e + 1074)%Z -> (e <= 971)%Z -> is_double (dy m e).
Proof.
  intros Hm He Hx. destruct (dyadic m e Hm He Hx) as (m' & e' & A & B & C & D). exists m', e'. split; [exact A|]. split; [exact B|]. split; [exact C|].
  unfold dy. rewrite Qred_correct. exact D.
Qed.
Lemma dys_doubles l : (forall m e, In (m, e) l -> (Z.abs m < 2 ^ 53 /\ 0 <= e + 1074 /\ e <= 971)%Z) -> doubles (map (fun me => Fin (dy (fst me) (snd me))) l).
Proof. intros H v Hv. apply in_map_iff in Hv. destruct Hv as ([m e] & <- & I). right. eexists. split; [reflexivity|]. cbn. destruct (H _ _ I) as (A & B & C). apply dy_double; assumption. Qed.
Ltac dys := apply dys_doubles; intros m e I; cbn [In] in I; repeat (destruct I as [I|I]; [injection I as <- <-; lia|]); destruct I.
Local Notation D l := (map (fun me => Fin (dy (fst me) (snd me))) l).

(** In double precision different samples can become equal: -1, 2^-60 and 2^-59. *)
Theorem C151_order_strict_refuted : exists s s' lo hi, doubles s /\ scale_series_r double s = Ok (s', lo, hi) /\ is_inf (rsub double hi lo) = false /\
  exists i j u v u' v', nth_error s i = Some u /\ nth_error s j = Some v /\ nth_error s' i = Some u' /\ nth_error s' j = Some v' /\
    flt u v = true /\ feqb u' v' = true.
Proof.
  exists (D [(-1, 0); (1, -60); (1, -59)]%Z). do 3 eexists. split; [dys|]. split; [vm_compute; reflexivity|]. split; [vm_compute; reflexivity|].
  exists 1, 2. do 4 eexists. do 4 (split; [reflexivity|]). split; vm_compute; reflexivity.
Qed.
Print Assumptions C151_order_strict_refuted.

(** A series without missing samples can get one: -2^1023, 0 and 2^1023 become 0, 0 and NaN. *)
Theorem C151_no_missing_refuted : exists s s' lo hi, doubles s /\ no_nan s /\ scale_series_r double s = Ok (s', lo, hi) /\ In NaN s'.
Proof.
  exists (D [(-1, 1023); (0, 0); (1, 1023)]%Z). do 3 eexists.
  split; [|split; [|split; [vm_compute; reflexivity|vm_compute; tauto]]].
  - intros v Hv. cbn [map In fst snd] in Hv. right. destruct Hv as [<-|[<-|[<-|[]]]]; eexists; (split; [reflexivity|]).
    + exists (-1)%Z, 2097%Z. repeat split; try (vm_compute; reflexivity); vm_compute; discriminate.
    + exists 0%Z, 0%Z. repeat split; vm_compute; try reflexivity; discriminate.
    + exists 1%Z, 2097%Z. repeat split; try (vm_compute; reflexivity); vm_compute; discriminate.
  - intros v Hv. cbn [map In] in Hv. destruct Hv as [<-|[<-|[<-|[]]]]; reflexivity.
Qed.
Print Assumptions C151_no_missing_refuted.

(** Scaling and descaling does not give every double back: of 0, 1 and 49, the 1 comes back as 1 - 2^-53. *)
Theorem C151_exactly_restored_refuted : exists s s' lo hi i x y, doubles s /\ scale_series_r double s = Ok (s', lo, hi) /\ is_inf (rsub double hi lo) = false /\
  nth_error s i = Some (Fin x) /\ nth_error (descale_series_r double lo hi s') i = Some (Fin y) /\ ~ (x == y)%Q.
Proof.
  exists (D [(0, 0); (1, 0); (49, 0)]%Z). do 3 eexists. exists 1. do 2 eexists. split; [dys|]. split; [vm_compute; reflexivity|]. split; [vm_compute; reflexivity|].
  split; [reflexivity|]. split; [vm_compute; reflexivity|]. vm_compute. discriminate.
Qed.
Print Assumptions C151_exactly_restored_refuted.

(** The overall error in double precision depends on the order of the points. *)
Theorem C151_order_irrelevant_refuted : exists o errors errors', Permutation errors errors' /\ doubles errors /\
  feqb (root_mean_squared_r double (fun v => v) o errors) (root_mean_squared_r double (fun v => v) o errors') = false.
Proof.
  exists (Plus (Plus (At 0) (At 1)) (At 2)), (D [(11, -30); (11, -30); (1, 0)]%Z), (D [(1, 0); (11, -30); (11, -30)]%Z).
  split; [apply Permutation_map; apply (Permutation_trans (l' := [(11, -30); (1, 0); (11, -30)]%Z)); [apply perm_skip, perm_swap|apply perm_swap]|].
  split; [dys|vm_compute; reflexivity].
Qed.
Print Assumptions C151_order_irrelevant_refuted.

(* 1, 1.5 and 4: a sixth is rounded, and the samples come back *)
Example C151_ex : let s := D [(1, 0); (3, -1); (4, 0)]%Z in
  doubles s /\ exists s' lo hi d, scale_series_r double s = Ok (s', Fin lo, hi) /\ rsub double hi (Fin lo) = Fin d /\ ~ constant s /\
  map (fun ab => feqb (fst ab) (snd ab)) (combine s' (D [(0, 0); (6004799503160661, -55); (1, 0)]%Z)) = [true; true; true] /\
  map (fun ab => feqb (fst ab) (snd ab)) (combine (descale_series_r double (Fin lo) hi s') s) = [true; true; true].
Proof.
  split; [dys|]. do 4 eexists. split; [vm_compute; reflexivity|]. split; [vm_compute; reflexivity|].
  split; [|split; vm_compute; reflexivity].
  intros C. specialize (C (Fin (dy 1 0)) (Fin (dy 4 0))). cbn [map In fst snd] in C. specialize (C ltac:(auto) ltac:(auto) eq_refl eq_refl). vm_compute in C. discriminate.
Qed.
