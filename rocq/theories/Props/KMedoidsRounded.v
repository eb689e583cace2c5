(** C153 and C154: the k-medoids search in floating point. *)
From Coq Require Import Lia Lqa QArith Qabs Permutation.
From Verif Require Import Base.Py Base.PyFacts Base.Arr Base.Float Base.FloatFacts Model.KMedoids Model.Rounded Model.RoundedErrors Model.KMedoidsRounded
  Spec.Medoids Spec.Rounded Spec.Ieee Spec.KMedoidsRounded Proofs.KMedoidsFacts Proofs.RoundedFacts Proofs.IeeeFacts Proofs.KMedoidsRoundedFacts Proofs.SummationFacts Props.Ieee.
From Coq Require Import ZifyBool ZifyNat.
Local Close Scope Q_scope.
Local Open Scope nat_scope.

Lemma consistent_by_get_cost sum X D ms c : instance X D -> valid_indices X ms -> ms <> [] -> dist_no_nan X D ->
  consistent_by sum X D ms c -> get_cost_r sum X D (mk X ms) = Ok c.
Proof.
  intros HI HV Hne HN Hc. destruct (r_get_cost_ok sum X D ms HI HV Hne) as (labels & E & _).
  pose proof (r_get_cost_consistent sum X D ms _ HI HV Hne HN E) as Hc'. rewrite E. f_equal.
  destruct Hc as (A1 & A2 & A3 & A4 & A5), Hc' as (B1 & B2 & B3 & B4 & B5). set (c' := r_cost_of sum X D ms labels) in *. clearbody c'.
  assert (L : c_labels c' = c_labels c).
  { apply nth_ext with (d := length ms) (d' := length ms); [ congruence | ]. intros i Hi. rewrite B1 in Hi. eapply nearest_unique; eauto. }
  destruct c as [ l1 k1 t1 d1 ], c' as [ l2 k2 t2 d2 ]. cbn in *. subst. reflexivity.
Qed.

(** However the sums are formed and rounded, the search ends within its limit; it returns k different samples as medoids, the
    nearest medoid of every sample and the costs of exactly these clusters; and it returns the starting medoids, or a total
    that is below theirs, with a computed difference above the tolerance. *)
Theorem C153_search : forall rnd sum choice X k D init md max_iter tol ms0,
  rounding rnd -> instance X D -> dist_no_nan X D -> fle (Fin 0) tol = true -> md <> OtherMode -> starts_from choice X k init ms0 ->
  exists r, run_kmedoids_r rnd sum choice X (Z.of_nat k) D init md max_iter tol = Ok r /\
    (0 <= r_cc r <= Z.max 0 (max_iter + 1))%Z /\
    length (r_medoids r) = k /\ (NoDup ms0 -> NoDup (r_medoids r)) /\ valid_indices X (r_medoids r) /\
    consistent_by sum X D (r_medoids r) (r_cost r) /\
    (forall c0, consistent_by sum X D ms0 c0 ->
       (r_medoids r = ms0 /\ r_cost r = c0) \/
       (flt (c_total (r_cost r)) (c_total c0) = true /\ flt tol (rsub rnd (c_total c0) (c_total (r_cost r))) = true)).
Proof.
  intros rnd sum choice X k D init md mi tol ms0 HR HI HN Ht Hmd (Hs & Hl & Hk & HV).
  assert (NE : forall ms : list Z, length ms = k -> ms <> []) by (intros [ | ] E; [ cbn in E; lia | discriminate ]).
  destruct (r_run_spec rnd sum HR X D tol md k HI Ht Hk choice init mi ms0 Hmd Hs HV Hl)
    as (c & st & ms & cc & Ec & (HV' & Hl' & _ & Ec') & (_ & HND & HL) & Er & HB & _).
  exists (mkres ms (st_cost st) cc). cbn [r_medoids r_cost r_cc]. split; [ exact Er | ]. split; [ exact HB | ]. split; [ exact Hl' | ].
  split; [ exact HND | ]. split; [ exact HV' | ]. split; [ apply r_get_cost_consistent; auto | ].
  intros c0 Hc. rewrite (consistent_by_get_cost sum X D ms0 c0 HI HV (NE _ Hl) HN Hc) in Ec. injection Ec as <-.
  destruct HL as [ [ -> -> ] | HL ]; [ left; auto | right ]. split; [ | exact HL ]. eapply rgain_less; eauto.
Qed.
Print Assumptions C153_search.

(** If it stopped before the limit, the computed gain of making any candidate the medoid of any cluster is not above the
    tolerance. *)
Theorem C153_local_optimum : forall rnd sum choice X k D init md max_iter tol ms0 r,
  rounding rnd -> instance X D -> dist_no_nan X D -> fle (Fin 0) tol = true -> md <> OtherMode -> starts_from choice X k init ms0 ->
  run_kmedoids_r rnd sum choice X (Z.of_nat k) D init md max_iter tol = Ok r -> (r_cc r <= max_iter)%Z ->
  forall before after i c, r_medoids r = before ++ after -> after <> [] ->
    candidate_of md X (c_labels (r_cost r)) (length before) i -> ~ In (Z.of_nat i) (r_medoids r) ->
    consistent_by sum X D (before ++ Z.of_nat i :: tl after) c ->
    flt tol (rsub rnd (c_total (r_cost r)) (c_total c)) = false.
Proof.
  intros rnd sum choice X k D init md mi tol ms0 r HR HI HN Ht Hmd (Hs & Hl & Hk & HV) Hr Hlim before after i c Hm Ha Hcand Hni Hc.
  destruct (r_run_spec rnd sum HR X D tol md k HI Ht Hk choice init mi ms0 Hmd Hs HV Hl)
    as (c0 & st & ms & cc & Ec & (HV' & Hl' & _) & _ & Er & _ & HO & _).
  rewrite Er in Hr. injection Hr as <-. cbn [r_medoids r_cost r_cc] in *.
  destruct after as [ | a0 after ]; [ congruence | ]. cbn [tl] in Hc.
  assert (Hj : length before < k) by (rewrite <- Hl', Hm, app_length; cbn; lia).
  destruct (HO Hlim (length before) i Hj Hcand) as [ H | (c' & E & G) ]; [ contradiction | ].
  assert (Er' : replace_nth ms (length before) (Z.of_nat i) = before ++ Z.of_nat i :: after).
  { rewrite Hm. clear. induction before; cbn; auto. f_equal; auto. }
  rewrite Er' in E. destruct Hcand as [ Hi _ ].
  rewrite (consistent_by_get_cost sum X D _ c HI) in E; auto.
  - injection E as <-. exact G.
  - rewrite <- Er'. apply replace_valid; auto.
  - destruct before; discriminate.
Qed.
Print Assumptions C153_local_optimum.

(* ---------------------------------------------------------------- C154 *)
(** The total computed for medoids is infinite or near the exact sum of the distances to the nearest medoids, whatever the order of
    the additions: [u] is the relative error of one addition, [e] its error near zero, [h] the depth of a sum. *)
Theorem C154_total : forall u e rnd ord N h X D ms c x,
  (0 <= u <= 1)%Q -> (0 <= e)%Q -> rounding rnd -> accurate u e rnd ->
  summation ord N h -> length X <= N -> length ms <= N -> valid_indices X ms -> dist_finite X D ->
  (forall a b, a < length X -> b < length X -> fle (Fin 0) (sample_dist X D a b) = true) ->
  consistent_by (sum_by rnd ord) X D ms c -> consistent X D ms x ->
  c_total c = PInf \/
  exists computed exact, c_total c = Fin computed /\ c_total x = Fin exact /\ (0 <= exact)%Q /\
    (qpow (1 - u) (h + h) * exact - e * inject_Z (Z.of_nat (length X + length ms)) <= computed)%Q /\
    (computed <= qpow (1 + u) (h + h) * (exact + e * inject_Z (Z.of_nat (length X + length ms))))%Q.
Proof. intros. eapply total_bounds; eassumption. Qed.
Print Assumptions C154_total.

(** So the exact cost of the medoids returned exceeds that of the starting medoids by no more than the errors of the sums. *)
Theorem C154_exact_cost : forall u e rnd ord N h choice X k D init md max_iter tol ms0 r c0 x0 x,
  (0 <= u <= 1)%Q -> (0 <= e)%Q -> rounding rnd -> accurate u e rnd ->
  summation ord N h -> length X <= N -> k <= N -> instance X D -> dist_finite X D ->
  (forall a b, a < length X -> b < length X -> fle (Fin 0) (sample_dist X D a b) = true) ->
  fle (Fin 0) tol = true -> md <> OtherMode -> starts_from choice X k init ms0 ->
  run_kmedoids_r rnd (sum_by rnd ord) choice X (Z.of_nat k) D init md max_iter tol = Ok r ->
  consistent_by (sum_by rnd ord) X D ms0 c0 -> is_fin (c_total c0) = true ->
  consistent X D ms0 x0 -> consistent X D (r_medoids r) x ->
  exists q0 q, c_total x0 = Fin q0 /\ c_total x = Fin q /\ (0 <= q)%Q /\
    (qpow (1 - u) (h + h) * q <= qpow (1 + u) (h + h) * (q0 + e * inject_Z (Z.of_nat (length X + k))) + e * inject_Z (Z.of_nat (length X + k)))%Q.
Proof.
  intros u e rnd ord N h choice X k D init md mi tol ms0 r c0 x0 x Hu He HR HA Ho HN1 HN2 HI HF Hpos Ht Hmd Hs Hr Hc0 Hfin Hx0 Hx.
  assert (HN : dist_no_nan X D) by (intros a b Ha Hb; specialize (HF a b Ha Hb); destruct (sample_dist X D a b); auto; discriminate).
  destruct (C153_search rnd (sum_by rnd ord) choice X k D init md mi tol ms0 HR HI HN Ht Hmd Hs) as (r' & Er & _ & Lr & _ & Vr & Cr & Hor).
  rewrite Hr in Er. injection Er as <-. pose proof Hs as (_ & Hl & _ & HV). specialize (Hor c0 Hc0).
  assert (He' : (0 <= e * inject_Z (Z.of_nat (length X + k)))%Q).
  { apply Qmult_le_0_compat; [ exact He | ]. change 0%Q with (inject_Z 0). rewrite <- Zle_Qle. lia. }
  pose proof (qpow_pos (1 - u) (h + h) ltac:(lra)) as P1. pose proof (qpow_le1 (1 - u) (h + h) ltac:(lra)) as P2. pose proof (qpow_ge1 (1 + u) (h + h) ltac:(lra)) as P3.
  destruct (C154_total u e rnd ord N h X D ms0 c0 x0 Hu He HR HA Ho HN1 ltac:(lia) HV HF Hpos Hc0 Hx0) as [ E | (T0 & q0 & E0 & Eq0 & Pq0 & _ & U0) ].
  { rewrite E in Hfin. discriminate. }
  destruct Hor as [ [ Em _ ] | [ Hlt _ ] ].
  - rewrite Em in Hx. rewrite (consistent_unique X D ms0 _ _ Hx Hx0). exists q0, q0. split; [ exact Eq0 | ]. split; [ exact Eq0 | ]. split; [ exact Pq0 | ].
    set (z := (e * inject_Z (Z.of_nat (length X + k)))%Q) in *. clearbody z.
    assert (A : (0 <= (1 - qpow (1 - u) (h + h)) * q0)%Q) by (apply Qmult_le_0_compat; lra).
    assert (B : (0 <= (qpow (1 + u) (h + h) - 1) * (q0 + z))%Q) by (apply Qmult_le_0_compat; lra). lra.
  - destruct (C154_total u e rnd ord N h X D (r_medoids r) (r_cost r) x Hu He HR HA Ho HN1 ltac:(lia) Vr HF Hpos Cr Hx) as [ E | (T & q & E & Eq & Pq & L & _) ].
    { rewrite E, E0 in Hlt. discriminate. }
    rewrite E, E0 in Hlt. apply flt_Fin in Hlt. exists q0, q. split; [ exact Eq0 | ]. split; [ exact Eq | ]. split; [ exact Pq | ].
    rewrite Hl in U0. rewrite Lr in L. lra.
Qed.
Print Assumptions C154_exact_cost.

(** In double precision. *)
Theorem C154_exact_cost_double : forall ord N h choice X k D init md max_iter tol ms0 r c0 x0 x,
  summation ord N h -> length X <= N -> k <= N -> instance X D -> dist_finite X D ->
  (forall a b, a < length X -> b < length X -> fle (Fin 0) (sample_dist X D a b) = true) ->
  fle (Fin 0) tol = true -> md <> OtherMode -> starts_from choice X k init ms0 ->
  run_kmedoids_r double (sum_by double ord) choice X (Z.of_nat k) D init md max_iter tol = Ok r ->
  consistent_by (sum_by double ord) X D ms0 c0 -> is_fin (c_total c0) = true ->
  consistent X D ms0 x0 -> consistent X D (r_medoids r) x ->
  let u := (/ inject_Z (2 ^ 53))%Q in let z := (inject_Z (Z.of_nat (length X + k)) / inject_Z (2 ^ 1074))%Q in
  exists q0 q, c_total x0 = Fin q0 /\ c_total x = Fin q /\ (0 <= q)%Q /\
    (qpow (1 - u) (h + h) * q <= qpow (1 + u) (h + h) * (q0 + z) + z)%Q.
Proof.
  intros ord N h choice X k D init md mi tol ms0 r c0 x0 x Ho HN1 HN2 HI HF Hpos Ht Hmd Hs Hr Hc0 Hfin Hx0 Hx.
  pose proof (inj_pos _ (pow_pos 1074 ltac:(lia))) as P1. pose proof (Qinv_lt_0_compat _ P1) as P2.
  set (e := ((1 # 2) / inject_Z (2 ^ 1074))%Q). assert (Ee : (2 * e == / inject_Z (2 ^ 1074))%Q) by (unfold e; field; lra).
  assert (Acc : accurate (/ inject_Z (2 ^ 53)) e double) by (apply float_accurate; lia).
  assert (Hu : (0 <= / inject_Z (2 ^ 53) <= 1)%Q) by (split; vm_compute; discriminate).
  destruct (C154_exact_cost (/ inject_Z (2 ^ 53)) e double ord N h choice X k D init md mi tol ms0 r c0 x0 x Hu ltac:(lra) double_rounding Acc Ho HN1 HN2 HI HF Hpos Ht Hmd Hs Hr
    Hc0 Hfin Hx0 Hx) as (q0 & q & E0 & E & P & B).
  intros u z. exists q0, q. split; [ exact E0 | ]. split; [ exact E | ]. split; [ exact P | ]. fold u in B.
  set (n := inject_Z (Z.of_nat (length X + k))) in *. assert (Pn : (0 <= n)%Q) by (unfold n; change 0%Q with (inject_Z 0); rewrite <- Zle_Qle; lia).
  assert (Hz : (e * n <= z)%Q). { unfold z, Qdiv. rewrite <- Ee. assert (0 <= e * n)%Q by (apply Qmult_le_0_compat; lra). lra. }
  assert (P3 : (1 <= qpow (1 + u) (h + h))%Q) by (apply qpow_ge1; fold u in Hu; lra).
  assert (H : (0 <= qpow (1 + u) (h + h) * (z - e * n))%Q) by (apply Qmult_le_0_compat; lra). lra.
Qed.
Print Assumptions C154_exact_cost_double.

(* ---------- examples ---------- *)
(* one addition after the other, as numpy does for fewer than eight numbers *)
Fixpoint one_by_one (n : nat) : order := match n with O => Nothing | S O => At 0 | S m => Plus (one_by_one m) (At m) end.
Lemma one_by_one_summation N : summation one_by_one N N.
Proof.
  assert (G : forall n, positions (one_by_one n) = seq 0 n /\ additions (one_by_one n) <= n /\ height (one_by_one n) <= n).
  { induction n as [ | n (IH1 & IH2 & IH3) ]; [ cbn; auto | ]. destruct n as [ | n ]; [ cbn; auto | ].
    change (one_by_one (S (S n))) with (Plus (one_by_one (S n)) (At (S n))). cbn [positions additions height]. split; [ | lia ].
    rewrite IH1, (seq_S (S n)). reflexivity. }
  intros n Hn. destruct (G n) as (G1 & G2 & G3). rewrite G1. split; [ apply Permutation_refl | lia ].
Qed.
(* six samples; the first is far from the second and near the others *)
Definition far : Q := 16.
(* binary numbers of four digits, rounded to nearest *)
Definition four_digits : Q -> fnum := float_round 4 2 10.
Lemma four_rounding : rounding four_digits.
Proof. apply float_rounding; lia. Qed.
Definition six : distance := DMatrix (mk2 6 6 (map Fin
  [0; far; 2; 0; 0; 0;   far; 0; 1; 1; 1; 1;   2; 1; 0; far; far; far;   0; 1; far; 0; far; far;   0; 1; far; far; 0; far;   0; 1; far; far; far; 0])%Q).
Definition six_X : dataset := repeat [] 6.
Definition six_pick (n : nat) (k : Z) : res (list Z) := Ok [0]%Z.
Lemma six_cases (P : nat -> Prop) : P 0 -> P 1 -> P 2 -> P 3 -> P 4 -> P 5 -> forall a, a < 6 -> P a.
Proof. intros. do 6 (destruct a as [ | a ]; [ assumption | ]). lia. Qed.
Lemma six_ok : instance six_X six /\ dist_finite six_X six /\
  (forall a b, a < length six_X -> b < length six_X -> fle (Fin 0) (sample_dist six_X six a b) = true) /\ starts_from six_pick six_X 1 None [0]%Z.
Proof.
  split; [ repeat split | ]. split; [ | split ].
  - intros a b Ha Hb. revert a Ha b Hb. apply (six_cases (fun a => forall b, b < 6 -> is_fin (sample_dist six_X six a b) = true)); apply six_cases; vm_compute; reflexivity.
  - intros a b Ha Hb. revert a Ha b Hb. apply (six_cases (fun a => forall b, b < 6 -> fle (Fin 0) (sample_dist six_X six a b) = true)); apply six_cases; vm_compute; reflexivity.
  - split; [ reflexivity | ]. split; [ reflexivity | ]. split; [ lia | ]. intros i [ <- | [] ]. cbn. lia.
Qed.
Lemma six_check :
  match run_kmedoids_r four_digits (sum_by four_digits one_by_one) six_pick six_X (Z.of_nat 1) six None Robust 10 (Fin 1), get_cost_r (sum_by four_digits one_by_one) six_X six (mk six_X [0]%Z) with
  | Ok r, Ok c => (match r_medoids r with [z] => (z =? 1)%Z | _ => false end) && (r_cc r <=? 10)%Z && feqb (c_total c) (Fin (far + 2)) && feqb (c_total (r_cost r)) (Fin far)
  | _, _ => false
  end = true.
Proof. vm_compute. reflexivity. Qed.
(* from the first sample, whose distances add up to 18, to the second, whose distances 16, 1, 1, 1, 1 are summed to 16 *)
Example C153_ex : exists r c0,
  run_kmedoids_r four_digits (sum_by four_digits one_by_one) six_pick six_X (Z.of_nat 1) six None Robust 10 (Fin 1) = Ok r /\
  consistent_by (sum_by four_digits one_by_one) six_X six [0]%Z c0 /\ r_medoids r = [1]%Z /\ (r_cc r <= 10)%Z /\
  feqb (c_total c0) (Fin (far + 2)) = true /\ feqb (c_total (r_cost r)) (Fin far) = true.
Proof.
  pose proof six_check as H. destruct (run_kmedoids_r _ _ _ _ _ _ _ _ _ _) as [ r | ] eqn:Er; [ | discriminate H ].
  destruct (get_cost_r _ _ _ _) as [ c0 | ] eqn:Ec; [ | discriminate H ]. exists r, c0. split; [ reflexivity | ].
  destruct (r_medoids r) as [ | z [ | ] ]; try discriminate H. rewrite !andb_true_iff in H. destruct H as [ [ [ H1 H2 ] H3 ] H4 ]. apply Z.eqb_eq in H1. subst z.
  split; [ | split; [ reflexivity | split; [ apply Z.leb_le; exact H2 | split; [ exact H3 | exact H4 ] ] ] ].
  destruct six_ok as (HI & HF & _ & _ & _ & _ & HV). apply r_get_cost_consistent; [ exact HI | exact HV | discriminate | | exact Ec ].
  intros a b Ha Hb. specialize (HF a b Ha Hb). destruct (sample_dist six_X six a b); auto; discriminate.
Qed.

Lemma six_exact :
  match get_cost six_X six (mk six_X [0]%Z), get_cost six_X six (mk six_X [1]%Z) with
  | Ok x0, Ok x1 => fle (fsub (c_total x1) (c_total x0)) (Fin 1) = false
  | _, _ => False
  end.
Proof. vm_compute. reflexivity. Qed.
(** In a binary floating-point format the exact cost of the medoids can grow by more than the tolerance although the computed cost
    falls: with four digits, from 18 to 20. *)
Theorem C153_exact_cost_never_increases_refuted :
  ~ (forall p k2 emax ord N choice X k D init md max_iter tol ms0 r x0 x,
       rounding (float_round p k2 emax) -> summation ord N N -> length X <= N -> k <= N -> instance X D -> dist_finite X D ->
       (forall a b, a < length X -> b < length X -> fle (Fin 0) (sample_dist X D a b) = true) ->
       fle (Fin 0) tol = true -> md <> OtherMode -> starts_from choice X k init ms0 ->
       run_kmedoids_r (float_round p k2 emax) (sum_by (float_round p k2 emax) ord) choice X (Z.of_nat k) D init md max_iter tol = Ok r ->
       consistent X D ms0 x0 -> consistent X D (r_medoids r) x ->
       fle (fsub (c_total x) (c_total x0)) tol = true).
Proof.
  intros H. destruct six_ok as (HI & HF & HP & HS). destruct C153_ex as (r & c0 & Er & _ & Em & _).
  assert (HN : dist_no_nan six_X six) by (intros a b Ha Hb; specialize (HF a b Ha Hb); destruct (sample_dist six_X six a b); auto; discriminate).
  assert (V1 : valid_indices six_X [1]%Z) by (intros i [ <- | [] ]; cbn; lia). pose proof HS as (_ & _ & _ & V0).
  pose proof six_exact as HX. destruct (get_cost six_X six (mk six_X [0]%Z)) as [ x0 | ] eqn:E0; [ | destruct HX ].
  destruct (get_cost six_X six (mk six_X [1]%Z)) as [ x1 | ] eqn:E1; [ | destruct HX ].
  pose proof (get_cost_consistent _ _ _ _ HI V0 ltac:(discriminate) HN E0) as C0. pose proof (get_cost_consistent _ _ _ _ HI V1 ltac:(discriminate) HN E1) as C1.
  rewrite <- Em in C1.
  rewrite (H 4%Z 2%Z 10%Z one_by_one 6 six_pick six_X 1 six None Robust 10%Z (Fin 1) [0]%Z r x0 x1 four_rounding (one_by_one_summation 6) ltac:(cbn; lia) ltac:(lia) HI HF HP eq_refl ltac:(discriminate)
    HS Er C0 C1) in HX. discriminate HX.
Qed.
Print Assumptions C153_exact_cost_never_increases_refuted.

(* the bound for the six samples: at most 6 additions deep, each with a relative error of 1/16 at most *)
Example C154_ex : exists x0 x q0 q, consistent six_X six [0]%Z x0 /\ consistent six_X six [1]%Z x /\ c_total x0 = Fin q0 /\ c_total x = Fin q /\
    (qpow (15 # 16) 12 * q <= qpow (17 # 16) 12 * (q0 + (7 # 8)) + (7 # 8))%Q.
Proof.
  destruct six_ok as (HI & HF & HP & HS). destruct C153_ex as (r & c0 & Er & Cc & Em & _ & Ef & _).
  assert (HN : dist_no_nan six_X six) by (intros a b Ha Hb; specialize (HF a b Ha Hb); destruct (sample_dist six_X six a b); auto; discriminate).
  assert (V1 : valid_indices six_X [1]%Z) by (intros i [ <- | [] ]; cbn; lia). pose proof HS as (_ & _ & _ & V0).
  pose proof six_exact as HX. destruct (get_cost six_X six (mk six_X [0]%Z)) as [ x0 | ] eqn:E0; [ | destruct HX ].
  destruct (get_cost six_X six (mk six_X [1]%Z)) as [ x1 | ] eqn:E1; [ | destruct HX ].
  pose proof (get_cost_consistent _ _ _ _ HI V0 ltac:(discriminate) HN E0) as C0. pose proof (get_cost_consistent _ _ _ _ HI V1 ltac:(discriminate) HN E1) as C1.
  exists x0, x1. assert (Hf : is_fin (c_total c0) = true) by (destruct (c_total c0); try discriminate Ef; reflexivity).
  pose proof C1 as C1'. rewrite <- Em in C1'.
  assert (Acc : accurate (/ inject_Z (2 ^ 4)) ((1 # 2) / inject_Z (2 ^ 2)) four_digits) by (apply float_accurate; lia).
  assert (Hu : (0 <= / inject_Z (2 ^ 4) <= 1)%Q) by (split; vm_compute; discriminate). assert (He : (0 <= (1 # 2) / inject_Z (2 ^ 2))%Q) by (vm_compute; discriminate).
  destruct (C154_exact_cost (/ inject_Z (2 ^ 4)) ((1 # 2) / inject_Z (2 ^ 2)) four_digits one_by_one 6 6 six_pick six_X 1 six None Robust 10%Z (Fin 1) [0]%Z r c0 x0 x1 Hu He
    four_rounding Acc (one_by_one_summation 6) ltac:(cbn; lia) ltac:(lia) HI HF HP eq_refl ltac:(discriminate) HS Er Cc Hf C0 C1') as (q0 & q & Q0 & Q1 & _ & B).
  exists q0, q. split; [ exact C0 | ]. split; [ exact C1 | ]. split; [ exact Q0 | ]. split; [ exact Q1 | ].
  assert (A1 : (qpow (1 - / inject_Z (2 ^ 4)) (6 + 6) == qpow (15 # 16) 12)%Q) by reflexivity.
  assert (A2 : (qpow (1 + / inject_Z (2 ^ 4)) (6 + 6) == qpow (17 # 16) 12)%Q) by reflexivity.
  assert (A3 : ((1 # 2) / inject_Z (2 ^ 2) * inject_Z (Z.of_nat (length six_X + 1)) == 7 # 8)%Q) by reflexivity.
  rewrite A1, A2, A3 in B. exact B.
Qed.
