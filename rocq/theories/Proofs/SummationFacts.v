(** How far a sum formed in floating point is from the exact one. *)
From Coq Require Import Lia Lqa QArith Qabs Qpower Permutation.
From Verif Require Import Base.Py Base.PyFacts Base.Arr Base.Float Base.FloatFacts Model.KMedoids Model.Rounded Model.RoundedErrors Model.KMedoidsRounded
  Spec.Medoids Spec.Rounded Spec.KMedoidsRounded Proofs.KMedoidsFacts Proofs.RoundedFacts.
From Coq Require Import ZifyBool ZifyNat.
Local Close Scope Q_scope.
Local Open Scope nat_scope.

Lemma qpow_pos x n : (0 <= x)%Q -> (0 <= qpow x n)%Q.
Proof. intros H. induction n as [ | n IH ]; cbn; [ lra | ]. apply Qmult_le_0_compat; assumption. Qed.
Lemma qpow_ge1 x n : (1 <= x)%Q -> (1 <= qpow x n)%Q.
Proof. intros H. induction n as [ | n IH ]; cbn; [ lra | ]. nra. Qed.
Lemma qpow_le1 x n : (0 <= x <= 1)%Q -> (qpow x n <= 1)%Q.
Proof. intros H. induction n as [ | n IH ]; cbn; [ lra | ]. pose proof (qpow_pos x n ltac:(lra)). nra. Qed.
Lemma qpow_add x n m : (qpow x (n + m) == qpow x n * qpow x m)%Q.
Proof. induction n as [ | n IH ]; cbn; [ ring | ]. rewrite IH. ring. Qed.

Section Sum.
Variables (u e : Q) (rnd : Q -> fnum).
Hypothesis Hu : (0 <= u <= 1)%Q.
Hypothesis He : (0 <= e)%Q.
Hypothesis HR : rounding rnd.
Hypothesis HA : accurate u e rnd.

Lemma add_bounds a b : (0 <= a)%Q -> (0 <= b)%Q ->
  radd rnd (Fin a) (Fin b) = PInf \/ exists r, radd rnd (Fin a) (Fin b) = Fin r /\ (0 <= r)%Q /\ ((1 - u) * (a + b) - e <= r <= (1 + u) * (a + b) + e)%Q.
Proof using HR HA.
  intros Pa Pb. unfold radd. cbn [fadd rounded]. pose proof (rnd_nonneg rnd HR (a + b)%Q ltac:(lra)) as P.
  destruct (HA (a + b)%Q) as [ I | (r & E & B) ].
  - left. destruct (rnd (a + b)%Q); cbn in I, P; try discriminate. reflexivity.
  - right. exists r. rewrite E in *. apply fle_Fin in P. split; [ reflexivity | ]. split; [ exact P | ].
    rewrite (Qabs_pos (a + b)) in B by lra. apply Qabs_Qle_condition in B. lra.
Qed.

(** the sum formed in one order, against the sum of the terms at the positions it takes *)
Lemma sum_bounds (l : list fnum) (q : nat -> Q) : forall o,
  (forall i, In i (positions o) -> nth i l (Fin 0) = Fin (q i) /\ (0 <= q i)%Q) ->
  sum_in rnd o l = PInf \/
  exists r, sum_in rnd o l = Fin r /\ (0 <= r)%Q /\
    forall h, height o <= h ->
      (qpow (1 - u) h * qsum (map q (positions o)) - e * inject_Z (Z.of_nat (additions o)) <= r)%Q /\
      (r <= qpow (1 + u) h * (qsum (map q (positions o)) + e * inject_Z (Z.of_nat (additions o))))%Q.
Proof using Hu He HR HA.
  assert (QN : forall o, (forall i, In i (positions o) -> nth i l (Fin 0) = Fin (q i) /\ (0 <= q i)%Q) -> (0 <= qsum (map q (positions o)))%Q).
  { intros o. generalize (positions o). intros p Hp. induction p as [ | i p IH ]; cbn; [ lra | ].
    specialize (IH (fun i Hi => Hp i (or_intror Hi))). destruct (Hp i (or_introl eq_refl)). lra. }
  assert (AN : forall n, (0 <= inject_Z (Z.of_nat n))%Q) by (intros n; change 0%Q with (inject_Z 0); rewrite <- Zle_Qle; lia).
  induction o as [ | i | a IHa b IHb ]; intros Hp; cbn [sum_in positions additions].
  - right. exists 0%Q. split; [ reflexivity | ]. split; [ lra | ]. intros h _. cbn [map qsum]. change (inject_Z (Z.of_nat 0)) with 0%Q.
    pose proof (qpow_pos (1 + u) h ltac:(lra)). split; lra.
  - destruct (Hp i (or_introl eq_refl)) as [ E P ]. right. exists (q i). split; [ exact E | ]. split; [ exact P | ]. intros h _. cbn [map qsum].
    change (inject_Z (Z.of_nat 0)) with 0%Q. pose proof (qpow_le1 (1 - u) h ltac:(lra)). pose proof (qpow_ge1 (1 + u) h ltac:(lra)). split; nra.
  - assert (Pa : forall i, In i (positions a) -> nth i l (Fin 0) = Fin (q i) /\ (0 <= q i)%Q) by (intros; apply Hp; cbn; apply in_or_app; auto).
    assert (Pb : forall i, In i (positions b) -> nth i l (Fin 0) = Fin (q i) /\ (0 <= q i)%Q) by (intros; apply Hp; cbn; apply in_or_app; auto).
    specialize (IHa Pa). specialize (IHb Pb).
    destruct IHa as [ -> | (ra & Ea & Na & Ba) ]; [ left; destruct IHb as [ -> | (rb & -> & _) ]; reflexivity | ].
    destruct IHb as [ -> | (rb & Eb & Nb & Bb) ]; [ left; rewrite Ea; reflexivity | ].
    rewrite Ea, Eb. destruct (add_bounds ra rb Na Nb) as [ H | (r & E & P & B1 & B2) ]; [ left; exact H | right ].
    exists r. split; [ exact E | ]. split; [ exact P | ]. intros h Hh. cbn [height] in Hh. destruct h as [ | h ]; [ lia | ].
    destruct (Ba h ltac:(lia)) as [ La Ua ]. destruct (Bb h ltac:(lia)) as [ Lb Ub ]. clear Ba Bb.
    rewrite map_app, qsum_app. set (Sa := qsum (map q (positions a))) in *. set (Sb := qsum (map q (positions b))) in *.
    assert (Ec : (inject_Z (Z.of_nat (S (additions a + additions b))) == 1 + inject_Z (Z.of_nat (additions a)) + inject_Z (Z.of_nat (additions b)))%Q).
    { change 1%Q with (inject_Z 1). rewrite <- !inject_Z_plus. replace (Z.of_nat (S (additions a + additions b))) with (1 + Z.of_nat (additions a) + Z.of_nat (additions b))%Z by lia. reflexivity. }
    rewrite Ec. set (na := inject_Z (Z.of_nat (additions a))) in *. set (nb := inject_Z (Z.of_nat (additions b))) in *.
    pose proof (AN (additions a)) as Ga. pose proof (AN (additions b)) as Gb. fold na nb in Ga, Gb.
    pose proof (QN a Pa) as Ha. pose proof (QN b Pb) as Hb. fold Sa Sb in Ha, Hb.
    cbn [qpow]. pose proof (qpow_pos (1 - u) h ltac:(lra)) as Pm. pose proof (qpow_ge1 (1 + u) h ltac:(lra)) as Pp.
    set (wm := qpow (1 - u) h) in *. set (wp := qpow (1 + u) h) in *.
    assert (Ea' : (0 <= e * na)%Q) by (apply Qmult_le_0_compat; assumption). assert (Eb' : (0 <= e * nb)%Q) by (apply Qmult_le_0_compat; assumption).
    set (xa := (e * na)%Q) in *. set (xb := (e * nb)%Q) in *.
    assert (Ex : (e * (1 + na + nb) == e + xa + xb)%Q) by (unfold xa, xb; ring). rewrite Ex. clearbody xa xb. clear Ex Ec.
    split.
    + assert (H1 : ((1 - u) * (wm * (Sa + Sb) - (xa + xb)) <= (1 - u) * (ra + rb))%Q).
      { rewrite (Qmult_comm (1 - u)), (Qmult_comm (1 - u)). apply Qmult_le_compat_r; lra. }
      assert (H2 : (0 <= u * (xa + xb))%Q) by (apply Qmult_le_0_compat; lra). lra.
    + assert (H1 : ((1 + u) * (ra + rb) <= (1 + u) * (wp * (Sa + Sb + xa + xb)))%Q).
      { rewrite (Qmult_comm (1 + u)), (Qmult_comm (1 + u)). apply Qmult_le_compat_r; lra. }
      assert (H2 : (e <= (1 + u) * wp * e)%Q). { assert (1 <= (1 + u) * wp)%Q by nra. nra. } lra.
Qed.

Lemma qsum_perm l l' : Permutation l l' -> (qsum l == qsum l')%Q.
Proof. induction 1; cbn; lra. Qed.

Lemma sum_by_bounds ord N h (ql : list Q) (l : list fnum) : summation ord N h -> length ql <= N -> l = map Fin ql -> (forall v, In v ql -> (0 <= v)%Q) ->
  sum_by rnd ord l = PInf \/
  exists r, sum_by rnd ord l = Fin r /\ (0 <= r)%Q /\
    (qpow (1 - u) h * qsum ql - e * inject_Z (Z.of_nat (length ql)) <= r)%Q /\
    (r <= qpow (1 + u) h * (qsum ql + e * inject_Z (Z.of_nat (length ql))))%Q.
Proof using Hu He HR HA.
  intros Ho HNl -> Hq. destruct (Ho (length ql) HNl) as (Hp & Hn & Hh). unfold sum_by. rewrite map_length.
  assert (Hpos : forall i, In i (positions (ord (length ql))) -> nth i (map Fin ql) (Fin 0) = Fin (nth i ql 0%Q) /\ (0 <= nth i ql 0)%Q).
  { intros i Hi. apply (Permutation_in _ Hp) in Hi. apply in_seq in Hi. split; [ apply map_nth | ]. apply Hq, nth_In. lia. }
  destruct (sum_bounds (map Fin ql) (fun i => nth i ql 0%Q) _ Hpos) as [ H | (r & E & P & B) ]; [ left; exact H | right ].
  exists r. split; [ exact E | ]. split; [ exact P | ]. destruct (B h Hh) as [ B1 B2 ]. clear B.
  assert (Es : (qsum (map (fun i => nth i ql 0%Q) (positions (ord (length ql)))) == qsum ql)%Q).
  { rewrite (qsum_perm _ _ (Permutation_map (fun i => nth i ql 0%Q) Hp)). rewrite <- (map_nth_seq (fun v => v) ql 0%Q), map_id. reflexivity. }
  rewrite Es in B1, B2. assert (Hz : (inject_Z (Z.of_nat (additions (ord (length ql)))) <= inject_Z (Z.of_nat (length ql)))%Q) by (rewrite <- Zle_Qle; lia).
  assert (Hm : (e * inject_Z (Z.of_nat (additions (ord (length ql)))) <= e * inject_Z (Z.of_nat (length ql)))%Q).
  { rewrite (Qmult_comm e), (Qmult_comm e). apply Qmult_le_compat_r; assumption. }
  set (A := (e * inject_Z (Z.of_nat (additions (ord (length ql)))))%Q) in *. set (B := (e * inject_Z (Z.of_nat (length ql)))%Q) in *. clearbody A B.
  split; [ lra | ]. eapply Qle_trans; [ exact B2 | ]. rewrite (Qmult_comm (qpow _ _)), (Qmult_comm (qpow _ _)).
  apply Qmult_le_compat_r; [ lra | ]. apply qpow_pos. lra.
Qed.
End Sum.

(* ---------- the total of a clustering ---------- *)
Definition nonnegf (v : fnum) : Prop := v = PInf \/ exists q, v = Fin q /\ (0 <= q)%Q.
Section Total.
Variables (u e : Q) (rnd : Q -> fnum).
Hypothesis Hu : (0 <= u <= 1)%Q.
Hypothesis He : (0 <= e)%Q.
Hypothesis HR : rounding rnd.
Hypothesis HA : accurate u e rnd.

(** a sum with an infinite term is infinite *)
Lemma sum_infinite (l : list fnum) : forall o, (forall i, In i (positions o) -> nonnegf (nth i l (Fin 0))) ->
  nonnegf (sum_in rnd o l) /\ ((exists i, In i (positions o) /\ nth i l (Fin 0) = PInf) -> sum_in rnd o l = PInf).
Proof using HR HA.
  induction o as [ | i | a IHa b IHb ]; intros Hp; cbn [sum_in positions].
  - split; [ right; exists 0%Q; split; [ reflexivity | lra ] | ]. intros (i & [] & _).
  - split; [ apply Hp; left; reflexivity | ]. intros (j & [ <- | [] ] & E). exact E.
  - destruct IHa as [ Na Ia ]; [ intros; apply Hp; cbn; apply in_or_app; auto | ]. destruct IHb as [ Nb Ib ]; [ intros; apply Hp; cbn; apply in_or_app; auto | ].
    split.
    + destruct Na as [ -> | (qa & -> & Pa) ]; destruct Nb as [ -> | (qb & -> & Pb) ]; try (left; reflexivity).
      destruct (add_bounds u e rnd HR HA qa qb Pa Pb) as [ -> | (r & -> & P & _) ]; [ left; reflexivity | right; eauto ].
    + intros (i & Hi & E). apply in_app_or in Hi. destruct Hi as [ Hi | Hi ].
      * rewrite Ia by eauto. destruct Nb as [ -> | (qb & -> & _) ]; reflexivity.
      * rewrite Ib by eauto. destruct Na as [ -> | (qa & -> & _) ]; reflexivity.
Qed.
Lemma sum_by_finite ord N h l r : summation ord N h -> length l <= N -> (forall v, In v l -> nonnegf v) -> sum_by rnd ord l = Fin r ->
  exists ql, l = map Fin ql /\ forall v, In v ql -> (0 <= v)%Q.
Proof using HR HA.
  intros Ho HNl Hl E. destruct (Ho (length l) HNl) as (Hp & _). unfold sum_by in E.
  destruct (sum_infinite l (ord (length l))) as [ _ I ].
  { intros i Hi. apply (Permutation_in _ Hp) in Hi. apply in_seq in Hi. apply Hl, nth_In. lia. }
  assert (F : forall v, In v l -> exists q, v = Fin q /\ (0 <= q)%Q).
  { intros v Hv. destruct (Hl v Hv) as [ -> | H ]; [ exfalso | exact H ]. apply (In_nth _ _ (Fin 0)) in Hv. destruct Hv as (i & Hi & Ei).
    rewrite I in E; [ discriminate | ]. exists i. split; [ | exact Ei ]. apply (Permutation_in _ (Permutation_sym Hp)). apply in_seq. lia. }
  clear - F. induction l as [ | v l IH ]; [ exists []; split; [ reflexivity | intros ? [] ] | ].
  destruct (IH (fun w Hw => F w (or_intror Hw))) as (ql & -> & P). destruct (F v (or_introl eq_refl)) as (q & -> & Pq).
  exists (q :: ql). split; [ reflexivity | ]. intros w [ <- | Hw ]; auto.
Qed.
Lemma kept_length {A} (f : A -> bool) l : length (filter f l) <= length l.
Proof. induction l as [ | a l IH ]; cbn; [ lia | ]. destruct (f a); cbn; lia. Qed.
Lemma length_qsum {A} (l : list A) : (inject_Z (Z.of_nat (length l)) == qsum (map (fun _ => 1%Q) l))%Q.
Proof. induction l as [ | a l IH ]; [ reflexivity | ]. cbn [map qsum]. rewrite <- IH. change 1%Q with (inject_Z 1). rewrite <- inject_Z_plus. cbn [length]. replace (Z.of_nat (S (length l))) with (1 + Z.of_nat (length l))%Z by lia. reflexivity. Qed.
Lemma map_qsum_le {A} (f g : A -> Q) l : (forall x, In x l -> (f x <= g x)%Q) -> (qsum (map f l) <= qsum (map g l))%Q.
Proof. induction l as [ | a l IH ]; intros H; cbn; [ lra | ]. pose proof (H a (or_introl eq_refl)). specialize (IH (fun x Hx => H x (or_intror Hx))). lra. Qed.
Lemma qsum_scale {A} (f : A -> Q) x l : (qsum (map (fun a => x * f a) l) == x * qsum (map f l))%Q.
Proof. induction l as [ | a l IH ]; cbn; [ ring | ]. rewrite IH. ring. Qed.

Lemma total_bounds ord N h X D ms c x : summation ord N h -> length X <= N -> length ms <= N -> valid_indices X ms -> dist_finite X D ->
  (forall a b, a < length X -> b < length X -> fle (Fin 0) (sample_dist X D a b) = true) ->
  consistent_by (sum_by rnd ord) X D ms c -> consistent X D ms x ->
  c_total c = PInf \/
  exists T q, c_total c = Fin T /\ c_total x = Fin q /\ (0 <= q)%Q /\
    (qpow (1 - u) (h + h) * q - e * inject_Z (Z.of_nat (length X + length ms)) <= T)%Q /\
    (T <= qpow (1 + u) (h + h) * (q + e * inject_Z (Z.of_nat (length X + length ms))))%Q.
Proof using Hu He HR HA.
  intros Ho HN1 HN2 HV HF Hpos (A1 & A2 & A3 & A4 & _) (B1 & B2 & B3 & B4 & _).
  assert (L : c_labels c = c_labels x).
  { apply nth_ext with (d := length ms) (d' := length ms); [ congruence | ]. intros i Hi. rewrite A1 in Hi. eapply nearest_unique; eauto. }
  rewrite <- L in *. set (lab := fun i => nth i (c_labels c) (length ms)) in *.
  assert (F : forall j i, j < length ms -> i < length X -> dist_j X D ms j i = Fin (qof (dist_j X D ms j i)) /\ (0 <= qof (dist_j X D ms j i))%Q).
  { intros j i Hj Hi. pose proof (HV _ (nth_In _ 0%Z Hj)) as Hz. assert (H1 : Z.to_nat (nth j ms 0%Z) < length X) by lia.
    pose proof (is_fin_qof _ (HF _ _ H1 Hi)) as E. pose proof (Hpos _ _ H1 Hi) as P. split; [ exact E | ]. unfold dist_j. rewrite E in P. apply fle_Fin in P. exact P. }
  set (mem := fun j => filter (fun i => lab i =? j)%nat (seq 0 (length X))).
  set (qd := fun j => map (fun i => qof (dist_j X D ms j i)) (mem j)).
  assert (Hm : forall j i, In i (mem j) -> i < length X) by (intros j i Hi; unfold mem in Hi; apply filter_In in Hi; destruct Hi as [ Hi _ ]; apply in_seq in Hi; lia).
  assert (Hcd : forall j, j < length ms -> cluster_dists X D ms (c_labels c) j = map Fin (qd j) /\ forall v, In v (qd j) -> (0 <= v)%Q).
  { intros j Hj. split.
    - unfold qd. rewrite map_map. unfold cluster_dists. apply map_ext_in. intros i Hi. apply F; [ exact Hj | apply (Hm j); exact Hi ].
    - intros v Hv. unfold qd in Hv. apply in_map_iff in Hv. destruct Hv as (i & <- & Hi). apply F; [ exact Hj | eapply Hm; exact Hi ]. }
  assert (Hql : forall j, j < length ms -> length (qd j) <= N).
  { intros j _. unfold qd, mem. rewrite map_length. eapply Nat.le_trans; [ apply kept_length | ]. rewrite seq_length. exact HN1. }
  assert (Hx : exists q, c_total x = Fin q /\ (q == qsum (map (fun j => qsum (qd j)) (seq 0 (length ms))))%Q).
  { assert (E : feqv (c_total x) (Fin (qsum (map (fun j => qsum (qd j)) (seq 0 (length ms)))))).
    { rewrite B4, B3. apply feqv_fsum_map. intros j Hj. apply in_seq in Hj. destruct (Hcd j ltac:(lia)) as [ -> _ ]. apply fsum_fin. }
    destruct (c_total x) as [ | | | q ]; cbn in E; try contradiction. eauto. }
  destruct Hx as (q & Eq & Hq).
  assert (Hcost : forall j, j < length ms -> nonnegf (sum_by rnd ord (cluster_dists X D ms (c_labels c) j))).
  { intros j Hj. destruct (Hcd j Hj) as [ E P ]. destruct (sum_by_bounds u e rnd Hu He HR HA ord N h _ _ Ho (Hql j ltac:(lia)) E P) as [ H | (r & H & Hr & _) ]; [ left; exact H | right; eauto ]. }
  assert (Hcn : forall v, In v (c_costs c) -> nonnegf v).
  { intros v Hv. rewrite A3 in Hv. apply in_map_iff in Hv. destruct Hv as (j & <- & Hj). apply in_seq in Hj. apply Hcost. lia. }
  assert (LN : length (c_costs c) <= N) by (rewrite A3, map_length, seq_length; exact HN2).
  assert (NN : nonnegf (c_total c)).
  { rewrite A4. unfold sum_by. apply sum_infinite. intros i Hi. destruct (Ho (length (c_costs c)) LN) as (Hp & _).
    apply (Permutation_in _ Hp) in Hi. apply in_seq in Hi. apply Hcn, nth_In. lia. }
  destruct NN as [ NN | (T & ET & _) ]; [ left; exact NN | ]. rewrite ET.
  right. exists T, q. split; [ reflexivity | ]. split; [ exact Eq | ].
  assert (Hq0 : forall j, In j (seq 0 (length ms)) -> (0 <= qsum (qd j))%Q).
  { intros j Hj. apply in_seq in Hj. destruct (Hcd j ltac:(lia)) as [ _ P ]. revert P. generalize (qd j). intros l P. induction l as [ | v l IH ]; cbn; [ lra | ].
    pose proof (P v (or_introl eq_refl)). specialize (IH (fun w Hw => P w (or_intror Hw))). lra. }
  split. { rewrite Hq. pose proof (map_qsum_le (fun _ => 0%Q) _ _ Hq0) as H. pose proof (qsum_zero (seq 0 (length ms))) as Z0. rewrite Z0 in H. exact H. }
  rewrite A4 in ET. destruct (sum_by_finite ord N h _ _ Ho LN Hcn ET) as (qc & Eqc & Pqc).
  assert (Lc : length qc = length ms). { apply (f_equal (@List.length _)) in Eqc. rewrite A3, !map_length, seq_length in Eqc. congruence. }
  assert (LNq : length qc <= N) by lia.
  destruct (sum_by_bounds u e rnd Hu He HR HA ord N h _ _ Ho LNq Eqc Pqc) as [ H | (r & H & _ & L1 & U1) ]; [ congruence | ]. rewrite ET in H. injection H as <-.
  assert (Eqc' : qc = map (fun j => nth j qc 0%Q) (seq 0 (length ms))) by (rewrite <- Lc, <- (map_nth_seq (fun v => v) qc 0%Q), map_id; reflexivity).
  assert (Hj : forall j, In j (seq 0 (length ms)) ->
            (qpow (1 - u) h * qsum (qd j) + - e * inject_Z (Z.of_nat (length (mem j))) <= nth j qc 0)%Q /\
            (nth j qc 0 <= qpow (1 + u) h * qsum (qd j) + qpow (1 + u) h * e * inject_Z (Z.of_nat (length (mem j))))%Q).
  { intros j Hj. apply in_seq in Hj. destruct (Hcd j ltac:(lia)) as [ E P ].
    assert (En : nth j (c_costs c) NaN = Fin (nth j qc 0%Q)).
    { rewrite Eqc. rewrite (nth_map_lt Fin qc j NaN 0%Q) by lia. reflexivity. }
    rewrite A3 in En. rewrite (nth_map_lt _ _ _ _ 0) in En by (rewrite seq_length; lia). rewrite seq_nth in En by lia. cbn [plus] in En.
    destruct (sum_by_bounds u e rnd Hu He HR HA ord N h _ _ Ho (Hql j ltac:(lia)) E P) as [ H | (r & H & _ & L2 & U2) ]; [ congruence | ]. rewrite En in H. injection H as <-.
    assert (Ll : length (qd j) = length (mem j)) by (unfold qd; apply map_length). rewrite Ll in *. split; lra. }
  assert (Hn : (qsum (map (fun j => inject_Z (Z.of_nat (length (mem j)))) (seq 0 (length ms))) == inject_Z (Z.of_nat (length X)))%Q).
  { rewrite (qsum_ext _ (fun j => qsum (map (fun _ => 1%Q) (mem j)))) by (intros; apply length_qsum).
    unfold mem. rewrite (qsum_by_label lab (fun _ _ => 1%Q)).
    - rewrite <- (length_qsum (seq 0 (length X))), seq_length. reflexivity.
    - intros i Hi. apply in_seq in Hi. apply A2. lia. }
  pose proof (map_qsum_le _ _ _ (fun j H => proj1 (Hj j H))) as LL. pose proof (map_qsum_le _ _ _ (fun j H => proj2 (Hj j H))) as UU.
  rewrite <- Eqc' in LL, UU. rewrite qsum_plus, !qsum_scale in LL, UU. rewrite <- Hq, Hn in LL, UU. rewrite Lc in L1, U1.
  rewrite !qpow_add. rewrite Nat2Z.inj_add, inject_Z_plus.
  set (n := inject_Z (Z.of_nat (length X))) in *. set (k := inject_Z (Z.of_nat (length ms))) in *.
  assert (Pn : (0 <= n)%Q) by (unfold n; change 0%Q with (inject_Z 0); rewrite <- Zle_Qle; lia). assert (Pk : (0 <= k)%Q) by (unfold k; change 0%Q with (inject_Z 0); rewrite <- Zle_Qle; lia).
  assert (En : (0 <= e * n)%Q) by (apply Qmult_le_0_compat; assumption). assert (Ek : (0 <= e * k)%Q) by (apply Qmult_le_0_compat; assumption).
  pose proof (qpow_pos (1 - u) h ltac:(lra)) as P1. pose proof (qpow_le1 (1 - u) h ltac:(lra)) as P2. pose proof (qpow_ge1 (1 + u) h ltac:(lra)) as P3.
  set (wm := qpow (1 - u) h) in *. set (wp := qpow (1 + u) h) in *. clearbody wm wp. set (S0 := qsum qc) in *. clearbody S0.
  assert (Ee : (e * (n + k) == e * n + e * k)%Q) by ring. rewrite Ee.
  assert (E1 : (- e * n == - (e * n))%Q) by ring. rewrite E1 in LL. assert (E2 : (wp * e * n == wp * (e * n))%Q) by ring. rewrite E2 in UU.
  set (en := (e * n)%Q) in *. set (ek := (e * k)%Q) in *. clearbody en ek.
  split.
  - assert (H1 : (wm * (wm * q - en) <= wm * S0)%Q) by (rewrite (Qmult_comm wm), (Qmult_comm wm S0); apply Qmult_le_compat_r; lra).
    assert (H2 : (0 <= (1 - wm) * en)%Q) by (apply Qmult_le_0_compat; lra). lra.
  - assert (H1 : (wp * S0 <= wp * (wp * q + wp * en))%Q) by (rewrite (Qmult_comm wp), (Qmult_comm wp (_ + _)); apply Qmult_le_compat_r; lra).
    assert (H2 : (0 <= wp * ((wp - 1) * ek))%Q) by (apply Qmult_le_0_compat; [ lra | apply Qmult_le_0_compat; lra ]). lra.
Qed.
End Total.
