(** Facts for Model/FuzzyRounded.v. *)
From Coq Require Import Lia Lqa QArith Qabs Permutation.
From Verif Require Import Base.Py Base.PyFacts Base.Arr Base.ArrFacts Base.Float Base.FloatFacts Model.KMedoids Model.KMedoidsFuzzy Model.Rounded Model.RoundedErrors Model.FuzzyRounded
  Spec.Medoids Spec.Rounded Spec.KMedoidsRounded Spec.FuzzyRounded Proofs.KMedoidsFacts Proofs.RoundedFacts Proofs.SummationFacts Proofs.KMedoidsFuzzyFacts.
From Coq Require Import ZifyBool ZifyNat.
Local Close Scope Q_scope.
Local Open Scope nat_scope.

Definition nq (n : nat) : Q := inject_Z (Z.of_nat n).
Lemma nq_S n : (nq (S n) == 1 + nq n)%Q.
Proof. unfold nq. change 1%Q with (inject_Z 1). rewrite <- inject_Z_plus. replace (Z.of_nat (S n)) with (1 + Z.of_nat n)%Z by lia. reflexivity. Qed.
Lemma nq_pos n : (0 <= nq n)%Q.
Proof. unfold nq. change 0%Q with (inject_Z 0). rewrite <- Zle_Qle. lia. Qed.

Lemma qpow_bernoulli u n : (0 <= u <= 1)%Q -> (1 - nq n * u <= qpow (1 - u) n)%Q.
Proof.
  intros Hu. induction n as [ | n IH ]; [ change (nq 0) with 0%Q; cbn [qpow]; lra | ]. cbn [qpow]. rewrite nq_S. pose proof (nq_pos n) as P.
  assert (H : ((1 - u) * (1 - nq n * u) <= (1 - u) * qpow (1 - u) n)%Q) by (rewrite !(Qmult_comm (1 - u)); apply Qmult_le_compat_r; lra).
  assert (H2 : (0 <= nq n * (u * u))%Q) by (apply Qmult_le_0_compat; [ exact P | apply Qmult_le_0_compat; lra ]). lra.
Qed.
Lemma qpow_inverse u n : (0 <= u <= 1)%Q -> (qpow (1 + u) n * qpow (1 - u) n <= 1)%Q.
Proof.
  intros Hu. induction n as [ | n IH ]; cbn; [ lra | ]. pose proof (qpow_pos (1 + u) n ltac:(lra)) as P1. pose proof (qpow_pos (1 - u) n ltac:(lra)) as P2.
  assert (P : (0 <= qpow (1 + u) n * qpow (1 - u) n)%Q) by (apply Qmult_le_0_compat; assumption).
  set (x := (qpow (1 + u) n * qpow (1 - u) n)%Q) in *.
  setoid_replace ((1 + u) * qpow (1 + u) n * ((1 - u) * qpow (1 - u) n))%Q with (x - u * u * x)%Q by (unfold x; ring).
  assert (0 <= u * u * x)%Q by (apply Qmult_le_0_compat; [ apply Qmult_le_0_compat; lra | exact P ]). lra.
Qed.

Section Rows.
Variables (u e : Q) (rnd : Q -> fnum).
Hypothesis Hu : (0 <= u <= 1)%Q.
Hypothesis He : (0 <= e)%Q.
Hypothesis HR : rounding rnd.
Hypothesis HA : accurate u e rnd.

(** additions one after the other *)
Lemma fold_inf l : (forall v, In v l -> nonnegf v) -> fold_left (radd rnd) l PInf = PInf.
Proof using.
  induction l as [ | v l IH ]; intros H; [ reflexivity | ]. cbn [fold_left]. destruct (H v (or_introl eq_refl)) as [ -> | (q & -> & _) ]; apply IH; intros; apply H; right; assumption.
Qed.
Lemma fold_has_inf l : forall a, nonnegf a -> (forall v, In v l -> nonnegf v) -> In PInf l -> fold_left (radd rnd) l a = PInf.
Proof using HR HA.
  induction l as [ | v l IH ]; intros a Ha H []; cbn [fold_left].
  - subst v. replace (radd rnd a PInf) with PInf; [ apply fold_inf; intros; apply H; right; assumption | ]. destruct Ha as [ -> | (q & -> & _) ]; reflexivity.
  - apply IH; [ | intros; apply H; right; assumption | assumption ].
    destruct Ha as [ -> | (qa & -> & Pa) ], (H v (or_introl eq_refl)) as [ -> | (qv & -> & Pv) ]; try (left; reflexivity).
    destruct (add_bounds u e rnd HR HA qa qv Pa Pv) as [ -> | (r & -> & P & _) ]; [ left; reflexivity | right; eauto ].
Qed.
Lemma fold_bounds ql : forall a, (0 <= a)%Q -> (forall v, In v ql -> (0 <= v)%Q) ->
  fold_left (radd rnd) (map Fin ql) (Fin a) = PInf \/
  exists r, fold_left (radd rnd) (map Fin ql) (Fin a) = Fin r /\ (0 <= r)%Q /\
    (qpow (1 - u) (length ql) * (a + qsum ql) - e * nq (length ql) <= r)%Q /\
    (r <= qpow (1 + u) (length ql) * (a + qsum ql + e * nq (length ql)))%Q.
Proof using Hu He HR HA.
  induction ql as [ | v ql IH ]; intros a Ha H; cbn [map fold_left length qsum].
  - right. exists a. change (nq 0) with 0%Q. cbn [qpow]. repeat split; lra.
  - assert (Pv := H v (or_introl eq_refl)). assert (Pq : forall w, In w ql -> (0 <= w)%Q) by (intros; apply H; right; assumption).
    destruct (add_bounds u e rnd HR HA a v Ha Pv) as [ -> | (a' & -> & Pa' & B1 & B2) ].
    { left. apply fold_inf. intros w Hw. apply in_map_iff in Hw. destruct Hw as (q & <- & Hq). right. exists q. auto. }
    destruct (IH a' Pa' Pq) as [ -> | (r & -> & Pr & L & U) ]; [ left; reflexivity | right ]. exists r. split; [ reflexivity | split; [ exact Pr | ] ].
    cbn [qpow]. rewrite nq_S. pose proof (nq_pos (length ql)) as Pn. set (n := nq (length ql)) in *. set (S' := qsum ql) in *.
    assert (PS : (0 <= S')%Q). { unfold S'. clear - Pq. induction ql as [ | w ql IH ]; cbn; [ lra | ]. specialize (IH (fun x Hx => Pq x (or_intror Hx))). specialize (Pq w (or_introl eq_refl)). lra. }
    pose proof (qpow_pos (1 - u) (length ql) ltac:(lra)) as P1. pose proof (qpow_le1 (1 - u) (length ql) ltac:(lra)) as P2. pose proof (qpow_ge1 (1 + u) (length ql) ltac:(lra)) as P3.
    set (wm := qpow (1 - u) (length ql)) in *. set (wp := qpow (1 + u) (length ql)) in *. assert (Pen : (0 <= e * n)%Q) by (apply Qmult_le_0_compat; assumption).
    set (z := (e * n)%Q) in *. assert (Ez : (e * (1 + n) == e + z)%Q) by (unfold z; ring). rewrite Ez. clearbody z S' wm wp. clear IH Ez.
    split.
    + assert (H1 : (wm * ((1 - u) * (a + v) - e + S') <= wm * (a' + S'))%Q) by (rewrite !(Qmult_comm wm); apply Qmult_le_compat_r; lra).
      assert (H2 : (0 <= wm * (u * S'))%Q) by (apply Qmult_le_0_compat; [ exact P1 | apply Qmult_le_0_compat; lra ]).
      assert (H3 : (0 <= (1 - wm) * e)%Q) by (apply Qmult_le_0_compat; lra). lra.
    + assert (H1 : (wp * (a' + S' + z) <= wp * ((1 + u) * (a + v) + e + S' + z))%Q) by (rewrite !(Qmult_comm wp); apply Qmult_le_compat_r; lra).
      assert (H2 : (0 <= wp * (u * (S' + e + z)))%Q) by (apply Qmult_le_0_compat; [ lra | apply Qmult_le_0_compat; lra ]). lra.
Qed.

Lemma qsum_nonneg ql : (forall v, In v ql -> (0 <= v)%Q) -> (0 <= qsum ql)%Q.
Proof using. induction ql as [ | w ql IH ]; intros Pq; cbn; [ lra | ]. specialize (IH (fun x Hx => Pq x (or_intror Hx))). specialize (Pq w (or_introl eq_refl)). lra. Qed.

(** no overflow in a sum that is small *)
Hypothesis Hsmall : forall q, (Qabs q <= 4)%Q -> is_fin (rnd q) = true.
Lemma sum_in_small (l : list fnum) (q : nat -> Q) h : forall o, height o <= h ->
  (forall i, In i (positions o) -> nth i l (Fin 0) = Fin (q i) /\ (0 <= q i)%Q) ->
  (qpow (1 + u) h * (qsum (map q (positions o)) + e * nq (additions o)) <= 2)%Q -> is_fin (sum_in rnd o l) = true.
Proof using Hu He HR HA Hsmall.
  induction o as [ | i | a IHa b IHb ]; intros Hh Hp HB; cbn [sum_in].
  - reflexivity.
  - destruct (Hp i (or_introl eq_refl)) as [ -> _ ]. reflexivity.
  - cbn [height positions additions] in *. rewrite map_app, qsum_app, nq_S in HB.
    assert (En : (nq (additions a + additions b) == nq (additions a) + nq (additions b))%Q).
    { unfold nq. rewrite Nat2Z.inj_add, inject_Z_plus. reflexivity. }
    rewrite En in HB. clear En.
    assert (Pa : forall i, In i (positions a) -> nth i l (Fin 0) = Fin (q i) /\ (0 <= q i)%Q) by (intros; apply Hp; cbn; apply in_or_app; auto).
    assert (Pb : forall i, In i (positions b) -> nth i l (Fin 0) = Fin (q i) /\ (0 <= q i)%Q) by (intros; apply Hp; cbn; apply in_or_app; auto).
    assert (Na : (0 <= qsum (map q (positions a)))%Q) by (apply qsum_nonneg; intros v Hv; apply in_map_iff in Hv; destruct Hv as (i & <- & Hi); apply Pa, Hi).
    assert (Nb : (0 <= qsum (map q (positions b)))%Q) by (apply qsum_nonneg; intros v Hv; apply in_map_iff in Hv; destruct Hv as (i & <- & Hi); apply Pb, Hi).
    pose proof (Qmult_le_0_compat _ _ He (nq_pos (additions a))) as Xa. pose proof (Qmult_le_0_compat _ _ He (nq_pos (additions b))) as Xb.
    pose proof (qpow_pos (1 + u) h ltac:(lra)) as Pw.
    assert (Ba : (qpow (1 + u) h * (qsum (map q (positions a)) + e * nq (additions a)) <= 2)%Q).
    { eapply Qle_trans; [ | exact HB ]. rewrite !(Qmult_comm (qpow _ _)). apply Qmult_le_compat_r; [ lra | exact Pw ]. }
    assert (Bb : (qpow (1 + u) h * (qsum (map q (positions b)) + e * nq (additions b)) <= 2)%Q).
    { eapply Qle_trans; [ | exact HB ]. rewrite !(Qmult_comm (qpow _ _)). apply Qmult_le_compat_r; [ lra | exact Pw ]. }
    specialize (IHa ltac:(lia) Pa Ba). specialize (IHb ltac:(lia) Pb Bb).
    destruct (sum_bounds u e rnd Hu He HR HA l q a Pa) as [ E | (ra & Ea & Ra & La) ]; [ rewrite E in IHa; discriminate | ].
    destruct (sum_bounds u e rnd Hu He HR HA l q b Pb) as [ E | (rb & Eb & Rb & Lb) ]; [ rewrite E in IHb; discriminate | ].
    destruct (La h ltac:(lia)) as [ _ Ua ]. destruct (Lb h ltac:(lia)) as [ _ Ub ]. fold (nq (additions a)) in Ua. fold (nq (additions b)) in Ub.
    rewrite Ea, Eb. apply Hsmall. rewrite Qabs_pos; lra.
Qed.

(** a row whose entries nearly add up to one has a computed sum near one *)
Lemma row_sum_near ord N h (ql : list Q) s0 v : summation ord N h -> length ql <= N -> (forall x, In x ql -> (0 <= x)%Q) ->
  (0 <= v)%Q -> (nq h * u + v <= 1 # 2)%Q -> (1 - v <= s0)%Q -> ((1 - v) * s0 <= 1)%Q ->
  let z := (e * nq (length ql))%Q in
  ((1 - u) * s0 - z <= qsum ql)%Q -> (qsum ql <= (1 + u) * s0 + z)%Q ->
  let w := (nq h * u + v + u + 2 * z)%Q in (w <= 1 # 2)%Q ->
  exists r, sum_by rnd ord (map Fin ql) = Fin r /\ (Qabs (r - 1) <= 2 * w)%Q.
Proof using Hu He HR HA Hsmall.
  intros Ho HN Hq Hv Hx L0 U0 z LT UT w Hw. set (T := qsum ql) in *. pose proof (nq_pos h) as Ph. pose proof (qsum_nonneg ql Hq) as PT. fold T in PT.
  assert (Pz : (0 <= z)%Q) by (apply Qmult_le_0_compat; [ exact He | apply nq_pos ]).
  assert (Phu : (0 <= nq h * u)%Q) by (apply Qmult_le_0_compat; lra).
  pose proof (qpow_bernoulli u h Hu) as Bb. pose proof (qpow_inverse u h Hu) as Bi. pose proof (qpow_ge1 (1 + u) h ltac:(lra)) as Bp. pose proof (qpow_pos (1 - u) h ltac:(lra)) as Bm.
  set (wp := qpow (1 + u) h) in *. set (wm := qpow (1 - u) h) in *. set (x := (nq h * u)%Q) in *.
  assert (UR : (wp * (T + z) <= 1 + 2 * w)%Q).
  { set (R := (wp * (T + z))%Q). assert (PR : (0 <= R)%Q) by (apply Qmult_le_0_compat; lra).
    assert (H1 : ((1 - x) * R <= T + z)%Q).
    { unfold R. setoid_replace ((1 - x) * (wp * (T + z)))%Q with (((1 - x) * wp) * (T + z))%Q by ring.
      setoid_replace (T + z)%Q with (1 * (T + z))%Q at 2 by ring. apply Qmult_le_compat_r; [ | lra ].
      apply Qle_trans with (wm * wp)%Q; [ apply Qmult_le_compat_r; lra | lra ]. }
    assert (H2 : ((1 - v) * (T + z) <= 1 + u + 2 * z)%Q).
    { assert (A : ((1 - v) * (T + z) <= (1 - v) * ((1 + u) * s0 + 2 * z))%Q) by (rewrite !(Qmult_comm (1 - v)); apply Qmult_le_compat_r; lra).
      assert (B : ((1 + u) * ((1 - v) * s0) <= (1 + u) * 1)%Q) by (rewrite !(Qmult_comm (1 + u)); apply Qmult_le_compat_r; lra).
      assert (C : (0 <= v * z)%Q) by (apply Qmult_le_0_compat; lra). lra. }
    assert (H3 : ((1 - v) * ((1 - x) * R) <= (1 - v) * (T + z))%Q) by (rewrite !(Qmult_comm (1 - v)); apply Qmult_le_compat_r; lra).
    assert (H4 : ((1 - x - v) * R <= 1 + u + 2 * z)%Q).
    { assert (D : (0 <= x * v * R)%Q) by (apply Qmult_le_0_compat; [ apply Qmult_le_0_compat; lra | exact PR ]). lra. }
    destruct (Qlt_le_dec (1 + 2 * w) R) as [ Hlt | ]; [ exfalso | assumption ].
    assert (H5 : ((1 - x - v) * (1 + 2 * w) < (1 - x - v) * R)%Q) by (rewrite !(Qmult_comm (1 - x - v)); apply Qmult_lt_compat_r; lra).
    assert (H6 : (0 <= ((1 # 2) - x - v) * w)%Q) by (apply Qmult_le_0_compat; unfold w; lra). unfold w in *. lra. }
  assert (Hp := Ho (length ql) HN). destruct Hp as (Hp & Hn & Hh).
  assert (Hpos : forall i, In i (positions (ord (length ql))) -> nth i (map Fin ql) (Fin 0) = Fin (nth i ql 0%Q) /\ (0 <= nth i ql 0)%Q).
  { intros i Hi. apply (Permutation_in _ Hp) in Hi. apply in_seq in Hi. split; [ apply map_nth | ]. apply Hq, nth_In. lia. }
  assert (Es : (qsum (map (fun i => nth i ql 0%Q) (positions (ord (length ql)))) == qsum ql)%Q).
  { rewrite (qsum_perm _ _ (Permutation_map (fun i => nth i ql 0%Q) Hp)). rewrite <- (map_nth_seq (fun v => v) ql 0%Q), map_id. reflexivity. }
  assert (Fin_r : is_fin (sum_by rnd ord (map Fin ql)) = true).
  { unfold sum_by. rewrite map_length. apply (sum_in_small _ (fun i => nth i ql 0%Q) h _ Hh Hpos). rewrite Es.
    apply Qle_trans with (wp * (T + z))%Q; [ | lra ]. fold T. fold wp.
    assert (Ha : (e * nq (additions (ord (length ql))) <= z)%Q).
    { unfold z. rewrite !(Qmult_comm e). apply Qmult_le_compat_r; [ | exact He ]. unfold nq. rewrite <- Zle_Qle. lia. }
    rewrite !(Qmult_comm wp). apply Qmult_le_compat_r; lra. }
  destruct (sum_by_bounds u e rnd Hu He HR HA ord N h ql (map Fin ql) Ho HN eq_refl Hq) as [ E | (r & E & Pr & L & U) ]; [ rewrite E in Fin_r; discriminate | ].
  exists r. split; [ exact E | ]. fold (nq (length ql)) in L, U. fold z in L, U. fold wp in U. fold wm in L. fold T in L, U.
  apply Qabs_Qle_condition. split; [ | lra ].
  assert (H1 : ((1 - x) * T <= wm * T)%Q) by (apply Qmult_le_compat_r; assumption).
  assert (H2 : ((1 - x) * ((1 - u) * (1 - v) - z) <= (1 - x) * T)%Q).
  { assert (A : ((1 - u) * (1 - v) <= (1 - u) * s0)%Q) by (rewrite !(Qmult_comm (1 - u)); apply Qmult_le_compat_r; lra).
    rewrite !(Qmult_comm (1 - x)). apply Qmult_le_compat_r; lra. }
  assert (H3 : (0 <= x * z)%Q) by (apply Qmult_le_0_compat; assumption). assert (H4 : (0 <= u * v * (1 - x))%Q) by (apply Qmult_le_0_compat; [ apply Qmult_le_0_compat; lra | lra ]).
  assert (H5 : (0 <= x * (u + v))%Q) by (apply Qmult_le_0_compat; lra). unfold w. lra.
Qed.

(** the memberships of a sample that is no medoid *)
Lemma other_row (pl : list Q) den : pl <> [] -> (forall p, In p pl -> (0 < p)%Q /\ (e <= u * p)%Q) ->
  fold_left (radd rnd) (map Fin pl) (Fin 0) = Fin den -> let v := ((nq (length pl) + 1) * u)%Q in (v <= 1 # 2)%Q ->
  exists ql s0, map (fun p => rdiv rnd (Fin p) (Fin den)) pl = map Fin ql /\ length ql = length pl /\ (forall x, In x ql -> (0 <= x)%Q) /\
    (1 - v <= s0)%Q /\ ((1 - v) * s0 <= 1)%Q /\ let z := (e * nq (length ql))%Q in ((1 - u) * s0 - z <= qsum ql)%Q /\ (qsum ql <= (1 + u) * s0 + z)%Q.
Proof using Hu He HR HA Hsmall.
  intros Hne Hp Ed v Hv. set (S := qsum pl). set (k := length pl) in *.
  assert (PS : (0 < S)%Q).
  { destruct pl as [ | p pl ]; [ congruence | ]. unfold S. cbn [qsum]. destruct (Hp p (or_introl eq_refl)).
    pose proof (qsum_nonneg pl (fun x Hx => Qlt_le_weak _ _ (proj1 (Hp x (or_intror Hx))))). lra. }
  assert (Ek : (e * nq k <= u * S)%Q).
  { unfold k, S. clear - Hp. induction pl as [ | p pl IH ]; [ change (nq (length (@nil Q))) with 0%Q; cbn [qsum]; lra | ].
    cbn [length qsum]. rewrite nq_S. specialize (IH (fun x Hx => Hp x (or_intror Hx))). destruct (Hp p (or_introl eq_refl)). lra. }
  destruct (fold_bounds pl 0%Q ltac:(lra) (fun x Hx => Qlt_le_weak _ _ (proj1 (Hp x Hx)))) as [ E | (r & E & Pr & L & U) ]; [ rewrite Ed in E; discriminate | ].
  rewrite Ed in E. injection E as <-. fold k in L, U. fold S in L, U.
  pose proof (qpow_bernoulli u k Hu) as Bb. pose proof (qpow_inverse u k Hu) as Bi. pose proof (qpow_pos (1 + u) k ltac:(lra)) as Bp. pose proof (qpow_pos (1 - u) k ltac:(lra)) as Bm.
  assert (D1 : ((1 - v) * S <= den)%Q).
  { assert (A : ((1 - nq k * u) * S <= qpow (1 - u) k * S)%Q) by (apply Qmult_le_compat_r; lra). unfold v. lra. }
  assert (D0 : (0 < den)%Q). { assert (0 < (1 - v) * S)%Q by (apply Qmult_lt_0_compat; lra). lra. }
  assert (D2 : ((1 - v) * den <= S)%Q).
  { pose proof (qpow_bernoulli u (Datatypes.S k) Hu) as B1. rewrite nq_S in B1. pose proof (qpow_inverse u (Datatypes.S k) Hu) as B2.
    assert (U' : (den <= qpow (1 + u) (Datatypes.S k) * S)%Q).
    { cbn [qpow]. assert (A : (qpow (1 + u) k * (e * nq k) <= qpow (1 + u) k * (u * S))%Q) by (rewrite !(Qmult_comm (qpow _ _)); apply Qmult_le_compat_r; assumption). lra. }
    set (wp := qpow (1 + u) (Datatypes.S k)) in *. set (wm := qpow (1 - u) (Datatypes.S k)) in *.
    assert (A : ((1 - v) * den <= wm * den)%Q) by (apply Qmult_le_compat_r; [ unfold v; lra | lra ]).
    assert (Pm : (0 <= wm)%Q) by (apply qpow_pos; lra).
    assert (B : (wm * den <= wm * (wp * S))%Q) by (rewrite !(Qmult_comm wm); apply Qmult_le_compat_r; assumption).
    assert (C : ((wp * wm) * S <= 1 * S)%Q) by (apply Qmult_le_compat_r; lra). lra. }
  pose proof (Qinv_lt_0_compat _ D0) as Pi.
  assert (G : forall p, In p pl -> exists r, rdiv rnd (Fin p) (Fin den) = Fin r /\ (0 <= r)%Q /\ ((1 - u) * (p / den) - e <= r)%Q /\ (r <= (1 + u) * (p / den) + e)%Q).
  { intros p Hin. destruct (Hp p Hin) as [ Pp _ ]. unfold rdiv. cbn [fdiv]. destruct (Qeq_bool den 0) eqn:E0; [ apply Qeq_bool_iff in E0; lra | ]. cbn [rounded].
    assert (Px : (0 <= p / den)%Q) by (apply Qmult_le_0_compat; lra).
    assert (Pl : (p <= S)%Q). { unfold S. clear - Hin Hp. induction pl as [ | a pl IH ]; [ destruct Hin | ]. cbn [qsum]. destruct (Hp a (or_introl eq_refl)) as [ Pa _ ].
      pose proof (qsum_nonneg pl (fun x Hx => Qlt_le_weak _ _ (proj1 (Hp x (or_intror Hx))))). destruct Hin as [ -> | Hin ]; [ lra | ]. specialize (IH (fun x Hx => Hp x (or_intror Hx)) Hin). lra. }
    assert (Pu : (p / den <= 2)%Q). { apply Qle_shift_div_r; [ exact D0 | ]. assert (0 <= ((1 # 2) - v) * S)%Q by (apply Qmult_le_0_compat; lra). lra. }
    pose proof (Hsmall (p / den)%Q ltac:(rewrite Qabs_pos; lra)) as F. pose proof (rnd_nonneg rnd HR (p / den)%Q Px) as Pn.
    destruct (HA (p / den)%Q) as [ I | (r & E & B) ]; [ destruct (rnd (p / den)); discriminate | ].
    exists r. split; [ exact E | ]. rewrite E in Pn. apply fle_Fin in Pn. split; [ exact Pn | ]. rewrite (Qabs_pos (p / den)) in B by exact Px.
    apply Qabs_Qle_condition in B. split; lra. }
  assert (M : exists ql, map (fun p => rdiv rnd (Fin p) (Fin den)) pl = map Fin ql /\ length ql = length pl /\ (forall x, In x ql -> (0 <= x)%Q) /\
    ((1 - u) * (qsum pl / den) - e * nq (length pl) <= qsum ql)%Q /\ (qsum ql <= (1 + u) * (qsum pl / den) + e * nq (length pl))%Q).
  { clear - G D0. induction pl as [ | p pl IH ].
    - exists []. split; [ reflexivity | split; [ reflexivity | split; [ intros ? [] | ] ] ]. cbn [length qsum]. change (nq 0) with 0%Q. unfold Qdiv. split; lra.
    - destruct (IH (fun x Hx => G x (or_intror Hx))) as (ql & E & Ll & Pq & B1 & B2). destruct (G p (or_introl eq_refl)) as (r & Er & Pr & C1 & C2).
      exists (r :: ql). cbn [map length qsum]. rewrite E, Er, Ll. split; [ reflexivity | split; [ reflexivity | split; [ intros x [ <- | Hx ]; auto | ] ] ].
      rewrite nq_S. assert (Ed : ((p + qsum pl) / den == p / den + qsum pl / den)%Q) by (field; lra). rewrite Ed. split; lra. }
  destruct M as (ql & E & Ll & Pq & B1 & B2). exists ql, (S / den)%Q. split; [ exact E | split; [ exact Ll | split; [ exact Pq | ] ] ].
  split; [ apply Qle_shift_div_l; assumption | ]. split.
  - setoid_replace ((1 - v) * (S / den))%Q with ((1 - v) * S / den)%Q by (field; lra). apply Qle_shift_div_r; [ exact D0 | lra ].
  - rewrite Ll. cbn. split; assumption.
Qed.
End Rows.

(** a computed sum of numbers that are not negative is at least each of them *)
Lemma fold_ge rnd : rounding rnd -> rounds_once rnd -> forall l a r, (0 <= a)%Q -> feqv (rnd a) (Fin a) ->
  (forall v, In v l -> exists q, v = Fin q /\ (0 <= q)%Q /\ feqv (rnd q) (Fin q)) -> fold_left (radd rnd) l (Fin a) = Fin r ->
  (forall p, In (Fin p) l -> (p <= r)%Q) /\ (a <= r)%Q.
Proof.
  intros HR H1. assert (Up : forall x y s, (x <= y)%Q -> feqv (rnd x) (Fin x) -> rnd y = Fin s -> (x <= s)%Q).
  { intros x y s Hxy Fx Ey. pose proof (proj1 HR x y Hxy) as M. rewrite Ey in M. destruct (rnd x) as [ | | | x' ]; try contradiction. cbn in Fx. apply fle_Fin in M. lra. }
  induction l as [ | v l IH ]; intros a r Pa Fa Hl E; cbn [fold_left] in E.
  - injection E as <-. split; [ intros p [] | lra ].
  - destruct (Hl v (or_introl eq_refl)) as (q & -> & Pq & Fq). unfold radd at 2 in E. cbn [fadd rounded] in E.
    destruct (rnd (a + q)%Q) as [ | | | s ] eqn:Es.
    + exfalso. clear - E. assert (G : forall l, fold_left (radd rnd) l NaN = NaN) by (induction l0 as [ | x l0 IH ]; [ reflexivity | destruct x; exact IH ]). rewrite G in E. discriminate.
    + exfalso. pose proof (proj1 HR 0%Q (a + q)%Q ltac:(lra)) as M. rewrite Es in M. destruct HR as (_ & Hz & _). destruct (rnd 0%Q); cbn in Hz; try contradiction. discriminate.
    + exfalso. rewrite fold_inf in E; [ discriminate | ]. intros x Hx. destruct (Hl x (or_intror Hx)) as (qx & -> & Px & _). right. eauto.
    + pose proof (Up a (a + q)%Q s ltac:(lra) Fa Es) as L1. pose proof (Up q (a + q)%Q s ltac:(lra) Fq Es) as L2.
      destruct (IH s r ltac:(lra) (H1 _ _ Es) (fun x Hx => Hl x (or_intror Hx)) E) as [ I1 I2 ]. split; [ | lra ].
      intros p [ Hp | Hp ]; [ injection Hp as <-; lra | auto ].
Qed.

Section Fcm.
Variables (rnd : Q -> fnum) (sum : list fnum -> fnum) (power : power_fn) (X : dataset) (m : Q) (D : distance) (tol : fnum).
Hypothesis HI : instance X D.
Hypothesis Hm : ~ (m == 1)%Q.

Definition membership_r (ms : list Z) (i j : nat) : fnum :=
  if (i =? Z.to_nat (nth j ms 0%Z))%nat then Fin 1 else rdiv rnd (computed_power rnd power X D m ms i j) (computed_sum rnd power X D m ms i).
Definition memberships_r (ms : list Z) : list (list fnum) := map (fun i => map (membership_r ms i) (seq 0 (length ms))) (seq 0 (length X)).

Lemma fcm_row_r_eq ms i : valid_indices X ms ->
  fcm_row_r rnd power m (length X) ms i (map (fun j => dist_j X D ms j i) (seq 0 (length ms))) = map (membership_r ms i) (seq 0 (length ms)).
Proof using.
  intros HV. unfold fcm_row_r, powers_r. rewrite map_map.
  set (den := fold_left _ _ _). rewrite <- (map_id ms) at 2. rewrite (map_nth_seq (fun x => x) ms 0%Z), combine_map, map_map.
  apply map_ext_in. intros j Hj. apply in_seq in Hj.
  assert (Hin : In (nth j ms 0%Z) ms) by (apply nth_In; lia). apply HV in Hin.
  rewrite norm_index_in by auto. reflexivity.
Qed.

Lemma fcm_r_eq ms : valid_indices X ms -> ms <> [] ->
  exists c, f_u c = memberships_r ms /\
  compute_membership_fcm_r rnd sum power X m (mk X ms) D tol
    = if forallb (fun row => close_to_one_r rnd tol (sum row)) (memberships_r ms) then Ok c else Raise AssertionError.
Proof using HI Hm.
  intros HV Hne. unfold compute_membership_fcm_r. rewrite mk_indices, mk_length, dist_to_medoids_spec by auto. cbn [bind].
  replace (length ms =? 0)%nat with false by (destruct ms; cbn; congruence).
  assert (Qeq_bool m 1 = false) as ->. { destruct (Qeq_bool m 1) eqn:E; auto. apply Qeq_bool_iff in E. contradiction. }
  rewrite map_length, seq_length, Nat.eqb_refl. cbn [bind].
  rewrite mapM_ok with (g := fun _ => tt).
  2:{ intros mi Hin. apply HV in Hin. rewrite norm_index_in by auto. reflexivity. }
  cbn [bind]. rewrite enumerate_map, map_map.
  assert (E : map (fun i => fcm_row_r rnd power m (length X) ms i (map (fun j => dist_j X D ms j i) (seq 0 (length ms)))) (seq 0 (length X)) = memberships_r ms).
  { apply map_ext. intros i. apply fcm_row_r_eq; auto. }
  rewrite E. unfold py_assert. eexists. split; [ | destruct (forallb _ _); cbn [bind]; reflexivity ]. reflexivity.
Qed.

Variables (u e : Q) (ord : nat -> order) (N h : nat).
Hypothesis Hu : (0 <= u <= 1)%Q.
Hypothesis He : (0 <= e)%Q.
Hypothesis HR : rounding rnd.
Hypothesis HA : accurate u e rnd.
Hypothesis Hsmall : small_finite rnd.
Hypothesis Ho : summation ord N h.
Variable ms : list Z.
Hypothesis HV : valid_indices X ms.
Hypothesis Hne : ms <> [].
Hypothesis Hnd : NoDup ms.
Hypothesis HN : length ms <= N.
Hypothesis Hother : forall i j, i < length X -> j < length ms -> nth j ms 0%Z <> Z.of_nat i -> exists p, computed_power rnd power X D m ms i j = Fin p /\ (0 < p)%Q /\ (e <= u * p)%Q.
Hypothesis Hown : forall i j, i < length X -> j < length ms -> nth j ms 0%Z = Z.of_nat i -> computed_power rnd power X D m ms i j = PInf.
Hypothesis Hfin : forall i, i < length X -> ~ In (Z.of_nat i) ms -> is_fin (computed_sum rnd power X D m ms i) = true.
Let w := (nq h * u + (nq (length ms) + 1) * u + u + 2 * (e * nq (length ms)))%Q.
Hypothesis Hw : (w <= 1 # 2)%Q.

Lemma not_own i j : j < length ms -> nth j ms 0%Z <> Z.of_nat i -> (i =? Z.to_nat (nth j ms 0%Z))%nat = false.
Proof using HV. intros Hj Hn. apply Nat.eqb_neq. intros ->. apply Hn. assert (Hin : In (nth j ms 0%Z) ms) by (apply nth_In; exact Hj). apply HV in Hin. clear - Hin. lia. Qed.

Lemma medoid_entry i j j0 : i < length X -> j < length ms -> j0 < length ms -> nth j0 ms 0%Z = Z.of_nat i ->
  exists x, membership_r ms i j = Fin x /\ (x == if (j0 =? j)%nat then 1 else 0)%Q.
Proof using All.
  intros Hi Hj Hj0 E0. unfold membership_r. destruct (Nat.eqb_spec j0 j) as [ <- | Hjj ].
  - rewrite E0, Nat2Z.id, Nat.eqb_refl. exists 1%Q. split; reflexivity.
  - assert (Hn : nth j ms 0%Z <> Z.of_nat i). { intros E. apply Hjj. apply (proj1 (NoDup_nth ms 0%Z) Hnd j0 j Hj0 Hj). congruence. }
    rewrite (not_own i j Hj Hn). destruct (Hother i j Hi Hj Hn) as (p & -> & Pp & _).
    assert (computed_sum rnd power X D m ms i = PInf) as ->.
    { apply (fold_has_inf u e rnd HR HA).
      - right. exists 0%Q. split; [ reflexivity | lra ].
      - intros v Hv. apply in_map_iff in Hv. destruct Hv as (l & <- & Hl). apply in_seq in Hl. destruct (Z.eq_dec (nth l ms 0%Z) (Z.of_nat i)) as [ El | El ].
        + left. apply Hown; auto; lia.
        + right. destruct (Hother i l Hi ltac:(lia) El) as (q & -> & Pq & _). exists q. split; [ reflexivity | lra ].
      - apply in_map_iff. exists j0. split; [ apply Hown; auto | apply in_seq; lia ]. }
    unfold rdiv. cbn [fdiv rounded]. destruct HR as (_ & Hz & _). destruct (rnd 0%Q) as [ | | | x ]; try contradiction. exists x. split; [ reflexivity | exact Hz ].
Qed.

Lemma row_near i : i < length X -> exists ql r, map (membership_r ms i) (seq 0 (length ms)) = map Fin ql /\ (forall x, In x ql -> (0 <= x)%Q) /\
  sum_by rnd ord (map Fin ql) = Fin r /\ (Qabs (r - 1) <= 2 * w)%Q.
Proof using All.
  intros Hi. pose proof (nq_pos h) as Ph. pose proof (nq_pos (length ms)) as Pk. assert (Phu : (0 <= nq h * u)%Q) by (apply Qmult_le_0_compat; lra).
  assert (Pku : (0 <= nq (length ms) * u)%Q) by (apply Qmult_le_0_compat; lra). assert (Pek : (0 <= e * nq (length ms))%Q) by (apply Qmult_le_0_compat; lra).
  destruct (in_dec Z.eq_dec (Z.of_nat i) ms) as [ Hin | Hn ].
  - apply In_nth with (d := 0%Z) in Hin. destruct Hin as (j0 & Hj0 & E).
    assert (G : exists ql, map (membership_r ms i) (seq 0 (length ms)) = map Fin ql /\ (forall x, In x ql -> (0 <= x)%Q) /\ length ql = length ms /\
      (qsum ql == qsum (map (fun j => if (j0 =? j)%nat then 1 else 0)%Q (seq 0 (length ms))))%Q).
    { assert (M : forall l, (forall j, In j l -> j < length ms) -> exists ql, map (membership_r ms i) l = map Fin ql /\ (forall x, In x ql -> (0 <= x)%Q) /\ length ql = length l /\
        (qsum ql == qsum (map (fun j => if (j0 =? j)%nat then 1 else 0)%Q l))%Q).
      { induction l as [ | j l IH ]; intros Hl; [ exists []; split; [ reflexivity | split; [ intros ? [] | split; reflexivity ] ] | ].
        destruct (IH (fun x Hx => Hl x (or_intror Hx))) as (ql & E1 & E2 & E3 & E4). destruct (medoid_entry i j j0 Hi (Hl j (or_introl eq_refl)) Hj0 E) as (x & Ex & Vx).
        exists (x :: ql). cbn [map length qsum]. rewrite E1, Ex, E3. split; [ reflexivity | split; [ | split; [ reflexivity | rewrite Vx, E4; reflexivity ] ] ].
        intros y [ <- | Hy ]; [ rewrite Vx; destruct (j0 =? j)%nat; lra | auto ]. }
      destruct (M (seq 0 (length ms))) as (ql & E1 & E2 & E3 & E4); [ intros j Hj; apply in_seq in Hj; lia | ]. rewrite seq_length in E3. exists ql. auto. }
    destruct G as (ql & E1 & E2 & E3 & E4). rewrite (qsum_pick (fun _ => 1%Q) j0 0 (length ms)) in E4 by lia.
    destruct (row_sum_near u e rnd Hu He HR HA Hsmall ord N h ql 1%Q ((nq (length ms) + 1) * u)%Q Ho) as (r & Er & Br); rewrite ?E3 in *; auto; try (unfold w in Hw; lra).
    exists ql, r. unfold w. auto.
  - set (pl := map (fun j => qof (computed_power rnd power X D m ms i j)) (seq 0 (length ms))).
    assert (P : forall j, j < length ms -> computed_power rnd power X D m ms i j = Fin (qof (computed_power rnd power X D m ms i j)) /\
      (0 < qof (computed_power rnd power X D m ms i j))%Q /\ (e <= u * qof (computed_power rnd power X D m ms i j))%Q).
    { intros j Hj. destruct (Hother i j Hi Hj) as (p & -> & Pp & Lp); [ intros E; apply Hn; rewrite <- E; apply nth_In; auto | ]. cbn [qof]. auto. }
    assert (Epl : map (computed_power rnd power X D m ms i) (seq 0 (length ms)) = map Fin pl).
    { unfold pl. rewrite map_map. apply map_ext_in. intros j Hj. apply in_seq in Hj. apply P. lia. }
    assert (Ll : length pl = length ms) by (unfold pl; rewrite map_length, seq_length; reflexivity).
    specialize (Hfin i Hi Hn). destruct (computed_sum rnd power X D m ms i) as [ | | | den ] eqn:Ed; try discriminate.
    assert (Ev : ((nq (length ms) + 1) * u == nq (length ms) * u + u)%Q) by ring.
    destruct (other_row u e rnd Hu He HR HA Hsmall pl den) as (ql & s0 & E1 & E2 & E3 & L0 & U0 & LT & UT).
    { intros ->. destruct ms; [ congruence | discriminate ]. }
    { intros p Hp. unfold pl in Hp. apply in_map_iff in Hp. destruct Hp as (j & <- & Hj). apply in_seq in Hj. apply P. lia. }
    { unfold computed_sum in Ed. rewrite Epl in Ed. exact Ed. }
    { rewrite Ll. unfold w in Hw. lra. }
    rewrite Ll in *.
    destruct (row_sum_near u e rnd Hu He HR HA Hsmall ord N h ql s0 ((nq (length ms) + 1) * u)%Q Ho) as (r & Er & Br); rewrite ?E2 in *; auto; try (unfold w in Hw; lra).
    exists ql, r. split; [ | unfold w; auto ].
    rewrite <- E1. unfold pl. rewrite map_map. apply map_ext_in. intros j Hj. apply in_seq in Hj. unfold membership_r. rewrite Ed.
    rewrite (not_own i j) by (try lia; intros E; apply Hn; rewrite <- E; apply nth_In; lia). rewrite (proj1 (P j ltac:(lia))) at 1. reflexivity.
Qed.
End Fcm.
