(** DBA_update averages along cheapest paths and never raises the total squared DTW distance; medoid choice. *)
From Coq Require Import ZifyBool ZifyNat QArith Lqa.
From Verif Require Import Base.Py Base.PyFacts Base.Arr Base.ArrFacts Base.Float Base.FloatFacts Model.DBA Spec.Warping
  Proofs.ElbowFacts Proofs.KMedoidsFacts Proofs.DBAFacts Proofs.WarpingFacts.
Local Close Scope Q_scope.
Local Open Scope nat_scope.

Lemma aligned_cons : forall k s ss P Ps, aligned k (s :: ss) (P :: Ps) = samples s k P ++ aligned k ss Ps.
Proof. reflexivity. Qed.

Lemma aligned_length : forall c ss paths k, Forall2 (cheapest c) ss paths -> k < length c -> length ss <= length (aligned k ss paths).
Proof.
  intros c ss paths k H Hk. induction H as [ | s P ss paths [ Hw _ ] HF IH ]; [ cbn; lia | ].
  rewrite aligned_cons, app_length. destruct Hw as (a & b & Ea & Eb & Hp). destruct (path_hits _ _ _ Hp k) as (l & Hl); [ lia | ].
  assert (0 < length (samples s k P)).
  { unfold samples. rewrite map_length. assert (Hin : In (k, l) (filter (fun ij => fst ij =? k) P)) by (apply filter_In; split; [ exact Hl | cbn; lia ]).
    destruct (filter _ P); [ destruct Hin | cbn; lia ]. }
  cbn [length]. lia.
Qed.

Section Update.
Variable c : list Q.
Variable X Y : nat.
Hypothesis Hc : 0 < length c.
Hypothesis HX : length c <= X.

Lemma DBA_series : forall ss U C cost path delta, fits Y ss -> length U = length c -> length C = length c ->
  sized cost X Y -> sized path X Y -> sized delta X Y ->
  exists paths U' C' cost' path' delta', Forall2 (cheapest c) ss paths /\
    foldM (DBA_step (map Fin c)) (fins ss) (map Fin U, C, cost, path, delta) = Ok (map Fin U', C', cost', path', delta') /\
    length U' = length c /\ length C' = length c /\
    (forall k, k < length c -> (nth k U' 0 == nth k U 0 + qsum (aligned k ss paths))%Q /\
                               nth k C' 0%Z = (nth k C 0 + Z.of_nat (length (aligned k ss paths)))%Z) /\
    sized cost' X Y /\ sized path' X Y /\ sized delta' X Y.
Proof using Hc HX.
  induction ss as [ | s ss IH ]; intros U C cost path delta Hf HU HC Sc Sp Sd.
  - exists [], U, C, cost, path, delta. split; [ constructor | split; [ reflexivity | split; [ exact HU | split; [ exact HC | split; [ | auto ] ] ] ] ].
    intros k Hk. cbn. split; [ lra | lia ].
  - destruct (Hf s) as [ Hs1 Hs2 ]; [ left; reflexivity | ].
    destruct (DBA_step_ok c s X Y HX Hs2 U C cost path delta Hc Hs1 HU HC Sc Sp Sd) as (P & U1 & C1 & cost1 & path1 & delta1 & Hch & HA & E & S1 & S2 & S3).
    destruct HA as (L1 & L2 & HA).
    destruct (IH U1 C1 cost1 path1 delta1) as (paths & U2 & C2 & cost2 & path2 & delta2 & HF & E2 & L3 & L4 & HB & S4); auto; try congruence.
    { intros s' Hs'. apply Hf. right. exact Hs'. }
    exists (P :: paths), U2, C2, cost2, path2, delta2. split; [ constructor; assumption | split; [ | split; [ exact L3 | split; [ exact L4 | split; [ | exact S4 ] ] ] ] ].
    + cbn [fins map foldM]. rewrite E. cbn [bind]. exact E2.
    + intros k Hk. destruct (HA k Hk) as [ A1 A2 ]. destruct (HB k Hk) as [ B1 B2 ]. rewrite aligned_cons, qsum_app, app_length. split; [ lra | lia ].
Qed.

Lemma update_spec : forall ss cost path delta, ss <> [] -> fits Y ss -> sized cost X Y -> sized path X Y -> sized delta X Y ->
  exists new paths cost' path' delta', DBA_update (map Fin c) (fins ss) cost path delta = Ok (map Fin new, cost', path', delta') /\
    length new = length c /\ Forall2 (cheapest c) ss paths /\
    (forall k, k < length c -> length ss <= length (aligned k ss paths) /\
       (nth k new 0 == qsum (aligned k ss paths) / inject_Z (Z.of_nat (length (aligned k ss paths))))%Q) /\
    sized cost' X Y /\ sized path' X Y /\ sized delta' X Y.
Proof using Hc HX.
  intros ss cost path delta Hne Hf Sc Sp Sd. unfold DBA_update. rewrite map_length.
  replace (repeat (Fin 0) (length c)) with (map Fin (repeat 0%Q (length c))) by (clear; induction (length c) as [ | k IH ]; [ reflexivity | cbn [repeat map]; rewrite IH; reflexivity ]).
  destruct (DBA_series ss (repeat 0%Q (length c)) (repeat 0%Z (length c)) cost path delta Hf) as (paths & U & C & cost' & path' & delta' & HF & E & LU & LC & HB & S);
    auto; try apply repeat_length.
  rewrite E. cbn [bind].
  exists (map (fun '(u, z) => u / inject_Z z)%Q (combine U C)), paths, cost', path', delta'.
  assert (Ln : length (map (fun '(u, z) => u / inject_Z z)%Q (combine U C)) = length c) by (rewrite map_length, combine_length; lia).
  assert (HC : forall k, k < length c -> nth k C 0%Z = Z.of_nat (length (aligned k ss paths)) /\ (0 < nth k C 0)%Z).
  { intros k Hk. destruct (HB k Hk) as [ _ B ]. rewrite nth_repeat in B. pose proof (aligned_length _ _ _ k HF Hk).
    destruct ss; [ congruence | ]. cbn [length] in *. lia. }
  split; [ | split; [ exact Ln | split; [ exact HF | split; [ | exact S ] ] ] ].
  - do 4 f_equal. rewrite map_map.
    apply list_ext_len; [ rewrite !map_length, !combine_length, !map_length; lia | ].
    intros i Hi. rewrite map_length, combine_length, map_length in Hi.
    assert (Hi1 : i < length U) by lia. assert (Hi2 : i < length C) by lia. assert (Hi3 : i < length c) by lia.
    rewrite !nth_error_map.
    assert (N1 : nth_error (combine (map Fin U) C) i = Some (Fin (nth i U 0%Q), nth i C 0%Z)).
    { rewrite (nth_error_nth' (combine (map Fin U) C) (Fin 0, 0%Z)) by (rewrite combine_length, map_length; lia).
      rewrite combine_nth by (rewrite map_length; lia). rewrite map_nth. reflexivity. }
    assert (N2 : nth_error (combine U C) i = Some (nth i U 0%Q, nth i C 0%Z)).
    { rewrite (nth_error_nth' (combine U C) (0%Q, 0%Z)) by (rewrite combine_length; lia). rewrite combine_nth by lia. reflexivity. }
    rewrite N1, N2. cbn [option_map]. f_equal. destruct (HC i Hi3) as [ _ Hpos ]. unfold fdiv.
    replace (Qeq_bool (inject_Z (nth i C 0%Z)) 0) with false; [ reflexivity | ].
    symmetry. apply not_true_iff_false. rewrite Qeq_bool_iff. unfold Qeq. cbn. lia.
  - intros k Hk. split; [ exact (aligned_length _ _ _ k HF Hk) | ].
    set (h := fun '(u, z) => (u / inject_Z z)%Q) in *.
    rewrite (nth_indep _ 0%Q (h (0%Q, 0%Z))) by lia. rewrite map_nth. rewrite combine_nth by lia. unfold h.
    destruct (HC k Hk) as [ -> _ ]. destruct (HB k Hk) as [ B _ ]. rewrite nth_repeat in B. rewrite B. rewrite Qplus_0_l. reflexivity.
Qed.
End Update.

(* ---------- the mean lies between the aligned samples and minimises the squared differences ---------- *)
Lemma inject_nat_pos : forall n, 0 < n -> (0 < inject_Z (Z.of_nat n))%Q.
Proof. intros n H. unfold Qlt. cbn. lia. Qed.
Lemma inject_S : forall n, (inject_Z (Z.of_nat (S n)) == 1 + inject_Z (Z.of_nat n))%Q.
Proof. intros n. rewrite Nat2Z.inj_succ. unfold Z.succ. rewrite inject_Z_plus. ring. Qed.

Lemma mean_bounds : forall l lo hi, l <> [] -> (forall v, In v l -> lo <= v <= hi)%Q ->
  (lo <= qsum l / inject_Z (Z.of_nat (length l)) <= hi)%Q.
Proof.
  intros l lo hi Hne H.
  assert (B : (lo * inject_Z (Z.of_nat (length l)) <= qsum l <= hi * inject_Z (Z.of_nat (length l)))%Q).
  { clear Hne. induction l as [ | v l IH ]; [ cbn [length qsum]; change (inject_Z (Z.of_nat 0)) with 0%Q; rewrite !Qmult_0_r; lra | ]. cbn [length qsum]. rewrite inject_S.
    destruct IH as [ I1 I2 ]; [ intros; apply H; right; assumption | ]. destruct (H v (or_introl eq_refl)). split; nra. }
  assert (P : (0 < inject_Z (Z.of_nat (length l)))%Q) by (apply inject_nat_pos; destruct l; [ congruence | cbn; lia ]).
  split; [ apply Qle_shift_div_l | apply Qle_shift_div_r ]; lra.
Qed.

(** sum of (x - v)^2 as a polynomial in x *)
Lemma sq_sum : forall l x, (qsum (map (fun v => (x - v) * (x - v)) l) == inject_Z (Z.of_nat (length l)) * (x * x) - 2 * x * qsum l + qsum (map (fun v => v * v) l))%Q.
Proof. induction l as [ | v l IH ]; intros x; [ cbn [map qsum length]; change (inject_Z (Z.of_nat 0)) with 0%Q; ring | ]. cbn [map qsum length]. rewrite IH, inject_S. ring. Qed.

Lemma mean_minimises : forall l x, l <> [] ->
  let mean := (qsum l / inject_Z (Z.of_nat (length l)))%Q in
  (qsum (map (fun v => (mean - v) * (mean - v)) l) <= qsum (map (fun v => (x - v) * (x - v)) l))%Q.
Proof.
  intros l x Hne mean. rewrite !sq_sum.
  assert (P : (0 < inject_Z (Z.of_nat (length l)))%Q) by (apply inject_nat_pos; destruct l; [ congruence | cbn; lia ]).
  set (N := inject_Z (Z.of_nat (length l))) in *.
  assert (E : (N * mean == qsum l)%Q) by (unfold mean; field; lra).
  clearbody mean N. rewrite <- E. set (d := (x - mean)%Q).
  assert (Hd : (0 <= d * d)%Q) by (clearbody d; nra).
  assert (Hn : (0 <= N * (d * d))%Q) by (apply Qmult_le_0_compat; lra).
  unfold d in Hn. assert (H : (N * ((x - mean) * (x - mean)) == N * (x * x) - 2 * x * (N * mean) + (N * (mean * mean)))%Q) by ring. 
  assert (H2 : (2 * mean * (N * mean) == 2 * (N * (mean * mean)))%Q) by ring. rewrite H in Hn. rewrite H2. lra.
Qed.

Lemma qsum_le_map : forall {A} (f g : A -> Q) l, (forall x, In x l -> f x <= g x)%Q -> (qsum (map f l) <= qsum (map g l))%Q.
Proof.
  induction l as [ | a l IH ]; intros H; cbn; [ lra | ]. pose proof (H a (or_introl eq_refl)).
  assert (qsum (map f l) <= qsum (map g l))%Q by (apply IH; intros; apply H; right; assumption). lra.
Qed.

(** the cost along fixed paths, regrouped by the position in the center *)
Lemma regroup : forall c ss paths, (forall s P, In (s, P) (combine ss paths) -> forall ij, In ij P -> fst ij < length c) ->
  (qsum (map (fun '(s, P) => path_cost c s P) (combine ss paths)) ==
   qsum (map (fun k => qsum (map (fun v => (nth k c 0 - v) * (nth k c 0 - v)) (aligned k ss paths))) (seq 0 (length c))))%Q.
Proof.
  intros c ss. induction ss as [ | s ss IH ]; intros [ | P paths ] Hb.
  - cbn. symmetry. apply qsum_zero.
  - cbn. symmetry. apply qsum_zero.
  - cbn. symmetry. apply qsum_zero.
  - cbn [combine map qsum]. etransitivity; [ apply Qplus_comp; [ reflexivity | apply (IH paths); intros s' P' Hin; apply (Hb s' P'); right; exact Hin ] | ].
    assert (E : forall k, (qsum (map (fun v => (nth k c 0 - v) * (nth k c 0 - v)) (aligned k (s :: ss) (P :: paths))) ==
      qsum (map (fun v => (nth k c 0 - v) * (nth k c 0 - v)) (samples s k P)) + qsum (map (fun v => (nth k c 0 - v) * (nth k c 0 - v)) (aligned k ss paths)))%Q).
    { intros k. rewrite aligned_cons, map_app, qsum_app. reflexivity. }
    rewrite (qsum_ext _ _ _ (fun k _ => E k)), qsum_plus. apply Qplus_inj_r.
    unfold path_cost.
    rewrite (qsum_ext (fun k => qsum (map (fun v => ((nth k c 0 - v) * (nth k c 0 - v))%Q) (samples s k P)))
                      (fun k => qsum (map ((fun k ij => ((nth k c 0 - nth (snd ij) s 0) * (nth k c 0 - nth (snd ij) s 0))%Q) k) (filter (fun ij => fst ij =? k) P)))).
    + rewrite (qsum_by_label fst (fun k ij => ((nth k c 0 - nth (snd ij) s 0) * (nth k c 0 - nth (snd ij) s 0))%Q) (length c) P).
      * apply qsum_ext. intros [ i j ] _. reflexivity.
      * intros ij Hij. apply (Hb s P); [ left; reflexivity | exact Hij ].
    + intros k _. unfold samples. rewrite map_map. reflexivity.
Qed.

Lemma cheapest_bound : forall c s P, cheapest c s P -> forall ij, In ij P -> fst ij < length c.
Proof. intros c s P [ (a & b & Ea & Eb & Hp) _ ] [ i j ] Hin. apply (path_bounds _ _ _ Hp) in Hin. cbn. lia. Qed.

Lemma descent : forall c new ss paths v v', length new = length c -> Forall2 (cheapest c) ss paths -> ss <> [] -> 
  (forall k, k < length c -> length ss <= length (aligned k ss paths) /\
     (nth k new 0 == qsum (aligned k ss paths) / inject_Z (Z.of_nat (length (aligned k ss paths))))%Q) ->
  inertia c ss v -> inertia new ss v' -> (v' <= v)%Q.
Proof.
  intros c new ss paths v v' HL HF Hne Hmean (vs & Hvs & Ev) (vs' & Hvs' & Ev').
  assert (Hb : forall s P, In (s, P) (combine ss paths) -> forall ij, In ij P -> fst ij < length c).
  { clear - HF. induction HF as [ | s P ss paths H HF IH ]; cbn; [ contradiction | ].
    intros s' P' [ E | Hin ]; [ injection E as <- <-; exact (cheapest_bound _ _ _ H) | exact (IH _ _ Hin) ]. }
  (* v is the cost of the paths with the old center *)
  assert (E1 : (qsum (map (fun '(s, P) => path_cost c s P) (combine ss paths)) == v)%Q).
  { rewrite <- Ev. clear - HF Hvs. revert paths HF. induction Hvs as [ | s q ss vs Hq Hvs IH ]; intros paths HF; inversion HF as [ | ? P ? paths' Hch HF' ]; subst; cbn; [ reflexivity | ].
    rewrite (IH _ HF'). apply Qplus_inj_r. apply (dtw2_unique c s); [ exists P; split; [ exact Hch | reflexivity ] | exact Hq ]. }
  (* v' is at most the cost of the same paths with the new center *)
  assert (E2 : (v' <= qsum (map (fun '(s, P) => path_cost new s P) (combine ss paths)))%Q).
  { rewrite <- Ev'. clear - HF Hvs' HL. revert paths HF. induction Hvs' as [ | s q ss vs Hq Hvs IH ]; intros paths HF; inversion HF as [ | ? P ? paths' Hch HF' ]; subst; cbn; [ lra | ].
    specialize (IH _ HF'). destruct Hq as (Pn & [ _ Hl ] & Eq).
    assert (Hw : warping_path new s P) by (destruct Hch as [ (a & b & Ea & Eb & Hp) _ ]; exists a, b; split; [ congruence | auto ]).
    specialize (Hl _ Hw). lra. }
  assert (E3 : (qsum (map (fun '(s, P) => path_cost new s P) (combine ss paths)) <= qsum (map (fun '(s, P) => path_cost c s P) (combine ss paths)))%Q).
  { rewrite (regroup c ss paths Hb), (regroup new ss paths) by (rewrite HL; exact Hb). rewrite HL. apply qsum_le_map.
    intros k Hk. apply in_seq in Hk. destruct (Hmean k) as [ Hlen Hm ]; [ lia | ].
    assert (Hal : aligned k ss paths <> []) by (destruct (aligned k ss paths); [ destruct ss; [ congruence | cbn in Hlen; lia ] | discriminate ]).
    pose proof (mean_minimises (aligned k ss paths) (nth k c 0%Q) Hal) as H. cbn zeta in H.
    rewrite (qsum_ext (fun v => ((nth k new 0 - v) * (nth k new 0 - v))%Q)
               (fun v => (qsum (aligned k ss paths) / inject_Z (Z.of_nat (length (aligned k ss paths))) - v) * (qsum (aligned k ss paths) / inject_Z (Z.of_nat (length (aligned k ss paths))) - v)))%Q.
    - exact H.
    - intros x _. rewrite Hm. reflexivity. }
  lra.
Qed.

Lemma inertia_unique : forall c ss u v, inertia c ss u -> inertia c ss v -> (u == v)%Q.
Proof.
  intros c ss u v (us & Hu & Eu) (vs & Hv & Ev). rewrite <- Eu, <- Ev. clear Eu Ev. revert vs Hv.
  induction Hu as [ | s q ss us Hq Hu IH ]; intros vs Hv; inversion Hv as [ | ? q' ? vs' Hq' Hv' ]; subst; cbn; [ reflexivity | ].
  rewrite (IH _ Hv'). apply Qplus_inj_r. apply (dtw2_unique c s); assumption.
Qed.
Lemma inertia_exists : forall c ss, c <> [] -> (forall s, In s ss -> s <> []) -> exists v, inertia c ss v.
Proof.
  intros c ss Hc. induction ss as [ | s ss IH ]; intros H.
  - exists 0%Q, []. split; [ constructor | reflexivity ].
  - destruct IH as (v & vs & HF & E); [ intros; apply H; right; assumption | ].
    destruct (dtw2_exists c s Hc) as (q & Hq); [ apply H; left; reflexivity | ].
    exists (q + v)%Q, (q :: vs). split; [ constructor; assumption | cbn; rewrite E; reflexivity ].
Qed.

(* ---------- sums of squared distances, medoid ---------- *)
Lemma sum_of_squares_ok : forall X Y c ss cost delta, 0 < length c <= X -> fits Y ss -> sized cost X Y -> sized delta X Y ->
  exists q cost' delta', sum_of_squares (map Fin c) (fins ss) cost delta = Ok (Fin q, cost', delta') /\ inertia c ss q /\
    sized cost' X Y /\ sized delta' X Y.
Proof.
  intros X Y c ss cost delta [ Hc HX ] Hf Sc Sd. unfold sum_of_squares.
  assert (G : forall ss a cost delta, fits Y ss -> sized cost X Y -> sized delta X Y ->
    exists q cost' delta', foldM (fun '(acc, cost, delta) t => x <- squared_DTW (map Fin c) t cost delta ;; let '(v, cost, delta) := x in Ok (fadd acc v, cost, delta))
        (fins ss) (Fin a, cost, delta) = Ok (Fin q, cost', delta') /\ (exists vs, Forall2 (dtw2 c) ss vs /\ (q == a + qsum vs)%Q) /\
      sized cost' X Y /\ sized delta' X Y).
  { clear - Hc HX. induction ss as [ | s ss IH ]; intros a cost delta Hf Sc Sd.
    - exists a, cost, delta. split; [ reflexivity | split; [ | auto ] ]. exists []. split; [ constructor | cbn; lra ].
    - destruct (Hf s) as [ Hs1 Hs2 ]; [ left; reflexivity | ].
      destruct (squared_DTW_ok c s X Y HX Hs2 cost delta Hc Hs1 Sc Sd) as (v & cost1 & delta1 & E & Hv & S1 & S2).
      destruct (IH (a + v)%Q cost1 delta1) as (q & cost2 & delta2 & E2 & (vs & HF & Eq) & S3 & S4); auto.
      { intros s' Hs'. apply Hf. right. exact Hs'. }
      exists q, cost2, delta2. split; [ | split; [ exists (v :: vs); split; [ constructor; assumption | cbn; lra ] | auto ] ].
      cbn [fins map foldM]. rewrite E. cbn [bind fadd]. exact E2. }
  destruct (G ss 0%Q cost delta Hf Sc Sd) as (q & cost' & delta' & E & (vs & HF & Eq) & S1 & S2).
  exists q, cost', delta'. split; [ exact E | split; [ exists vs; split; [ exact HF | rewrite Eq; lra ] | auto ] ].
Qed.

Lemma medoid_loop : forall X ss cands cost delta, fits X ss -> (forall i, In i cands -> (0 <= i < Z.of_nat (length ss))%Z) ->
  sized cost X X -> sized delta X X ->
  exists i best cost' delta',
    foldM (fun '(medoid_ind, best_ss, cost, delta) index_candidate =>
            candidate <- getitem (fins ss) index_candidate ;;
            y <- sum_of_squares candidate (fins ss) cost delta ;;
            let '(ss, cost, delta) := y in
            if (medoid_ind =? -1)%Z || flt ss best_ss
            then Ok (index_candidate, ss, cost, delta)
            else Ok (medoid_ind, best_ss, cost, delta))
      cands ((-1)%Z, Fin (inject_Z (10 ^ 20)), cost, delta) = Ok (i, best, cost', delta') /\
    sized cost' X X /\ sized delta' X X /\
    (cands = [] /\ i = (-1)%Z \/
     first_least_inertia ss cands i /\ (0 <= i < Z.of_nat (length ss))%Z /\ exists q, best = Fin q /\ inertia (nth (Z.to_nat i) ss []) ss q).
Proof.
  intros X ss cands cost delta Hf Hin Sc Sd. induction cands as [ | i cands IH ] using rev_ind.
  - exists (-1)%Z, (Fin (inject_Z (10 ^ 20))), cost, delta. split; [ reflexivity | auto ].
  - destruct IH as (i0 & best & cost1 & delta1 & E & S1 & S2 & H); [ intros; apply Hin; apply in_or_app; auto | ].
    rewrite foldM_app, E. cbn [bind foldM].
    assert (Hi : (0 <= i < Z.of_nat (length ss))%Z) by (apply Hin; apply in_or_app; right; left; reflexivity).
    set (c := nth (Z.to_nat i) ss []).
    assert (Hcin : In c ss) by (apply nth_In; lia).
    assert (Eg : getitem (fins ss) i = Ok (map Fin c)).
    { replace i with (Z.of_nat (Z.to_nat i)) by lia. rewrite (getitem_nat _ _ (map Fin [])) by (unfold fins; rewrite map_length; lia).
      unfold fins. rewrite map_nth. reflexivity. }
    rewrite Eg. cbn [bind].
    destruct (sum_of_squares_ok X X c ss cost1 delta1 (Hf c Hcin) Hf S1 S2) as (q & cost2 & delta2 & E2 & Hq & S3 & S4).
    rewrite E2. cbn [bind].
    destruct H as [ [ -> -> ] | (HFL & Hi0 & qb & -> & Hqb) ].
    + cbn [Z.eqb orb]. eexists _, _, _, _. split; [ reflexivity | split; [ exact S3 | split; [ exact S4 | right ] ] ].
      split; [ | split; [ exact Hi | eauto ] ]. exists [], []. split; [ reflexivity | split; intros ? ? ? [] ].
    + replace (i0 =? -1)%Z with false by lia. cbn [orb].
      destruct HFL as (before & after & -> & HB & HA).
      destruct (flt (Fin q) (Fin qb)) eqn:El.
      * apply flt_Fin in El. eexists _, _, _, _. split; [ reflexivity | split; [ exact S3 | split; [ exact S4 | right ] ] ].
        split; [ | split; [ exact Hi | eauto ] ]. exists (before ++ i0 :: after), []. split; [ reflexivity | split; [ | intros ? ? ? [] ] ].
        intros i' v v' Hi' Hv Hv'. rewrite (inertia_unique _ _ _ _ Hv Hq). apply in_app_or in Hi'. destruct Hi' as [ Hi' | [ <- | Hi' ] ].
        -- specialize (HB i' _ _ Hi' Hqb Hv'). lra.
        -- rewrite (inertia_unique _ _ _ _ Hv' Hqb). exact El.
        -- specialize (HA i' _ _ Hi' Hqb Hv'). lra.
      * assert (Hle : (qb <= q)%Q).
        { destruct (Qlt_le_dec q qb) as [ Hlt | ]; [ | assumption ]. apply flt_Fin in Hlt. congruence. }
        eexists _, _, _, _. split; [ reflexivity | split; [ exact S3 | split; [ exact S4 | right ] ] ].
        split; [ | split; [ exact Hi0 | eauto ] ]. exists before, (after ++ [i]). rewrite <- app_assoc. split; [ reflexivity | split; [ exact HB | ] ].
        intros i' v v' Hi' Hv Hv'. apply in_app_or in Hi'. destruct Hi' as [ Hi' | [ <- | [] ] ]; [ exact (HA i' _ _ Hi' Hv Hv') | ].
        rewrite (inertia_unique _ _ _ _ Hv Hqb), (inertia_unique _ _ _ _ Hv' Hq). exact Hle.
Qed.

(* ---------- performDBA ---------- *)
Lemma iterations : forall X ss (l : list nat) c cost path delta, ss <> [] -> fits X ss -> 0 < length c <= X ->
  sized cost X X -> sized path X X -> sized delta X X ->
  exists c' cost' path' delta',
    foldM (fun '(center, cost, path, delta) (_ : nat) => DBA_update center (fins ss) cost path delta) l (map Fin c, cost, path, delta)
      = Ok (map Fin c', cost', path', delta') /\
    length c' = length c /\ (forall v v', inertia c ss v -> inertia c' ss v' -> (v' <= v)%Q) /\
    sized cost' X X /\ sized path' X X /\ sized delta' X X.
Proof.
  intros X ss l. induction l as [ | i l IH ]; intros c cost path delta Hne Hf Hc Sc Sp Sd.
  - exists c, cost, path, delta. split; [ reflexivity | split; [ reflexivity | split; [ | auto ] ] ].
    intros v v' Hv Hv'. rewrite (inertia_unique _ _ _ _ Hv' Hv). lra.
  - destruct (update_spec c X X (proj1 Hc) (proj2 Hc) ss cost path delta Hne Hf Sc Sp Sd) as (new & paths & cost1 & path1 & delta1 & E & L & HF & Hm & S1 & S2 & S3).
    destruct (IH new cost1 path1 delta1) as (c' & cost2 & path2 & delta2 & E2 & L2 & Hd & S4); auto; [ lia | ].
    exists c', cost2, path2, delta2. split; [ | split; [ lia | split; [ | exact S4 ] ] ].
    + cbn [foldM]. rewrite E. cbn [bind]. exact E2.
    + intros v v' Hv Hv'.
      destruct (inertia_exists new ss) as (vn & Hn).
      * intros ->. cbn in L. lia.
      * intros s Hs Hs0. subst s. specialize (Hf [] Hs). cbn in Hf. lia.
      * pose proof (descent c new ss paths v vn L HF Hne Hm Hv Hn). pose proof (Hd _ _ Hn Hv'). lra.
Qed.

Lemma max_length_fits : forall l ls x, In x (l :: ls) -> x <= fold_left Nat.max ls l.
Proof.
  intros l ls. revert l. induction ls as [ | y ls IH ]; intros l x [ -> | H ]; cbn in *; [ lia | contradiction | | ].
  - pose proof (IH (Nat.max x y) (Nat.max x y) (or_introl eq_refl)). lia.
  - destruct H as [ -> | H ].
    + pose proof (IH (Nat.max l x) (Nat.max l x) (or_introl eq_refl)). lia.
    + apply IH. right. exact H.
Qed.

Lemma medoid_candidates : forall choice ss X cost delta, ss <> [] -> fits X ss ->
  (50 < length ss -> choice (length ss) <> [] /\ forall i, In i (choice (length ss)) -> (0 <= i < Z.of_nat (length ss))%Z) ->
  sized cost X X -> sized delta X X ->
  exists i cost' delta', approximate_medoid_index choice (fins ss) cost delta = Ok (i, cost', delta') /\
    first_least_inertia ss (if length ss <=? 50 then zrange 0 (Z.of_nat (length ss)) else choice (length ss)) i /\
    (0 <= i < Z.of_nat (length ss))%Z /\ sized cost' X X /\ sized delta' X X.
Proof.
  intros choice ss X cost delta Hne Hf Hch Sc Sd. unfold approximate_medoid_index.
  assert (Lf : length (fins ss) = length ss) by (unfold fins; apply map_length). rewrite Lf.
  set (cands := if length ss <=? 50 then zrange 0 (Z.of_nat (length ss)) else choice (length ss)).
  assert (Hc : cands <> [] /\ forall i, In i cands -> (0 <= i < Z.of_nat (length ss))%Z).
  { unfold cands. destruct (Nat.leb_spec (length ss) 50).
    - split; [ | intros i Hi; apply in_zrange in Hi; lia ]. intros E.
      assert (L : length (zrange 0 (Z.of_nat (length ss))) = 0) by (rewrite E; reflexivity). rewrite zrange_length in L.
      destruct ss; [ congruence | cbn [length] in L; lia ].
    - apply Hch. lia. }
  destruct (medoid_loop X ss cands cost delta Hf (proj2 Hc) Sc Sd) as (i & best & cost' & delta' & E & S1 & S2 & [ [ E0 _ ] | (HFL & Hi & _) ]); [ destruct Hc; congruence | ].
  rewrite E. cbn [bind]. exists i, cost', delta'. auto.
Qed.

Lemma perform_spec : forall choice ss, ss <> [] -> (forall s, In s ss -> s <> []) ->
  (50 < length ss -> choice (length ss) <> [] /\ forall i, In i (choice (length ss)) -> (0 <= i < Z.of_nat (length ss))%Z) ->
  exists i, first_least_inertia ss (if length ss <=? 50 then zrange 0 (Z.of_nat (length ss)) else choice (length ss)) i /\
    (0 <= i < Z.of_nat (length ss))%Z /\
    let medoid := nth (Z.to_nat i) ss [] in
    forall k, exists c, performDBA choice (fins ss) k = Ok (map Fin c) /\ length c = length medoid /\
      (forall v v', inertia medoid ss v -> inertia c ss v' -> (v' <= v)%Q) /\
      forall d, exists c', performDBA choice (fins ss) (k + d) = Ok (map Fin c') /\
        forall v v', inertia c ss v -> inertia c' ss v' -> (v' <= v)%Q.
Proof.
  intros choice ss Hne Hnes Hch. unfold performDBA.
  assert (Em : map (@length fnum) (fins ss) = map (@length Q) ss).
  { unfold fins. rewrite map_map. apply map_ext. intros. apply map_length. }
  rewrite Em. clear Em. destruct ss as [ | s0 ss0 ] eqn:Ess; [ congruence | ]. cbn [map].
  set (X := fold_left Nat.max (map (@length Q) ss0) (length s0)). rewrite <- Ess in *.
  assert (Hf : fits X ss).
  { intros s Hs. split.
    - specialize (Hnes s Hs). destruct s; [ congruence | cbn; lia ].
    - apply max_length_fits. rewrite Ess in Hs. apply (in_map (@length Q)) in Hs. exact Hs. }
  assert (Sf : forall A (v : A), sized (full2 X X v) X X) by (intros; split; [ apply wf2_full | auto ]).
  destruct (medoid_candidates choice ss X _ _ Hne Hf Hch (Sf _ (Fin 0)) (Sf _ (Fin 0))) as (i & cost & delta & E & HFL & Hi & S1 & S2).
  rewrite E. cbn [bind]. clear E.
  assert (Eg : getitem (fins ss) i = Ok (map Fin (nth (Z.to_nat i) ss []))).
  { replace i with (Z.of_nat (Z.to_nat i)) by lia. rewrite (getitem_nat _ _ (map Fin [])) by (unfold fins; rewrite map_length; lia).
    unfold fins. rewrite map_nth. rewrite Nat2Z.id. reflexivity. }
  rewrite Eg. cbn [bind]. exists i. split; [ exact HFL | split; [ exact Hi | ] ]. cbn zeta.
  set (medoid := nth (Z.to_nat i) ss []).
  assert (Hm : 0 < length medoid <= X) by (apply Hf; apply nth_In; lia).
  intros k.
  destruct (iterations X ss (seq 0 k) medoid cost (full2 X X 0%Z) delta Hne Hf Hm S1 (Sf _ 0%Z) S2) as (c & cost1 & path1 & delta1 & E & L & Hd & S3 & S4 & S5).
  exists c. rewrite E. cbn [bind]. split; [ reflexivity | split; [ exact L | split; [ exact Hd | ] ] ].
  intros d. rewrite seq_app, foldM_app, E. cbn [bind].
  destruct (iterations X ss (seq (0 + k) d) c cost1 path1 delta1) as (c' & cost2 & path2 & delta2 & E' & _ & Hd' & _); auto; [ lia | ].
  rewrite E'. cbn [bind]. eauto.
Qed.
