(** Facts about the distance measure object, the centroid and the intra-cluster cost. *)
From Coq Require Import ZifyBool ZifyNat String QArith.
From Verif Require Import Base.Py Base.PyFacts Base.Arr Base.ArrFacts Base.Float Base.FloatFacts Model.Region Model.Pool Model.Distance
  Spec.Grid Spec.Partition Spec.Distance Proofs.RegionFacts Proofs.PartitionFacts Proofs.SubsetFacts Proofs.DistanceFacts Proofs.KMedoidsFacts.
Local Notation length := List.length.
Local Close Scope Q_scope.
Local Close Scope string_scope.
Local Open Scope nat_scope.

Lemma nth_error_combine : forall {A B} (l : list A) (l' : list B) n a b,
  nth_error l n = Some a -> nth_error l' n = Some b -> nth_error (combine l l') n = Some (a, b).
Proof.
  induction l as [ | x l IH ]; intros [ | x' l' ] [ | n ] a b H H'; cbn in *; try discriminate; auto. congruence.
Qed.

(* ---------- rows of a matrix ---------- *)

Lemma entry_square : forall n M i j, square n M -> i < n -> j < n -> exists v, entry M i j = Some v.
Proof.
  intros n M i j (_ & Hl & Hr) Hi Hj. unfold entry.
  destruct (nth_error_lt_some (m_rows M) i) as [ row E ]; [ lia | ]. rewrite E.
  apply nth_error_lt_some. rewrite (Hr row (nth_error_In _ _ E)). exact Hj.
Qed.

Definition entry_or (M : mat) (i j : nat) : fnum := match entry M i j with Some v => v | None => NaN end.

Lemma row_ok : forall n M i js, square n M -> i < n -> (forall j, In j js -> j < n) ->
  mapM (fun j => m_get M (Z.of_nat i) (Z.of_nat j)) js = Ok (map (entry_or M i) js) /\
  row_at M i js (map (entry_or M i) js).
Proof.
  intros n M i js Hs Hi Hj.
  assert (G : forall j, In j js -> entry M i j = Some (entry_or M i j)).
  { intros j Hin. destruct (entry_square n M i j Hs Hi (Hj j Hin)) as (v & E). unfold entry_or. rewrite E. reflexivity. }
  split.
  - apply mapM_ok. intros j Hin. apply m_get_entry. auto.
  - unfold row_at. induction js as [ | j js IH ]; cbn; constructor; [ apply G; left; reflexivity | ].
    apply IH; intros; [ apply Hj | apply G ]; right; assumption.
Qed.

Lemma row_at_unique : forall M i js l l', row_at M i js l -> row_at M i js l' -> l = l'.
Proof.
  intros M i js l l' H. revert l'. induction H as [ | j v js l E _ IH ]; intros l' H'; inversion H'; subst; [ reflexivity | ].
  f_equal; [ congruence | auto ].
Qed.

Lemma with_matrix_row : forall o M n x y pt js, d_matrix o = Some M -> square n M -> in_grid x y pt -> x * y <= n ->
  (forall j, In j js -> j < n) ->
  exists l, distances_to_point_with_matrix o y pt js = Ok l /\ row_at M (index_of y pt) js l.
Proof.
  intros o M n x y pt js Ho Hs Hp Hn Hj. unfold distances_to_point_with_matrix. rewrite Ho.
  destruct (index_of_encode _ _ _ Hp) as [ E L ]. rewrite E.
  destruct (row_ok n M (index_of y pt) js Hs ltac:(lia) Hj) as [ H1 H2 ]. rewrite H1. eauto.
Qed.

Lemma with_matrix_sound : forall o M x y pt js l, d_matrix o = Some M -> in_grid x y pt ->
  distances_to_point_with_matrix o y pt js = Ok l -> row_at M (index_of y pt) js l.
Proof.
  intros o M x y pt js l Ho Hp. unfold distances_to_point_with_matrix. rewrite Ho.
  destruct (index_of_encode _ _ _ Hp) as [ E _ ]. rewrite E. intros H. apply mapM_Forall2 in H. unfold row_at.
  induction H; constructor; auto. apply m_get_entry. assumption.
Qed.

Lemma with_matrix_index_error : forall o M n x y pt js j, d_matrix o = Some M -> square n M -> in_grid x y pt ->
  In j js -> n <= j -> distances_to_point_with_matrix o y pt js = Raise IndexError.
Proof.
  intros o M n x y pt js j Ho Hs Hp Hin Hj. unfold distances_to_point_with_matrix. rewrite Ho.
  assert (R : forall i k e, m_get M i k = Raise e -> e = IndexError).
  { intros i k e. unfold m_get, getitem. destruct (norm_index (length (m_rows M)) i); [ | cbn; congruence ].
    destruct (nth_error (m_rows M) n0) as [ row | ]; cbn [bind]; [ | congruence ].
    destruct (norm_index (length row) k); [ | congruence ]. destruct (nth_error row n1); congruence. }
  destruct (mapM _ js) as [ l | e ] eqn:E.
  - exfalso. apply mapM_Forall2 in E. destruct (In_nth_error _ _ Hin) as (k & Hk).
    assert (exists v, m_get M (encode_point y pt) (Z.of_nat j) = Ok v) as (v & Hv).
    { clear - E Hin. induction E; [ destruct Hin | ]. destruct Hin as [ -> | Hin ]; eauto. }
    destruct (index_of_encode _ _ _ Hp) as [ Ei _ ]. rewrite Ei in Hv. apply m_get_entry in Hv. unfold entry in Hv.
    destruct (nth_error (m_rows M) (index_of y pt)) as [ row | ] eqn:Er; [ | discriminate ].
    destruct Hs as (_ & _ & Hs). specialize (Hs row (nth_error_In _ _ Er)).
    assert (j < length row) by (apply nth_error_Some; congruence). lia.
  - apply mapM_raise in E. destruct E as (j' & _ & E). rewrite (R _ _ _ E). reflexivity.
Qed.

(* ---------- loading ---------- *)

Lemma provides_call : forall env md o M r pt js pre, provides env md o M ->
  exists o', distances_to_point env r md pt js true pre o = (distances_to_point_with_matrix o' (t_y r) pt js, o') /\ d_matrix o' = Some M.
Proof.
  intros env md o M r pt js pre H. unfold distances_to_point. cbn [negb].
  destruct H as [ E | (E & x & o' & El & E') ]; rewrite E.
  - exists o. auto.
  - rewrite El. exists o'. auto.
Qed.

(* ---------- spatial weights ---------- *)

Section Weights.
Context (env : denv) (w : fnum) (x y : nat).
Let n := x * y.
Let pts := grid x y.

Definition added (i : nat) : list fnum :=
  map (fun q => fmul (norm2 env (fst q - fst (decode y i)) (snd q - snd (decode y i))) w) pts.
Definition addrow (i : nat) (row : list fnum) : list fnum := map (fun '(d, v) => fadd d v) (combine row (added i)).

Lemma added_length : forall i, length (added i) = n.
Proof. intros. unfold added, pts. rewrite map_length. apply grid_length. Qed.
Lemma addrow_length : forall i row, length row = n -> length (addrow i row) = n.
Proof. intros. unfold addrow. rewrite map_length, combine_length, added_length. lia. Qed.

Lemma weight_row_ok : forall rows i row, length rows = n -> i < n -> nth_error rows i = Some row -> length row = n ->
  weight_row env w pts (Z.of_nat y) (Mat n rows) (Z.of_nat i) = Ok (Mat n (replace_nth rows i (addrow i row))).
Proof.
  intros rows i row Hl Hi Hr Hrow. unfold weight_row.
  assert (Hy : y <> 0) by (intros E; unfold n in Hi; rewrite E in Hi; lia).
  replace (Z.of_nat y =? 0)%Z with false by lia. cbn zeta.
  replace (Z.quot (Z.of_nat i) (Z.of_nat y), (Z.of_nat i mod Z.of_nat y)%Z) with (decode y i).
  2:{ unfold decode. rewrite Z.quot_div_nonneg by lia. rewrite <- Nat2Z.inj_div, <- Nat2Z.inj_mod. reflexivity. }
  fold (added i). cbn [m_rows]. rewrite (getitem_in _ _ _ Hr). cbn [bind].
  assert (S : m_set_row (Mat n rows) (Z.of_nat i) (addrow i row) = Ok (Mat n (replace_nth rows i (addrow i row)))).
  { unfold m_set_row. cbn [m_rows m_cols]. rewrite norm_index_of_nat by lia. rewrite addrow_length, Nat.eqb_refl by exact Hrow. reflexivity. }
  pose proof (added_length i) as Ha. unfold addrow in S |- *.
  destruct (added i) as [ | v [ | v2 l ] ] eqn:E.
  - rewrite Ha, Hrow, Nat.eqb_refl. exact S.
  - destruct row as [ | d [ | d2 row ] ]; cbn in Ha, Hrow; try lia. cbn [map combine] in S |- *. exact S.
  - rewrite Ha, Hrow, Nat.eqb_refl. exact S.
Qed.

Lemma weight_rows_ok : forall is pre tail,
  (forall k i, nth_error is k = Some i -> i = length pre + k) -> length tail = length is -> length pre + length tail = n ->
  (forall row, In row tail -> length row = n) ->
  weight_rows env w pts (Z.of_nat y) (map Z.of_nat is) (Mat n (pre ++ tail)) =
  (Mat n (pre ++ map (fun '(i, row) => addrow i row) (combine is tail)), None).
Proof.
  induction is as [ | i is IH ]; intros pre tail Hpos Hlen Htot Hrow.
  - destruct tail; [ reflexivity | discriminate ].
  - destruct tail as [ | row tail ]; [ discriminate | ]. cbn [map weight_rows combine].
    assert (Hi : i = length pre) by (rewrite (Hpos 0 i eq_refl); lia). cbn in Htot, Hlen.
    rewrite (weight_row_ok (pre ++ row :: tail) i row).
    + rewrite Hi at 1. rewrite replace_nth_middle. change (addrow i row :: tail) with ([addrow i row] ++ tail). rewrite app_assoc.
      rewrite IH.
      * rewrite <- app_assoc. reflexivity.
      * intros k i' Hk. rewrite (Hpos (S k) i' Hk), app_length. cbn. lia.
      * lia.
      * rewrite app_length. cbn. lia.
      * intros. apply Hrow. right. assumption.
    + rewrite app_length. cbn. lia.
    + lia.
    + rewrite Hi, nth_error_app2, Nat.sub_diag by lia. reflexivity.
    + apply Hrow. left. reflexivity.
Qed.

Lemma weight_pass : forall M0, square n M0 ->
  exists M, weight_rows env w pts (Z.of_nat y) (zrange 0 (Z.of_nat x * Z.of_nat y)) M0 = (M, None) /\
    weighted_once (norm2 env) w x y M0 M.
Proof.
  intros [ c rows ] (Hc & Hl & Hr). cbn in Hc, Hl, Hr. subst c.
  rewrite <- Nat2Z.inj_mul, zrange_0. fold n.
  rewrite <- (app_nil_l rows). rewrite weight_rows_ok.
  - eexists. split; [ reflexivity | ]. cbn [app]. split.
    + apply square_map.
      * rewrite combine_length, seq_length. fold n. lia.
      * intros [ i row ] Hin. apply in_combine_r in Hin. apply addrow_length. auto.
    + intros i j d0 He. unfold entry in *. cbn [m_rows] in *.
      destruct (nth_error rows i) as [ row | ] eqn:Er; [ | discriminate ].
      assert (Hi : i < n) by (rewrite <- Hl; apply nth_error_Some; congruence).
      assert (Hj : j < n) by (rewrite <- (Hr row (nth_error_In _ _ Er)); apply nth_error_Some; congruence).
      assert (Ec : nth_error (combine (seq 0 n) rows) i = Some (i, row)).
      { pose proof (nth_error_enumerate rows i) as Hen. unfold enumerate in Hen. rewrite Hl in Hen. rewrite Hen, Er. reflexivity. }
      rewrite nth_error_map, Ec. cbn [option_map]. unfold addrow. rewrite nth_error_map.
      assert (Ec2 : nth_error (combine row (added i)) j =
                    Some (d0, fmul (norm2 env (fst (decode y j) - fst (decode y i)) (snd (decode y j) - snd (decode y i))) w)).
      { assert (Ea : nth_error (added i) j = Some (fmul (norm2 env (fst (decode y j) - fst (decode y i)) (snd (decode y j) - snd (decode y i))) w)).
        { unfold added, pts. rewrite nth_error_map, nth_error_grid by exact Hj. reflexivity. }
        apply nth_error_combine; assumption. }
      rewrite Ec2. reflexivity.
  - intros k i Hk. rewrite nth_error_seq in Hk. destruct (k <? n); [ | discriminate ]. cbn in *. congruence.
  - rewrite seq_length. exact Hl.
  - exact Hl.
  - exact Hr.
Qed.

Lemma weighted_once_unique : forall M0 M M', square n M0 -> weighted_once (norm2 env) w x y M0 M -> weighted_once (norm2 env) w x y M0 M' -> M = M'.
Proof.
  intros M0 M M' Hs [ Q1 E1 ] [ Q2 E2 ]. fold n in Q1, Q2.
  pose proof Q1 as (C1 & L1 & R1). pose proof Q2 as (C2 & L2 & R2).
  destruct M as [ c rows ], M' as [ c' rows' ]. cbn in *. subst c c'. f_equal.
  apply list_ext_len; [ congruence | ]. intros i Hi. rewrite L1 in Hi.
  destruct (nth_error_lt_some rows i) as [ r1 Er1 ]; [ lia | ]. destruct (nth_error_lt_some rows' i) as [ r2 Er2 ]; [ lia | ].
  rewrite Er1, Er2. f_equal. apply list_ext_len.
  - rewrite (R1 _ (nth_error_In _ _ Er1)), (R2 _ (nth_error_In _ _ Er2)). reflexivity.
  - intros j Hj. rewrite (R1 _ (nth_error_In _ _ Er1)) in Hj.
    destruct (entry_square n M0 i j Hs Hi Hj) as (d0 & Ed).
    specialize (E1 i j d0 Ed). specialize (E2 i j d0 Ed). unfold entry in E1, E2. cbn [m_rows] in E1, E2.
    rewrite Er1 in E1. rewrite Er2 in E2. congruence.
Qed.
End Weights.

Lemma weight_raw : forall env g x y w M0, spans g x y -> square (x * y) M0 ->
  exists M, weight_distance_matrix env g (DObj (SpatialDTW w) (Some M0) false) = (Ok M, DObj (SpatialDTW w) (Some M) true) /\
    weighted_once (norm2 env) w x y M0 M.
Proof.
  intros env g x y w M0 [ Hx Hy ] Hs. unfold weight_distance_matrix. cbn [d_kind d_matrix d_weighted].
  rewrite Hx, Hy. cbn zeta. rewrite list_of_2d_points_grid.
  destruct (weight_pass env w x y M0 Hs) as (M & E & H). rewrite E. exists M. auto.
Qed.

Lemma base_load_ok : forall env f g x y o M, spans g x y -> np_load env f = Ok M -> square (x * y) M ->
  base_load env f g o = (Ok (Some M), DObj (d_kind o) (Some M) (d_weighted o)).
Proof.
  intros env f g x y o M [ Hx Hy ] Hl (Hc & Hr & _). unfold base_load. rewrite Hl. unfold r_points. rewrite Hx, Hy, Hc, Hr.
  rewrite Nat2Z.inj_mul, Z.eqb_refl. reflexivity.
Qed.

Lemma base_load_cases : forall env f g x y o, spans g x y ->
  (forall M, np_load env f = Ok M -> forall row, In row (m_rows M) -> length row = m_cols M) ->
  (exists M, np_load env f = Ok M /\ square (x * y) M /\ base_load env f g o = (Ok (Some M), DObj (d_kind o) (Some M) (d_weighted o))) \/
  (exists r, base_load env f g o = (r, o) /\ (forall v, r = Ok v -> v = None)).
Proof.
  intros env f g x y o Hsp Hrect. destruct (np_load env f) as [ M | e ] eqn:El.
  - unfold base_load. rewrite El.
    destruct ((Z.of_nat (length (m_rows M)) =? r_points g)%Z && (Z.of_nat (m_cols M) =? r_points g)%Z) eqn:Ec.
    + left. exists M. split; [ reflexivity | split; [ | reflexivity ] ].
      destruct Hsp as [ Hx Hy ]. unfold r_points in Ec. rewrite Hx, Hy in Ec. 
      assert (m_cols M = x * y) by lia. assert (length (m_rows M) = x * y) by lia.
      repeat split; auto. intros row Hin. rewrite (Hrect M eq_refl row Hin). assumption.
    + right. eexists. split; [ reflexivity | discriminate ].
  - right. unfold base_load. rewrite El. destruct e; eexists; (split; [ reflexivity | try discriminate ]); congruence.
Qed.

(* ---------- histories of one distance measure used for one region ---------- *)

Definition winv (env : denv) (w : fnum) (x y : nat) (o : dobj) : Prop :=
  d_kind o = SpatialDTW w /\
  match d_matrix o with
  | None => d_weighted o = false
  | Some M => source env x y M \/ (d_weighted o = true /\ exists M0, source env x y M0 /\ weighted_once (norm2 env) w x y M0 M)
  end.

Section History.
Context (env : denv) (g : rect) (w : fnum) (x y : nat).
Hypothesis Hsp : spans g x y.
Hypothesis Hrect : forall f M, np_load env f = Ok M -> forall row, In row (m_rows M) -> length row = m_cols M.

Lemma winv_weight : forall o, winv env w x y o -> winv env w x y (snd (weight_distance_matrix env g o)).
Proof using Hsp.
  intros [ k m b ] [ Hk Hm ]. cbn in Hk, Hm. subst k. destruct m as [ M | ]; [ | split; auto ].
  destruct b.
  - cbn. split; cbn; auto.
  - destruct Hm as [ Hs | [ Hb _ ] ]; [ | discriminate ].
    destruct (weight_raw env g x y w M Hsp (proj1 Hs)) as (M' & E & H). rewrite E. cbn. split; cbn; eauto.
Qed.

Lemma winv_load : forall f o, winv env w x y o -> winv env w x y (snd (load_distance_matrix_2d env f g o)).
Proof using Hsp Hrect.
  intros f o Hi. pose proof Hi as [ Hk Hm ]. unfold load_distance_matrix_2d. rewrite Hk.
  destruct (base_load_cases env f g x y o Hsp (Hrect f)) as [ (M & El & Hs & E) | (r & E & Hr) ]; rewrite E.
  - assert (Hi' : winv env w x y (DObj (d_kind o) (Some M) (d_weighted o))).
    { split; [ exact Hk | ]. cbn. left. split; [ exact Hs | left; eauto ]. }
    apply winv_weight in Hi'. destruct (weight_distance_matrix env g _) as [ [ M' | e ] o' ]; exact Hi'.
  - destruct r as [ v | e ]; [ | exact Hi ]. apply winv_weight in Hi.
    destruct (weight_distance_matrix env g o) as [ [ M' | e ] o' ]; exact Hi.
Qed.

Lemma winv_compute : forall d o, wf3 d -> a3x d = x -> a3y d = y -> winv env w x y o ->
  winv env w x y (snd (compute_distance_matrix env (Data3 (TPlain d)) o)).
Proof.
  intros d o Hw Hx Hy [ Hk Hm ]. unfold compute_distance_matrix.
  destruct (region_matrix (env_measure env) (env_junk env) d Hw) as (M & E & Hs & _). rewrite E. cbn. split; [ exact Hk | ].
  cbn. left. split; [ rewrite <- Hx, <- Hy; exact Hs | right; exists d; auto ].
Qed.

Lemma winv_run : forall ops o, Forall (op_region x y) ops -> winv env w x y o -> winv env w x y (run_ops env g ops o).
Proof using Hsp Hrect.
  induction ops as [ | op ops IH ]; intros o Hops Hi; [ exact Hi | ]. inversion Hops; subst. cbn. apply IH; [ assumption | ].
  destruct op as [ f | | r | r f pt js pre ]; cbn [run_op].
  - apply winv_load. exact Hi.
  - apply winv_weight. exact Hi.
  - destruct H1 as (d & -> & Hw & Hx & Hy). apply winv_compute; auto.
  - destruct H1 as (d & -> & Hw & Hx & Hy). unfold distances_to_point. cbn [negb].
    destruct (d_matrix o) eqn:Em; [ exact Hi | ].
    assert (Hl : winv env w x y (snd (load_distance_matrix_md env (option_map (fun f => DMeta f g) f) o))).
    { destruct f as [ f | ]; cbn; [ apply winv_load; exact Hi | exact Hi ]. }
    destruct (load_distance_matrix_md env (option_map (fun f => DMeta f g) f) o) as [ [ r' | e ] o' ]; cbn in Hl; [ exact Hl | ].
    destruct pre; [ exact Hl | ].
    apply (winv_compute d) in Hl; auto. destruct (compute_distance_matrix env (Data3 (TPlain d)) o') as [ [ M | e' ] o'' ]; exact Hl.
Qed.
End History.

(* ---------- the centroid ---------- *)

Section Centroid.
Context (env : denv) (r : stregion fnum) (md : option dmeta) (indices : list nat) (M : mat) (ds : point -> list fnum).

(** the loop over the points [pts], once every call returns its row [ds] *)
Definition centroid_of (pts : list point) (best : option point) (dists : option (list fnum)) : Prop :=
  match best with
  | None => dists = None /\ forall p, In p pts -> flt (fsum (ds p)) PInf = false
  | Some c => dists = Some (ds c) /\ flt (fsum (ds c)) PInf = true /\
      exists before after, pts = before ++ c :: after /\
        (forall p, In p before -> fle (fsum (ds p)) (fsum (ds c)) = false) /\
        (forall p, In p after -> flt (fsum (ds p)) (fsum (ds c)) = false)
  end.

Lemma centroid_loop : forall pts o,
  provides env md o M ->
  (forall p, In p pts -> forall o, d_matrix o = Some M -> distances_to_point_with_matrix o (t_y r) p indices = Ok (ds p)) ->
  exists best least dists o', foldM (centroid_step env r md true indices) pts ((None, PInf, None), o) = Ok ((best, least, dists), o') /\
    centroid_of pts best dists /\ provides env md o' M /\
    match best with None => least = PInf | Some c => least = fsum (ds c) end.
Proof.
  intros pts o Hp. induction pts as [ | p pts IH ] using rev_ind; intros Hd.
  - exists None, PInf, None, o. split; [ reflexivity | split; [ split; [ reflexivity | intros ? [] ] | auto ] ].
  - destruct IH as (best & least & dists & o' & E & Hc & Hp' & Hl); [ intros; apply Hd; [ apply in_or_app; auto | assumption ] | ].
    rewrite foldM_app, E. cbn [bind foldM]. unfold centroid_step at 1.
    destruct (provides_call env md o' M r p indices true Hp') as (o'' & Ec & Em). rewrite Ec.
    rewrite (Hd p) by (auto; apply in_or_app; right; left; reflexivity). cbn [bind].
    destruct (flt (fsum (ds p)) least) eqn:El.
    + exists (Some p), (fsum (ds p)), (Some (ds p)), o''. split; [ reflexivity | split; [ | split; [ left; exact Em | reflexivity ] ] ].
      cbn. split; [ reflexivity | ].
      destruct best as [ c | ]; cbn in Hc.
      * subst least. destruct Hc as (_ & Hci & before & after & -> & Hb & Ha). split; [ exact (flt_trans _ _ _ El Hci) | ].
        exists (before ++ c :: after), []. split; [ reflexivity | split; [ | intros ? [] ] ].
        intros q Hq. apply in_app_or in Hq. destruct (fle (fsum (ds q)) (fsum (ds p))) eqn:Eq; [ exfalso | reflexivity ].
        pose proof (fle_lt_trans _ _ _ Eq El) as Hlt. destruct Hq as [ Hq | [ <- | Hq ] ].
        -- specialize (Hb q Hq). apply flt_fle in Hlt. congruence.
        -- rewrite flt_irrefl in Hlt. discriminate.
        -- specialize (Ha q Hq). congruence.
      * subst least. destruct Hc as [ _ Hc ]. split; [ exact El | ].
        exists pts, []. split; [ reflexivity | split; [ | intros ? [] ] ].
        intros q Hq. destruct (fle (fsum (ds q)) (fsum (ds p))) eqn:Eq; [ exfalso | reflexivity ].
        pose proof (fle_lt_trans _ _ _ Eq El) as Hlt. specialize (Hc q Hq). congruence.
    + exists best, least, dists, o''. split; [ reflexivity | split; [ | split; [ left; exact Em | exact Hl ] ] ].
      destruct best as [ c | ]; cbn in Hc |- *.
      * subst least. destruct Hc as (Hds & Hci & before & after & -> & Hb & Ha). split; [ exact Hds | split; [ exact Hci | ] ].
        exists before, (after ++ [p]). split; [ rewrite <- app_assoc; reflexivity | split; [ exact Hb | ] ].
        intros q Hq. apply in_app_or in Hq. destruct Hq as [ Hq | [ <- | [] ] ]; auto.
      * subst least. destruct Hc as [ Hds Hc ]. split; [ exact Hds | ]. intros q Hq. apply in_app_or in Hq.
        destruct Hq as [ Hq | [ <- | [] ] ]; auto.
Qed.
End Centroid.

Lemma centroid_spec : forall env r md o M n x y items indices,
  t_items r = Ok items -> all_point_indices r = Ok indices -> t_y r = y ->
  (forall p, In p (map fst items) -> in_grid x y p) -> (forall j, In j indices -> j < n) -> x * y <= n ->
  square n M -> provides env md o M ->
  let ds p := map (entry_or M (index_of y p)) indices in
  (forall p, In p (map fst items) -> row_at M (index_of y p) indices (ds p)) /\
  exists best dists, find_centroid_and_distances env r md true o = Ok (best, dists) /\ centroid_of ds (map fst items) best dists.
Proof.
  intros env r md o M n x y items indices Hit Hidx Hy Hpts Hj Hn Hs Hp ds.
  assert (Hrow : forall p, In p (map fst items) -> mapM (fun j => m_get M (Z.of_nat (index_of y p)) (Z.of_nat j)) indices = Ok (ds p) /\ row_at M (index_of y p) indices (ds p)).
  { intros p Hin. destruct (index_of_encode _ _ _ (Hpts p Hin)) as [ _ L ]. apply (row_ok n); auto. lia. }
  split; [ intros p Hin; apply Hrow; exact Hin | ].
  unfold find_centroid_and_distances. rewrite Hidx, Hit. cbn [bind].
  destruct (centroid_loop env r md indices M ds (map fst items) o Hp) as (best & least & dists & o' & E & Hc & _).
  - intros p Hin o' Ho. unfold distances_to_point_with_matrix. rewrite Ho, Hy.
    destruct (index_of_encode _ _ _ (Hpts p Hin)) as [ Ee _ ]. rewrite Ee. apply Hrow. exact Hin.
  - rewrite E. cbn [bind]. eauto.
Qed.

(* ---------- intra-cluster cost ---------- *)

Local Open Scope Q_scope.
Lemma sum_squared_fin : forall {A} (f : A -> fnum) l, (forall a, In a l -> is_fin (f a) = true) ->
  feqv (sum_squared (map f l)) (Fin (qsum (map (fun a => qof (f a) * qof (f a)) l))).
Proof.
  intros A f l H. unfold sum_squared. rewrite map_map. apply feqv_fsum_map. intros a Ha.
  rewrite (is_fin_qof _ (H a Ha)) at 1 2. cbn. reflexivity.
Qed.
Local Close Scope Q_scope.

Lemma cost_spec : forall env (p : crisp) (d : arr3 fnum) x y medoids md o M,
  valid_partition p x y -> wf3 d -> a3x d = x -> a3y d = y ->
  (pk p <= Z.of_nat (length medoids))%Z -> (forall m, In m medoids -> in_grid x y m) ->
  square (x * y) M -> (forall i j v, entry M i j = Some v -> is_fin v = true) -> provides env md o M ->
  exists c, intra_cluster_cost env p medoids (TPlain d) md o = Ok c /\
    feqv c (Fin (qsum (map (fun pt => let e := qof (entry_or M (index_of y (nth (Z.to_nat (label_of p pt)) medoids (0, 0)%Z)) (index_of y pt)) in (e * e)%Q) (grid x y)))).
Proof.
  intros env p d x y medoids md o M Hv Hd Ex Ey Hk Hmed Hs Hfin Hp.
  unfold intra_cluster_cost. rewrite (create_all_spt_clusters_ok p d x y Hv Ex Ey). cbn [bind].
  change (t_y (TPlain d)) with (a3y d). rewrite Ey.
  set (k := Z.to_nat (pk p)).
  assert (Hen : enumerate (map (fun i => TCluster (TPlain d) p i) (zrange 0 (pk p))) = map (fun i => (i, TCluster (TPlain d) p (Z.of_nat i))) (seq 0 k)).
  { apply list_ext_len.
    - rewrite enumerate_length, !map_length, zrange_length, seq_length. lia.
    - intros i Hi. rewrite enumerate_length, map_length, zrange_length in Hi.
      rewrite nth_error_enumerate, !nth_error_map, nth_error_seq, zrange_nth by lia. replace (i <? k) with true by lia.
      cbn. repeat f_equal. }
  rewrite Hen, foldM_map. cbn [fst snd].
  set (medoid := fun i => nth i medoids (0, 0)%Z).
  set (sq := fun i pt => let e := qof (entry_or M (index_of y (medoid i)) (index_of y pt)) in (e * e)%Q).
  set (part := fun i => qsum (map (sq i) (filter (fun pt => Z.to_nat (label_of p pt) =? i) (grid x y)))).
  assert (Hmedoid : forall i, i < k -> nth_error medoids i = Some (medoid i)).
  { intros i Hi. apply nth_error_nth'. lia. }
  assert (G : forall is, (forall i, In i is -> i < k) -> exists c o', 
    foldM (fun '(cost, o0) i =>
      medoid <- getitem medoids (Z.of_nat i) ;;
      items <- t_items (TCluster (TPlain d) p (Z.of_nat i)) ;;
      let indices := map (fun item : point * list fnum => Z.to_nat (encode_point y (fst item))) items in
      match distances_to_point env (TPlain d) md medoid indices true true o0 with
      | (Raise e, _) => Raise e
      | (Ok ds, o') => Ok (fadd cost (sum_squared ds), o')
      end) is (Fin 0, o) = Ok (c, o') /\ provides env md o' M /\ feqv c (Fin (qsum (map part is)))).
  { induction is as [ | i is IH ] using rev_ind; intros Hin.
    - exists (Fin 0), o. split; [ reflexivity | split; [ exact Hp | apply feqv_refl ] ].
    - destruct IH as (c & o' & E & Hp' & Hc); [ intros; apply Hin; apply in_or_app; auto | ].
      assert (Hi : i < k) by (apply Hin; apply in_or_app; right; left; reflexivity).
      rewrite foldM_app, E. cbn [bind foldM]. rewrite (getitem_in _ _ _ (Hmedoid i Hi)). cbn [bind].
      destruct (cluster_t_items p d x y (Z.of_nat i) Hv Hd Ex Ey) as (items & E1 & E2 & _). rewrite E1. cbn [bind].
      rewrite <- (map_map fst (fun pt => Z.to_nat (encode_point y pt))), E2.
      set (members := filter (fun pt => (label_of p pt =? Z.of_nat i)%Z) (grid x y)).
      assert (Hmem : forall pt, In pt members -> in_grid x y pt) by (intros pt H; apply filter_In in H; apply in_grid_iff, H).
      rewrite (map_ext_in _ (index_of y)).
      2:{ intros pt H. destruct (index_of_encode _ _ _ (Hmem pt H)) as [ Ee _ ]. rewrite Ee. apply Nat2Z.id. }
      destruct (provides_call env md o' M (TPlain d) (medoid i) (map (index_of y) members) true Hp') as (o'' & Ec & Em). rewrite Ec.
      change (t_y (TPlain d)) with (a3y d). rewrite Ey.
      assert (Hg : in_grid x y (medoid i)) by (apply Hmed, (nth_error_In _ _ (Hmedoid i Hi))).
      destruct (index_of_encode _ _ _ Hg) as [ Ee Lm ].
      assert (Hr : mapM (fun j => m_get M (encode_point y (medoid i)) (Z.of_nat j)) (map (index_of y) members)
                   = Ok (map (fun pt => entry_or M (index_of y (medoid i)) (index_of y pt)) members)).
      { rewrite Ee. destruct (row_ok (x * y) M (index_of y (medoid i)) (map (index_of y) members) Hs Lm) as [ H _ ].
        - intros j Hj. apply in_map_iff in Hj. destruct Hj as (pt & <- & Hpt). apply (index_of_encode _ _ _ (Hmem pt Hpt)).
        - rewrite H, map_map. reflexivity. }
      unfold distances_to_point_with_matrix. rewrite Em, Hr. cbn [bind].
      eexists _, o''. split; [ reflexivity | split; [ left; exact Em | ] ].
      rewrite map_app. cbn [map]. 
      transitivity (Fin (qsum (map part is) + part i)%Q).
      + transitivity (fadd (Fin (qsum (map part is))) (Fin (part i))); [ | reflexivity ].
        assert (Hss : feqv (sum_squared (map (fun pt => entry_or M (index_of y (medoid i)) (index_of y pt)) members)) (Fin (part i))).
        { rewrite sum_squared_fin.
          - unfold part, sq. unfold members. cbn zeta.
            rewrite (filter_ext_in _ (fun pt => Z.to_nat (label_of p pt) =? i)); [ reflexivity | ].
            intros pt Hpt. apply in_grid_iff in Hpt. destruct (label_of_spec p x y pt Hv Hpt) as [ _ Hb ]. lia.
          - intros pt Hpt. destruct (index_of_encode _ _ _ (Hmem pt Hpt)) as [ _ Lp ].
            destruct (entry_square _ M _ _ Hs Lm Lp) as (v & Ev). unfold entry_or. rewrite Ev. apply (Hfin _ _ _ Ev). }
        destruct c; try contradiction. cbn in Hc. destruct (sum_squared _); try contradiction. cbn in Hss |- *. rewrite Hc, Hss. reflexivity.
      + cbn. rewrite qsum_app. cbn [qsum]. rewrite Qplus_0_r. reflexivity. }
  destruct (G (seq 0 k)) as (c & o' & E & _ & Hc); [ intros i Hi; apply in_seq in Hi; lia | ].
  exists c. split.
  - match type of E with foldM ?f ?l ?s = _ => match goal with |- context [foldM ?f' l s] => replace (foldM f' l s) with (foldM f l s) end end.
    + rewrite E. reflexivity.
    + apply foldM_ext. intros [ cost o0 ] i _. reflexivity.
  - rewrite Hc. cbn. unfold part. rewrite (qsum_by_label (fun pt => Z.to_nat (label_of p pt)) sq).
    + reflexivity.
    + intros pt Hpt. apply in_grid_iff in Hpt. destruct (label_of_spec p x y pt Hv Hpt) as [ _ Hb ]. lia.
Qed.
