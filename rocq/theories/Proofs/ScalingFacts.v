(** Facts for Model/Scaling.v. *)
From Coq Require Import ZifyBool ZifyNat Lqa.
From Verif Require Import Base.Py Base.PyFacts Base.Arr Base.ArrFacts Base.Float Base.FloatFacts
     Spec.Grid Spec.Partition Spec.Rect Spec.Scaling Model.Region Model.Scaling
     Proofs.RegionFacts Proofs.PartitionFacts Proofs.SubsetFacts.

(* ---------- one series ---------- *)
Lemma no_inf_cases s v : no_inf s -> In v s -> v = NaN \/ exists q, v = Fin q.
Proof. intros H Hin. specialize (H v Hin). destruct v; try discriminate; eauto. Qed.

(** minimum and maximum of a non-empty series without infinities *)
Lemma min_max_cases s mn mx : no_inf s -> nanmin s = Ok mn -> nanmax s = Ok mx ->
  (all_nan s /\ mn = NaN /\ mx = NaN) \/
  (exists a b, mn = Fin a /\ mx = Fin b /\ (a <= b)%Q /\ In (Fin a) s /\ In (Fin b) s /\
     (forall q, In (Fin q) s -> (a <= q <= b)%Q)).
Proof.
  intros Hi Hmn Hmx.
  assert (Hnan : forall v, is_nan v = true -> v = NaN) by (intros []; cbn; congruence).
  destruct (nanmin_spec _ _ Hmn) as [(N0 & _ & Hn)|(N & I & M)].
  - left. split; [exact Hn|]. split; [auto|].
    destruct (nanmax_spec _ _ Hmx) as [(N1 & _)|(N1 & I & _)]; auto.
  - right. destruct (nanmax_spec _ _ Hmx) as [(_ & _ & Hn)|(N' & I' & M')].
    { rewrite (Hn _ I) in N. discriminate. }
    destruct (no_inf_cases s mn Hi I) as [->|[a ->]]; [discriminate|].
    destruct (no_inf_cases s mx Hi I') as [->|[b ->]]; [discriminate|].
    exists a, b. split; auto. split; auto. split; [apply fle_Fin; apply M; auto|].
    split; auto. split; auto. intros q Hq. split; apply fle_Fin; [apply M|apply M']; auto.
Qed.

Lemma constant_iff s a b : In (Fin a) s -> In (Fin b) s -> (forall q, In (Fin q) s -> (a <= q <= b)%Q) -> no_inf s ->
  (constant s <-> (a == b)%Q).
Proof.
  intros Ia Ib H Hi. split.
  - intros C. specialize (C _ _ Ia Ib eq_refl eq_refl). cbn in C. apply Qeq_bool_iff in C. auto.
  - intros E u v Hu Hv Nu Nv. destruct (no_inf_cases s u Hi Hu) as [->|[p ->]]; [discriminate|].
    destruct (no_inf_cases s v Hi Hv) as [->|[q ->]]; [discriminate|].
    cbn. apply Qeq_bool_iff. apply H in Hu, Hv. lra.
Qed.

Definition scaled1 (a b : Q) (v : fnum) : fnum := fdiv (fsub v (Fin a)) (fsub (Fin b) (Fin a)).
Lemma scaled1_fin a b q : (a < b)%Q -> feqv (scaled1 a b (Fin q)) (Fin ((q - a) / (b - a))).
Proof.
  intros H. unfold scaled1, fsub, fopp, fadd, fdiv.
  destruct (Qeq_bool (b + - a) 0) eqn:E.
  - apply Qeq_bool_iff in E. exfalso. lra.
  - cbn. reflexivity.
Qed.
Lemma scaled1_fin' a b q : (a < b)%Q -> scaled1 a b (Fin q) = Fin ((q + - a) / (b + - a)).
Proof.
  intros H. unfold scaled1, fsub, fopp, fadd, fdiv.
  destruct (Qeq_bool (b + - a) 0) eqn:E; auto. apply Qeq_bool_iff in E. exfalso. lra.
Qed.

Lemma scale_this_point_spec s mn mx : s <> [] -> no_inf s -> nanmin s = Ok mn -> nanmax s = Ok mx ->
  scaled_series s (scale_this_point (length s) mn mx s).
Proof.
  intros Hne Hi Hmn Hmx. unfold scale_this_point.
  assert (Hrep : forall (v w : fnum) n, In v (repeat w n) -> v = w).
  { intros v w n H. apply repeat_spec in H; auto. }
  destruct (min_max_cases s mn mx Hi Hmn Hmx) as [(Hn & -> & ->)|(a & b & -> & -> & Hab & Ia & Ib & Hq)].
  - cbn [is_nan orb]. unfold scaled_series. rewrite repeat_length. split; auto.
    split; [intros v Hv; apply Hrep in Hv; subst; auto|].
    split; [intros _ v Hv; apply Hrep in Hv; subst; auto|].
    split; [intros H; contradiction|].
    intros H. exfalso. apply H. intros u v Hu _ Nu. rewrite (Hn u Hu) in Nu. discriminate.
  - cbn [is_nan orb].
    assert (Hnn : ~ all_nan s) by (intros H; specialize (H _ Ia); discriminate).
    pose proof (constant_iff s a b Ia Ib Hq Hi) as HC.
    cbn [feqb]. destruct (Qeq_bool a b) eqn:E.
    + apply Qeq_bool_iff in E. unfold scaled_series. rewrite repeat_length. split; auto.
      split; [intros v Hv; apply Hrep in Hv; subst; right; split; reflexivity|].
      split; [intros H; contradiction|].
      split; [intros _ _ v Hv; apply Hrep in Hv; auto|].
      intros H. exfalso. apply H. apply HC; auto.
    + assert (Hlt : (a < b)%Q).
      { destruct (Qlt_le_dec a b); auto. assert (a == b)%Q by lra. apply Qeq_bool_iff in H. congruence. }
      clear E. change (fun v => fdiv (fsub v (Fin a)) (fsub (Fin b) (Fin a))) with (scaled1 a b).
      assert (HnC : ~ constant s) by (intros H; apply HC in H; lra).
      assert (Hd : (0 < b + - a)%Q) by lra.
      unfold scaled_series. rewrite map_length. split; auto.
      split.
      { intros v Hv. apply in_map_iff in Hv. destruct Hv as (u & <- & Hu).
        destruct (no_inf_cases s u Hi Hu) as [->|[q ->]]; [left; reflexivity|right].
        rewrite scaled1_fin' by auto. rewrite !fle_Fin. apply Hq in Hu. split.
        - apply Qle_shift_div_l; auto. lra.
        - apply Qle_shift_div_r; auto. lra. }
      split; [intros H; contradiction|]. split; [intros _ H; contradiction|]. intros _.
      split.
      { exists (scaled1 a b (Fin a)). split; [apply in_map; auto|]. rewrite scaled1_fin' by auto. cbn.
        setoid_replace (a + - a)%Q with 0%Q by ring. unfold Qdiv. ring. }
      split.
      { exists (scaled1 a b (Fin b)). split; [apply in_map; auto|]. rewrite scaled1_fin' by auto. cbn.
        field. lra. }
      intros n m u v u' v' Hu Hv Hu' Hv'. rewrite nth_error_map in Hu', Hv'. rewrite Hu in Hu'. rewrite Hv in Hv'.
      cbn in Hu', Hv'. inversion Hu'; inversion Hv'; subst u' v'. clear Hu' Hv'.
      apply nth_error_In in Hu, Hv.
      destruct (no_inf_cases s u Hi Hu) as [->|[p ->]]; [split; [reflexivity|]; destruct (scaled1 a b v); reflexivity|].
      rewrite !scaled1_fin' by auto. split; auto.
      destruct (no_inf_cases s v Hi Hv) as [->|[q ->]]; [reflexivity|].
      rewrite scaled1_fin' by auto. cbn [flt].
      destruct (Qltb p q) eqn:L.
      * apply Qltb_spec in L. apply Qltb_spec. unfold Qdiv. apply Qmult_lt_compat_r; [apply Qinv_lt_0_compat; auto|lra].
      * apply Qltb_false in L. apply Qltb_false. unfold Qdiv. apply Qmult_le_compat_r; [lra|].
        apply Qlt_le_weak, Qinv_lt_0_compat; auto.
Qed.

(** a series comes back *)
Definition restorable (s : list fnum) : Prop := no_nan s \/ ~ constant s \/ all_nan s.

Lemma descale_scale_series s mn mx : s <> [] -> no_inf s -> nanmin s = Ok mn -> nanmax s = Ok mx -> restorable s ->
  Forall2 feqv (descale_series mn mx (scale_this_point (length s) mn mx s)) s.
Proof.
  intros Hne Hi Hmn Hmx Hr. unfold scale_this_point, descale_series.
  destruct (min_max_cases s mn mx Hi Hmn Hmx) as [(Hn & -> & ->)|(a & b & -> & -> & Hab & Ia & Ib & Hq)].
  - cbn [is_nan orb]. clear - Hn. induction s as [|v s IH]; cbn [length repeat map]; constructor.
    + assert (is_nan v = true) by (apply Hn; left; auto). destruct v; try discriminate. exact I.
    + apply IH. intros u Hu. apply Hn; right; auto.
  - cbn [is_nan orb feqb]. pose proof (constant_iff s a b Ia Ib Hq Hi) as HC.
    destruct (Qeq_bool a b) eqn:E.
    + apply Qeq_bool_iff in E. assert (Hc : constant s) by (apply HC; auto).
      destruct Hr as [Hr|[Hr|Hr]]; [|contradiction|specialize (Hr _ Ia); discriminate].
      assert (Hall : forall v, In v s -> feqv (Fin a) v).
      { intros v Hv. destruct (no_inf_cases s v Hi Hv) as [->|[q ->]]; [specialize (Hr _ Hv); discriminate|].
        apply Hq in Hv. cbn. lra. }
      clear - Hall E. induction s as [|v s IH]; cbn [length repeat map]; constructor.
      * eapply feqv_trans; [|apply Hall; left; reflexivity]. cbn. ring.
      * apply IH. intros; apply Hall; right; auto.
    + assert (Hlt : (a < b)%Q).
      { destruct (Qlt_le_dec a b); auto. assert (a == b)%Q by lra. apply Qeq_bool_iff in H. congruence. }
      assert (Hall : forall v, In v s -> v = NaN \/ exists q, v = Fin q) by (intros; apply (no_inf_cases s); auto).
      clear - Hall Hlt. induction s as [|v s IH]; cbn [map]; constructor.
      * destruct (Hall v (or_introl eq_refl)) as [->|[q ->]]; [exact I|].
        fold (scaled1 a b (Fin q)). rewrite scaled1_fin' by auto. cbn. field. lra.
      * apply IH. intros; apply Hall; right; auto.
Qed.

(** a constant series with missing samples does not: they come back as the constant *)
Lemma descale_scale_constant s mn mx c : s <> [] -> no_inf s -> nanmin s = Ok mn -> nanmax s = Ok mx ->
  constant s -> In (Fin c) s ->
  forall v, In v (descale_series mn mx (scale_this_point (length s) mn mx s)) -> feqv v (Fin c).
Proof.
  intros Hne Hi Hmn Hmx Hc Hin v Hv. unfold scale_this_point, descale_series in Hv.
  destruct (min_max_cases s mn mx Hi Hmn Hmx) as [(Hn & -> & ->)|(a & b & -> & -> & Hab & Ia & Ib & Hq)].
  - specialize (Hn _ Hin). discriminate.
  - cbn [is_nan orb feqb] in Hv. pose proof (constant_iff s a b Ia Ib Hq Hi) as HC.
    apply HC in Hc. pose proof (proj2 (Qeq_bool_iff a b) Hc) as E. rewrite E in Hv.
    apply in_map_iff in Hv. destruct Hv as (u & <- & Hu). apply repeat_spec in Hu. subst u. cbn.
    apply Hq in Hin. lra.
Qed.

(* ---------- regions ---------- *)
Lemma value_at_new_spatial {A B} (r : stregion A) (m : arr2 B) pt :
  twf r -> in_grid (t_x r) (t_y r) pt -> t_readable r pt = true ->
  value_at (t_new_spatial r m) pt = get2 m (fst pt) (snd pt).
Proof.
  induction r as [d|r IH p c|r IH mn mx]; cbn [t_new_spatial value_at t_readable twf]; intros Hw Hg Hr; auto.
  - destruct Hw as (W & Wp & Ex & Ey). apply andb_true_iff in Hr. destruct Hr as [H1 H2].
    rewrite is_member_spec; auto.
    + cbn [bind]. rewrite H1. apply IH; auto.
    + rewrite Ex, Ey. exact Hg.
  - apply IH; tauto.
Qed.
Lemma s_data_new_spatial {A B} (r : stregion A) (m : arr2 B) : s_data (t_new_spatial r m) = m.
Proof. induction r; cbn; auto. Qed.
Lemma t_data_new_st {A} (r : stregion A) (m : arr3 A) : t_data (t_new_st r m) = m.
Proof. induction r; cbn; auto. Qed.

Definition nanmin' (s : list fnum) : fnum := match nanmin s with Ok v => v | _ => NaN end.
Definition nanmax' (s : list fnum) : fnum := match nanmax s with Ok v => v | _ => NaN end.
Lemma nanmin'_ok s : s <> [] -> nanmin s = Ok (nanmin' s).
Proof. intros H. unfold nanmin'. destruct (nanmin_ok s H) as [m ->]. auto. Qed.
Lemma nanmax'_ok s : s <> [] -> nanmax s = Ok (nanmax' s).
Proof. intros H. unfold nanmax'. destruct (nanmax_ok s H) as [m ->]. auto. Qed.

Lemma t_ser_length {A} (r : stregion A) pt : twf r -> in_grid (t_x r) (t_y r) pt -> length (t_ser r pt) = t_len r.
Proof.
  intros Hw Hg. pose proof (series3_t_ser r pt Hw Hg) as E. destruct Hg as [H1 H2].
  destruct (series3_ok (t_data r) (fst pt) (snd pt)) as (s & E' & L & _); auto using twf_data.
  rewrite E in E'. inversion E'; subst. exact L.
Qed.

(** scaling any (consistent) region *)
Lemma scale_region_spec (r : stregion fnum) :
  twf r -> t_consistent r -> 0 < t_len r ->
  exists m mn mx, scale_apply_to (t_x r) (t_y r) r (t_len r)
      = Ok (TScaled (t_new_st r m) (t_new_spatial r mn) (t_new_spatial r mx)) /\
    wf3 m /\ a3t m = t_len r /\ a3x m = t_x r /\ a3y m = t_y r /\
    wf2 mn /\ a2x mn = t_x r /\ a2y mn = t_y r /\ wf2 mx /\ a2x mx = t_x r /\ a2y mx = t_y r /\
    forall pt, in_grid (t_x r) (t_y r) pt ->
      get2 mn (fst pt) (snd pt) = Ok (if t_memb r pt then nanmin' (t_ser r pt) else Fin 0) /\
      get2 mx (fst pt) (snd pt) = Ok (if t_memb r pt then nanmax' (t_ser r pt) else Fin 0) /\
      series3 m (fst pt) (snd pt)
      = Ok (if t_memb r pt
            then scale_this_point (t_len r) (nanmin' (t_ser r pt)) (nanmax' (t_ser r pt)) (t_ser r pt)
            else repeat (Fin 0) (t_len r)).
Proof.
  intros Hw Hc Hlen. unfold scale_apply_to. rewrite Nat.eqb_refl. cbn [py_assert bind].
  assert (Hne : forall pt, in_grid (t_x r) (t_y r) pt -> t_ser r pt <> []).
  { intros pt Hg E. pose proof (t_ser_length r pt Hw Hg) as L. rewrite E in L. cbn in L. lia. }
  destruct (t_apply_scalar_spec (Fin 0) (fregion_same nanmin (t_x r) (t_y r)) r (fun _ => nanmin'))
    as (mn & Emn & Wmn & Xmn & Ymn & Pmn); auto.
  { intros pt Hg _. exists nanmin. split; [apply get2_full; auto|]. apply nanmin'_ok; auto. }
  destruct (t_apply_scalar_spec (Fin 0) (fregion_same nanmax (t_x r) (t_y r)) r (fun _ => nanmax'))
    as (mx & Emx & Wmx & Xmx & Ymx & Pmx); auto.
  { intros pt Hg _. exists nanmax. split; [apply get2_full; auto|]. apply nanmax'_ok; auto. }
  rewrite Emn, Emx. cbn [bind].
  destruct (t_apply_series_spec (Fin 0)
              (scale_function (t_x r) (t_y r) (t_len r) (t_new_spatial r mn) (t_new_spatial r mx)) r
              (fun pt s => scale_this_point (t_len r) (nanmin' s) (nanmax' s) s) (t_len r))
    as (m & Em & Wm & Tm & Xm & Ym & Pm); auto.
  { intros pt Hg Hm. pose proof (Hc pt Hg Hm) as Hr. 
    exists (fun s => Ok (scale_this_point (t_len r) (nanmin' (t_ser r pt)) (nanmax' (t_ser r pt)) s)).
    split; [|split; [reflexivity|]].
    - cbn [scale_function f_at]. rewrite !value_at_new_spatial by auto. rewrite Pmn, Pmx, Hm by auto. reflexivity.
    - unfold scale_this_point. destruct (_ || _); [apply repeat_length|]. destruct (feqb _ _); [apply repeat_length|].
      rewrite map_length. apply t_ser_length; auto. }
  rewrite Em. cbn [bind]. exists m, mn, mx. split; auto. repeat (split; [assumption|]).
  intros pt Hg. split; [apply Pmn; auto|]. split; [apply Pmx; auto|]. apply Pm; auto.
Qed.

Lemma scaled_wf (r : stregion fnum) m (mn mx : arr2 fnum) :
  twf r -> wf3 m -> a3x m = t_x r -> a3y m = t_y r ->
  wf2 mn -> a2x mn = t_x r -> a2y mn = t_y r -> wf2 mx -> a2x mx = t_x r -> a2y mx = t_y r ->
  twf (TScaled (t_new_st r m) (t_new_spatial r mn) (t_new_spatial r mx)).
Proof.
  intros Hw Wm Xm Ym W1 X1 Y1 W2 X2 Y2.
  assert (S : forall (q : arr2 fnum), wf2 q -> a2x q = t_x r -> a2y q = t_y r -> swf (t_new_spatial r q)).
  { clear - Hw. intros q Wq Xq Yq. induction r as [d|r IH p c|r IH a b]; cbn [t_new_spatial swf twf] in *; auto.
    - destruct Hw as (W & Wp & Ex & Ey). split; [apply IH; auto|]. split; auto.
      unfold s_x, s_y. rewrite s_data_new_spatial. unfold t_x, t_y in *. cbn [t_data] in *. split; congruence.
    - apply IH; tauto. }
  assert (T : twf (t_new_st r m)).
  { clear - Hw Wm Xm Ym. induction r as [d|r IH p c|r IH a b]; cbn [t_new_st twf] in *; auto.
    - destruct Hw as (W & Wp & Ex & Ey). split; [apply IH; auto|]. split; auto.
      unfold t_x, t_y in *. rewrite t_data_new_st. cbn [t_data] in *. split; congruence.
    - destruct Hw as (W & ? & ? & ? & ? & ? & ?). split; [apply IH; auto|]. split; auto. split; auto.
      unfold t_x, t_y in *. rewrite t_data_new_st. cbn [t_data] in *. repeat split; congruence. }
  cbn [twf]. split; auto. split; auto. split; auto.
  unfold s_x, s_y, t_x, t_y in *. rewrite !s_data_new_spatial, t_data_new_st. repeat split; congruence.
Qed.

Lemma memb_new_st {A} (r : stregion A) m pt : t_memb (t_new_st r m) pt = t_memb r pt.
Proof. induction r; cbn; auto. Qed.
Lemma readable_new_st {A} (r : stregion A) m pt : t_readable (t_new_st r m) pt = t_readable r pt.
Proof. induction r; cbn; auto. congruence. Qed.

(** descaling a scaled region with minima and maxima readable at its points *)
Lemma descale_scaled_spec (r : stregion fnum) mn mx (fmn fmx : point -> fnum) :
  twf r -> t_consistent r -> (* the region underneath *)
  (forall pt, in_grid (t_x r) (t_y r) pt -> t_memb r pt = true ->
     value_at mn pt = Ok (fmn pt) /\ value_at mx pt = Ok (fmx pt)) ->
  exists m, descale (TScaled r mn mx) = Ok (t_new_st r m) /\ wf3 m /\ a3t m = t_len r /\ a3x m = t_x r /\ a3y m = t_y r /\
    forall pt, in_grid (t_x r) (t_y r) pt ->
      series3 m (fst pt) (snd pt)
      = Ok (if t_memb r pt then descale_series (fmn pt) (fmx pt) (t_ser r pt) else repeat (Fin 0) (t_len r)).
Proof.
  intros Hw Hc Hf. cbn [descale].
  (* the loop over a scaled region is the loop over the decorated one *)
  assert (E : t_apply_series (Fin 0) (descale_function (t_x r) (t_y r) mn mx) (TScaled r mn mx) (t_len r)
              = (x <- t_apply_series (Fin 0) (descale_function (t_x r) (t_y r) mn mx) r (t_len r) ;; Ok (TScaled x mn mx))).
  { unfold t_apply_series. change (t_x (TScaled r mn mx)) with (t_x r). change (t_y (TScaled r mn mx)) with (t_y r).
    cbn [f_x f_y descale_function]. rewrite !Nat.eqb_refl. cbn [py_assert bind].
    change (t_items (TScaled r mn mx)) with (t_items r).
    destruct (t_items r) as [items|e]; cbn [bind]; auto.
    destruct (foldM _ items _) as [out|e]; reflexivity. }
  change (t_x (TScaled r mn mx)) with (t_x r). change (t_y (TScaled r mn mx)) with (t_y r).
  change (t_len (TScaled r mn mx)) with (t_len r). rewrite E.
  destruct (t_apply_series_spec (Fin 0) (descale_function (t_x r) (t_y r) mn mx) r
              (fun pt s => descale_series (fmn pt) (fmx pt) s) (t_len r))
    as (m & Em & Wm & Tm & Xm & Ym & Pm); auto.
  { intros pt Hg Hm. destruct (Hf pt Hg Hm) as [E1 E2]. 
    exists (fun s => Ok (descale_series (fmn pt) (fmx pt) s)). split; [|split; [reflexivity|]].
    - cbn [descale_function f_at]. rewrite E1, E2. reflexivity.
    - unfold descale_series. rewrite map_length. apply t_ser_length; auto. }
  rewrite Em. cbn [bind t_data]. rewrite t_data_new_st. exists m. split; auto.
Qed.

(** scale then descale: what each series becomes *)
Lemma scale_descale_spec (r : stregion fnum) :
  twf r -> t_consistent r -> 0 < t_len r ->
  exists r' m, scale_apply_to (t_x r) (t_y r) r (t_len r) = Ok r' /\ descale r' = Ok (t_new_st r m) /\
    wf3 m /\ a3t m = t_len r /\ a3x m = t_x r /\ a3y m = t_y r /\
    forall pt, in_grid (t_x r) (t_y r) pt -> t_memb r pt = true ->
      let s := t_ser r pt in
      series3 m (fst pt) (snd pt)
      = Ok (descale_series (nanmin' s) (nanmax' s) (scale_this_point (length s) (nanmin' s) (nanmax' s) s)).
Proof.
  intros Hw Hc Hlen.
  destruct (scale_region_spec r Hw Hc Hlen) as (m & mn & mx & E & Wm & Tm & Xm & Ym & W1 & X1 & Y1 & W2 & X2 & Y2 & P).
  eexists. pose proof (scaled_wf r m mn mx Hw Wm Xm Ym W1 X1 Y1 W2 X2 Y2) as Hw'.
  assert (Xd : t_x (t_new_st r m) = t_x r) by (unfold t_x at 1; rewrite t_data_new_st; auto).
  assert (Yd : t_y (t_new_st r m) = t_y r) by (unfold t_y at 1; rewrite t_data_new_st; auto).
  assert (Td : t_len (t_new_st r m) = t_len r) by (unfold t_len at 1; rewrite t_data_new_st; auto).
  destruct (descale_scaled_spec (t_new_st r m) (t_new_spatial r mn) (t_new_spatial r mx)
              (fun pt => nanmin' (t_ser r pt)) (fun pt => nanmax' (t_ser r pt)))
    as (m' & E' & Wm' & Tm' & Xm' & Ym' & P').
  - destruct Hw' as [H _]. exact H.
  - intros pt Hg Hm. rewrite readable_new_st. rewrite memb_new_st in Hm. rewrite Xd, Yd in Hg. apply Hc; auto.
  - intros pt Hg Hm. rewrite memb_new_st in Hm. rewrite Xd, Yd in Hg. pose proof (Hc pt Hg Hm) as Hr.
    rewrite !value_at_new_spatial by auto. destruct (P pt Hg) as (P1 & P2 & _). rewrite Hm in P1, P2. auto.
  - rewrite Xd, Yd, Td in *. exists m'. split; [exact E|]. split.
    { rewrite E'. f_equal. clear. induction r; cbn; congruence. }
    split; auto. split; auto. split; auto. split; auto. intros pt Hg Hm s.
    rewrite P' by auto. rewrite memb_new_st, Hm. do 2 f_equal.
    destruct (P pt Hg) as (_ & _ & P3). rewrite Hm in P3.
    assert (E3 : series3 m (fst pt) (snd pt) = Ok (t_ser (t_new_st r m) pt)).
    { pose proof (series3_t_ser (t_new_st r m) pt) as G. rewrite t_data_new_st in G. apply G.
      - destruct Hw' as [H _]. exact H.
      - rewrite Xd, Yd. auto. }
    rewrite P3 in E3. inversion E3 as [E4]. unfold s. rewrite t_ser_length by auto. reflexivity.
Qed.

(* ---------- theorems' proofs ---------- *)
Lemma scale_series_plain (d : arr3 fnum) : wf3 d -> 0 < a3t d -> no_inf (a3d d) ->
  exists m mn mx, scale_apply_to (a3x d) (a3y d) (TPlain d) (a3t d) = Ok (TScaled (TPlain m) mn mx) /\
    wf3 m /\ a3t m = a3t d /\ a3x m = a3x d /\ a3y m = a3y d /\
    forall pt, in_grid (a3x d) (a3y d) pt ->
      exists s s', series_at (TPlain d) pt = Ok s /\ series_at (TScaled (TPlain m) mn mx) pt = Ok s' /\ scaled_series s s'.
Proof.
  intros Hw Hlen Hi.
  destruct (scale_region_spec (TPlain d) Hw (t_plain_consistent d) Hlen)
    as (m & mn & mx & E & Wm & Tm & Xm & Ym & _ & _ & _ & _ & _ & _ & P).
  exists m, (SPlain mn), (SPlain mx). split; [exact E|]. repeat (split; [assumption|]).
  intros pt Hg. pose proof (series3_t_ser (TPlain d) pt Hw Hg) as Es. cbn [t_data] in Es.
  destruct (P pt Hg) as (_ & _ & P3). cbn [t_memb] in P3.
  exists (t_ser (TPlain d) pt). eexists. split; [exact Es|]. split; [exact P3|].
  pose proof (t_ser_length (TPlain d) pt Hw Hg) as L.
  assert (Hne : t_ser (TPlain d) pt <> []) by (intros N; rewrite N in L; unfold t_len in L; cbn in *; lia).
  rewrite <- L. apply scale_this_point_spec; auto using nanmin'_ok, nanmax'_ok.
  intros v Hv. apply Hi. destruct Hg as [G1 G2].
  destruct (series3_ok d (fst pt) (snd pt) Hw G1 G2) as (s & E1 & L1 & N1). rewrite Es in E1. inversion E1 as [E2]. rewrite <- E2 in *.
  apply In_nth_error in Hv. destruct Hv as [n Hn].
  assert (n < a3t d) by (rewrite <- L1; apply nth_error_Some; congruence).
  rewrite N1 in Hn by auto. unfold at3 in Hn. eapply nth_error_In; eauto.
Qed.

Lemma scale_wrong_len x y r n : t_len r <> n -> scale_apply_to x y r n = Raise AssertionError.
Proof. intros H. unfold scale_apply_to. destruct (Nat.eqb_spec (t_len r) n); [contradiction|reflexivity]. Qed.

Lemma series_in_data {A} (d : arr3 A) pt s v : wf3 d -> in_grid (a3x d) (a3y d) pt ->
  series3 d (fst pt) (snd pt) = Ok s -> In v s -> In v (a3d d).
Proof.
  intros Hw [G1 G2] E Hv. destruct (series3_ok d (fst pt) (snd pt) Hw G1 G2) as (s' & E1 & L1 & N1).
  rewrite E in E1. inversion E1; subst s'. apply In_nth_error in Hv. destruct Hv as [n Hn].
  assert (n < a3t d) by (rewrite <- L1; apply nth_error_Some; congruence).
  rewrite N1 in Hn by auto. unfold at3 in Hn. eapply nth_error_In; eauto.
Qed.

Lemma round_trip_plain (d : arr3 fnum) : wf3 d -> 0 < a3t d -> no_inf (a3d d) ->
  exists r m, scale_apply_to (a3x d) (a3y d) (TPlain d) (a3t d) = Ok r /\ descale r = Ok (TPlain m) /\
    wf3 m /\ a3t m = a3t d /\ a3x m = a3x d /\ a3y m = a3y d /\
    forall pt s, in_grid (a3x d) (a3y d) pt -> series_at (TPlain d) pt = Ok s ->
      exists s', series_at (TPlain m) pt = Ok s' /\
        (no_nan s \/ ~ constant s \/ all_nan s -> Forall2 feqv s' s) /\
        (forall c, constant s -> In (Fin c) s -> length s' = length s /\ forall v, In v s' -> feqv v (Fin c)).
Proof.
  intros Hw Hlen Hi.
  destruct (scale_descale_spec (TPlain d) Hw (t_plain_consistent d) Hlen) as (r & m & E1 & E2 & Wm & Tm & Xm & Ym & P).
  exists r, m. split; [exact E1|]. split; [exact E2|]. repeat (split; [assumption|]).
  intros pt s Hg Es. specialize (P pt Hg eq_refl). cbn zeta in P.
  pose proof (series3_t_ser (TPlain d) pt Hw Hg) as Es'. cbn [t_data series_at] in Es, Es'. rewrite Es in Es'. injection Es' as Es'.
  rewrite <- Es' in P. eexists; split; [exact P|].
  pose proof (t_ser_length (TPlain d) pt Hw Hg) as L. rewrite <- Es' in L.
  assert (Hne : s <> []) by (intros N; rewrite N in L; unfold t_len in L; cbn in *; lia).
  assert (Hs : no_inf s) by (intros v Hv; apply Hi; eapply series_in_data; eauto).
  split.
  - intros Hr. apply descale_scale_series; auto using nanmin'_ok, nanmax'_ok.
  - intros c Hc Hin. split.
    + unfold descale_series. rewrite map_length. unfold scale_this_point.
      destruct (_ || _); [apply repeat_length|]. destruct (feqb _ _); [apply repeat_length|]. apply map_length.
    + intros v Hv. eapply (descale_scale_constant s _ _ c Hne Hs); eauto using nanmin'_ok, nanmax'_ok.
Qed.

(** the same for a cluster of a region, at the points of the cluster *)
Lemma cluster_consistent {A} (d : arr3 A) p c : t_consistent (TCluster (TPlain d) p c).
Proof. intros pt Hg Hm. cbn in *. rewrite Hm. reflexivity. Qed.

Lemma scale_series_cluster (d : arr3 fnum) p c : wf3 d -> 0 < a3t d -> no_inf (a3d d) ->
  valid_partition p (a3x d) (a3y d) ->
  exists m mn mx, scale_apply_to (a3x d) (a3y d) (TCluster (TPlain d) p c) (a3t d)
      = Ok (TScaled (TCluster (TPlain m) p c) mn mx) /\
    wf3 m /\ a3t m = a3t d /\ a3x m = a3x d /\ a3y m = a3y d /\
    forall pt, in_grid (a3x d) (a3y d) pt -> label_at p pt c ->
      exists s s', series_at (TCluster (TPlain d) p c) pt = Ok s /\
        series_at (TScaled (TCluster (TPlain m) p c) mn mx) pt = Ok s' /\ scaled_series s s'.
Proof.
  intros Hw Hlen Hi (Xl & Yl & Wl & _).
  set (r := TCluster (TPlain d) p c).
  assert (Hr : twf r) by (unfold r; cbn; auto).
  destruct (scale_region_spec r Hr (cluster_consistent d p c) Hlen)
    as (m & mn & mx & E & Wm & Tm & Xm & Ym & _ & _ & _ & _ & _ & _ & P).
  exists m, (t_new_spatial r mn), (t_new_spatial r mx). split; [exact E|]. repeat (split; [assumption|]).
  intros pt Hg Hl. pose proof (series3_t_ser (TPlain d) pt Hw Hg) as Es. cbn [t_data] in Es.
  assert (Hl' : is_member p pt c = Ok true).
  { unfold is_member. unfold label_at in Hl. rewrite Hl. cbn. rewrite Z.eqb_refl. reflexivity. }
  assert (Hm : t_memb r pt = true).
  { cbn. rewrite is_member_spec in Hl'; [congruence|auto|]. rewrite Xl, Yl. auto. }
  destruct (P pt Hg) as (_ & _ & P3). rewrite Hm in P3.
  exists (t_ser (TPlain d) pt). eexists. split; [cbn [series_at r]; rewrite Hl'; exact Es|].
  split; [cbn [series_at]; rewrite Hl'; exact P3|].
  pose proof (t_ser_length (TPlain d) pt Hw Hg) as L.
  assert (Hne : t_ser (TPlain d) pt <> []) by (intros N; rewrite N in L; unfold t_len in L; cbn in *; lia).
  change (t_len r) with (t_len (TPlain d)). change (t_ser r pt) with (t_ser (TPlain d) pt).
  rewrite <- L. apply scale_this_point_spec; auto using nanmin'_ok, nanmax'_ok.
  intros v Hv. apply Hi. eapply series_in_data; eauto.
Qed.

(** descaling a plain scaled region *)
Lemma descale_plain (m : arr3 fnum) mn mx : wf3 m -> wf2 mn -> wf2 mx ->
  a2x mn = a3x m -> a2y mn = a3y m -> a2x mx = a3x m -> a2y mx = a3y m ->
  exists d, descale (TScaled (TPlain m) (SPlain mn) (SPlain mx)) = Ok (TPlain d) /\
    wf3 d /\ a3t d = a3t m /\ a3x d = a3x m /\ a3y d = a3y m /\
    forall pt s lo hi, in_grid (a3x m) (a3y m) pt -> series3 m (fst pt) (snd pt) = Ok s ->
      get2 mn (fst pt) (snd pt) = Ok lo -> get2 mx (fst pt) (snd pt) = Ok hi ->
      series3 d (fst pt) (snd pt) = Ok (descale_series lo hi s).
Proof.
  intros Hw W1 W2 X1 Y1 X2 Y2.
  destruct (descale_scaled_spec (TPlain m) (SPlain mn) (SPlain mx)
              (fun pt => s_val (SPlain mn) NaN pt) (fun pt => s_val (SPlain mx) NaN pt))
    as (d & E & Wd & Td & Xd & Yd & P); auto using t_plain_consistent.
  { intros pt Hg _. unfold t_x, t_y in Hg. cbn [t_data] in Hg. cbn [value_at].
    split; apply (get2_s_val (SPlain _)); auto; unfold s_x, s_y; cbn [s_data]; congruence. }
  exists d. split; [exact E|]. repeat (split; [assumption|]).
  intros pt s lo hi Hg Es E1 E2. rewrite P by auto. cbn [t_memb].
  pose proof (series3_t_ser (TPlain m) pt Hw Hg) as Es'. cbn [t_data] in Es'.
  assert (G1 : get2 mn (fst pt) (snd pt) = Ok (s_val (SPlain mn) NaN pt)).
  { apply (get2_s_val (SPlain mn)); auto; unfold s_x, s_y; cbn [s_data]; congruence. }
  assert (G2 : get2 mx (fst pt) (snd pt) = Ok (s_val (SPlain mx) NaN pt)).
  { apply (get2_s_val (SPlain mx)); auto; unfold s_x, s_y; cbn [s_data]; congruence. }
  congruence.
Qed.

Lemma get2_exists {A} (a : arr2 A) pt x y : wf2 a -> a2x a = x -> a2y a = y -> in_grid x y pt ->
  exists v, get2 a (fst pt) (snd pt) = Ok v.
Proof. intros Hw <- <- [H1 H2]. destruct (get2_ok a (fst pt) (snd pt)) as (v & E & _); eauto. Qed.

Lemma descale_region_subset (m : arr3 fnum) mn mx g : wf3 m -> wf2 mn -> wf2 mx ->
  a2x mn = a3x m -> a2y mn = a3y m -> a2x mx = a3x m -> a2y mx = a3y m -> rect_in g (a3x m) (a3y m) ->
  exists sub d d', t_region_subset (TScaled (TPlain m) (SPlain mn) (SPlain mx)) g = Ok sub /\
    descale (TScaled (TPlain m) (SPlain mn) (SPlain mx)) = Ok d /\
    t_region_subset d g = Ok d' /\ descale sub = Ok d'.
Proof.
  intros Hw W1 W2 X1 Y1 X2 Y2 Hg.
  destruct (region_subset_plain m g Hw Hg) as (ms & E1 & Ws & Ts & Xs & Ys & Ps).
  destruct (s_region_subset_plain mn g W1) as (mns & E2 & Wn & Xn & Yn & Pn); [rewrite X1, Y1; auto|].
  destruct (s_region_subset_plain mx g W2) as (mxs & E3 & Wx & Xx & Yx & Px); [rewrite X2, Y2; auto|].
  destruct (descale_plain m mn mx) as (d & Ed & Wd & Td & Xd & Yd & Pd); auto.
  destruct (region_subset_plain d g Wd) as (ds & E4 & Wds & Tds & Xds & Yds & Pds); [rewrite Xd, Yd; auto|].
  destruct (descale_plain ms mns mxs) as (d' & Ed' & Wd' & Td' & Xd' & Yd' & Pd'); auto; try lia.
  exists (TScaled (TPlain ms) (SPlain mns) (SPlain mxs)), (TPlain d), (TPlain ds).
  split. { cbn [t_region_subset] in *. rewrite E1, E2, E3. reflexivity. }
  split; [exact Ed|]. split; [exact E4|]. rewrite Ed'. do 2 f_equal.
  apply series3_ext; auto; try lia.
  intros i j Hi Hj.
  assert (Hg' : in_grid (a3x ms) (a3y ms) (i, j)) by (unfold in_grid; cbn; lia).
  assert (Hgb : in_grid (a3x m) (a3y m) (x1 g + i, y1 g + j)%Z).
  { destruct Hg as (Q1 & Q2 & Q3 & Q4). unfold in_grid; cbn [fst snd]. clear - Hi Hj Q1 Q2 Q3 Q4 Xs Ys Xd' Yd'. lia. }
  destruct (series3_ok m (x1 g + i) (y1 g + j) Hw) as (s & Es & _); [apply Hgb|apply Hgb|].
  destruct (get2_exists mn _ _ _ W1 X1 Y1 Hgb) as [lo Elo]. destruct (get2_exists mx _ _ _ W2 X2 Y2 Hgb) as [hi Ehi].
  assert (Hij : (0 <= i < x2 g - x1 g)%Z /\ (0 <= j < y2 g - y1 g)%Z) by (clear - Hi Hj Xs Ys Xd' Yd'; lia).
  destruct Hij as [Hi' Hj'].
  specialize (Ps i j Hi' Hj'). specialize (Pn i j Hi' Hj'). specialize (Px i j Hi' Hj'). specialize (Pds i j Hi' Hj').
  cbn [series_at value_at fst snd] in *.
  assert (L : series3 d' i j = Ok (descale_series lo hi s)) by (apply (Pd' (i, j) s lo hi Hg'); cbn [fst snd]; congruence).
  rewrite L.
  rewrite Pds. symmetry. apply (Pd (_, _) s lo hi Hgb); auto.
Qed.

(** interval subsets keep the minima and maxima, and commute with descale *)
Lemma descale_interval_subset (m : arr3 fnum) mn mx ti : wf3 m -> wf2 mn -> wf2 mx ->
  a2x mn = a3x m -> a2y mn = a3y m -> a2x mx = a3x m -> a2y mx = a3y m -> interval_in ti (a3t m) ->
  exists d, descale (TScaled (TPlain m) (SPlain mn) (SPlain mx)) = Ok d /\
    descale (interval_subset (TScaled (TPlain m) (SPlain mn) (SPlain mx)) ti) = Ok (interval_subset d ti).
Proof.
  intros Hw W1 W2 X1 Y1 X2 Y2 Ht.
  destruct (descale_plain m mn mx) as (d & Ed & Wd & Td & Xd & Yd & Pd); auto.
  exists (TPlain d). split; auto. cbn [interval_subset t_new_st t_data].
  pose proof (slice_interval m ti Hw Ht) as Sm.
  pose proof (slice_interval d ti Wd) as Sd. rewrite Td in Sd. specialize (Sd Ht).
  set (m' := slice3 m (Some (t1 ti, t2 ti)) None None) in *.
  set (d' := slice3 d (Some (t1 ti, t2 ti)) None None) in *. clearbody m' d'.
  destruct Sm as (Wm' & Tm' & Xm' & Ym' & Pm'). destruct Sd as (Wd' & Td' & Xd' & Yd' & Pd').
  destruct (descale_plain m' mn mx) as (e & Ee & We & Te & Xe & Ye & Pe); auto; try congruence.
  rewrite Ee. do 2 f_equal. apply series3_ext; auto; try congruence.
  intros i j Hi Hj. rewrite Xe, Xm' in Hi. rewrite Ye, Ym' in Hj.
  assert (Hg : in_grid (a3x m) (a3y m) (i, j)) by (split; cbn; auto).
  assert (Hg' : in_grid (a3x m') (a3y m') (i, j)) by (rewrite Xm', Ym'; auto).
  assert (Hgd : in_grid (a3x d') (a3y d') (i, j)) by (rewrite Xd', Yd', Xd, Yd; auto).
  destruct (series3_ok m i j Hw) as (s & Es & Ls & Ns); auto.
  destruct (series3_ok m' i j Wm') as (s' & Es' & Ls' & Ns'); [apply Hg'|apply Hg'|].
  destruct (series3_ok d' i j Wd') as (u' & Eu' & Lu' & Nu'); [apply Hgd|apply Hgd|].
  destruct (get2_exists mn _ _ _ W1 X1 Y1 Hg) as [lo Elo]. destruct (get2_exists mx _ _ _ W2 X2 Y2 Hg) as [hi Ehi].
  pose proof (Pd (i, j) s lo hi Hg Es Elo Ehi) as E1. pose proof (Pe (i, j) s' lo hi Hg' Es' Elo Ehi) as E2.
  cbn [fst snd] in E1, E2. rewrite E2, Eu'. f_equal.
  destruct (series3_ok d i j Wd) as (u & Eu & Lu & Nu); [rewrite Xd; auto|rewrite Yd; auto|].
  rewrite E1 in Eu. injection Eu as Eu.
  assert (B : (0 <= Z.to_nat (t1 ti) + Z.to_nat (t2 ti - t1 ti) <= a3t m)%nat).
  { destruct Ht as [Q1 Q2]. clear - Q1 Q2. lia. }
  assert (Hi2 : Z.to_nat i < a3x m) by (clear - Hi; lia). assert (Hj2 : Z.to_nat j < a3y m) by (clear - Hj; lia).
  apply list_ext_len.
  - unfold descale_series. rewrite map_length. congruence.
  - intros n Hn. unfold descale_series in Hn |- *. rewrite map_length, Ls', Tm' in Hn. rewrite nth_error_map.
    rewrite Ns' by congruence. rewrite Pm' by auto. cbn [Nat.add].
    rewrite Nu' by congruence. rewrite Pd' by (auto; congruence). cbn [Nat.add].
    rewrite <- Nu by (clear - B Hn Td; lia). rewrite <- Eu. unfold descale_series. rewrite nth_error_map.
    rewrite Ns by (clear - B Hn; lia). reflexivity.
Qed.

(** a cluster of a scaled region: descale restores the samples but keeps the scaling wrapper *)
Lemma descale_cluster (m : arr3 fnum) mn mx p c : wf3 m -> wf2 mn -> wf2 mx ->
  a2x mn = a3x m -> a2y mn = a3y m -> a2x mx = a3x m -> a2y mx = a3y m -> valid_partition p (a3x m) (a3y m) ->
  exists d r', descale (TScaled (TPlain m) (SPlain mn) (SPlain mx)) = Ok (TPlain d) /\
    descale (TCluster (TScaled (TPlain m) (SPlain mn) (SPlain mx)) p c) = Ok r' /\
    has_scaling r' = true /\
    forall pt, in_grid (a3x m) (a3y m) pt -> label_at p pt c -> series_at r' pt = series_at (TPlain d) pt.
Proof.
  intros Hw W1 W2 X1 Y1 X2 Y2 Hv.
  destruct (descale_plain m mn mx) as (d & Ed & _); auto.
  exists d, (TCluster (TScaled (TPlain d) (SPlain mn) (SPlain mx)) p c). split; auto.
  split. { cbn [descale] in *. rewrite Ed. reflexivity. }
  split; [reflexivity|]. intros pt Hg Hl. cbn [series_at]. unfold is_member. unfold label_at in Hl. rewrite Hl. cbn [bind].
  rewrite Z.eqb_refl. reflexivity.
Qed.

Lemma subset_descale (m : arr3 fnum) mn mx g ti : wf3 m -> wf2 mn -> wf2 mx ->
  a2x mn = a3x m -> a2y mn = a3y m -> a2x mx = a3x m -> a2y mx = a3y m ->
  rect_in g (a3x m) (a3y m) -> interval_in ti (a3t m) ->
  exists e, descale (subset (TScaled (TPlain m) (SPlain mn) (SPlain mx)) g ti) = Ok (TPlain e) /\
    Z.of_nat (a3x e) = (x2 g - x1 g)%Z /\ Z.of_nat (a3y e) = (y2 g - y1 g)%Z /\
    forall i j, (0 <= i < x2 g - x1 g)%Z -> (0 <= j < y2 g - y1 g)%Z ->
      exists s lo hi, series_at (subset (TPlain m) g ti) (i, j) = Ok s /\
        value_at (SPlain mn) (i, j) = Ok lo /\ value_at (SPlain mx) (i, j) = Ok hi /\
        series_at (TPlain e) (i, j) = Ok (map (fun v => fadd (fmul (fsub hi lo) v) lo) s).
Proof.
  intros Hw W1 W2 X1 Y1 X2 Y2 Hg Ht. unfold subset. cbn [t_data t_new_st].
  pose proof (slice_both m g ti Hw Hg Ht) as S. set (m' := slice3 m _ _ _) in *. clearbody m'.
  destruct S as (Wm' & Tm' & Xm' & Ym' & _). destruct Hg as (Q1 & Q2 & Q3 & Q4).
  destruct (descale_scaled_spec (TPlain m') (SPlain mn) (SPlain mx)
              (fun pt => s_val (SPlain mn) NaN pt) (fun pt => s_val (SPlain mx) NaN pt))
    as (d & E & Wd & Td & Xd & Yd & P); auto using t_plain_consistent.
  { intros pt Hg _. unfold t_x, t_y in Hg. cbn [t_data] in Hg. cbn [value_at].
    destruct Hg as [G1 G2].
    split; apply (get2_s_val (SPlain _)); auto; unfold s_x, s_y; cbn [s_data]; split;
      rewrite ?X1, ?Y1, ?X2, ?Y2; clear - G1 G2 Xm' Ym' Q1 Q2 Q3 Q4; lia. }
  unfold t_x, t_y, t_len in *. cbn [t_data t_new_st] in *.
  exists d. split; [exact E|]. split; [clear - Xd Xm' Q1; lia|]. split; [clear - Yd Ym' Q3; lia|].
  intros i j Hi Hj.
  assert (Hg : in_grid (a3x m') (a3y m') (i, j)) by (split; cbn; clear - Hi Hj Xm' Ym'; lia).
  assert (Hgm : in_grid (a3x m) (a3y m) (i, j)) by (split; cbn; clear - Hi Hj Q1 Q2 Q3 Q4; lia).
  exists (t_ser (TPlain m') (i, j)), (s_val (SPlain mn) NaN (i, j)), (s_val (SPlain mx) NaN (i, j)).
  split; [apply (series3_t_ser (TPlain m') (i, j)); auto|].
  split; [apply (get2_s_val (SPlain mn) NaN (i, j)); auto; unfold s_x, s_y; cbn [s_data]; congruence|].
  split; [apply (get2_s_val (SPlain mx) NaN (i, j)); auto; unfold s_x, s_y; cbn [s_data]; congruence|].
  apply (P (i, j)); auto.
Qed.
