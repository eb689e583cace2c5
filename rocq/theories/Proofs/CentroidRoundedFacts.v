(** Facts about the centroid in floating point. *)
From Coq Require Import Lia Lqa QArith.
From Verif Require Import Base.Py Base.PyFacts Base.Arr Base.ArrFacts Base.Float Base.FloatFacts Model.Region Model.Pool Model.Distance Model.RoundedErrors Model.CentroidRounded
  Spec.Grid Spec.Partition Spec.Distance Spec.Rounded Spec.Ieee Spec.KMedoidsRounded Proofs.RegionFacts Proofs.PartitionFacts Proofs.SubsetFacts Proofs.DistanceFacts Proofs.DistanceObjFacts
  Proofs.KMedoidsFacts Proofs.SummationFacts.
From Coq Require Import ZifyBool ZifyNat.
Local Notation length := List.length.
Local Close Scope Q_scope.
Local Open Scope nat_scope.

Section Centroid.
Context (sum : list fnum -> fnum) (env : denv) (r : stregion fnum) (md : option dmeta) (indices : list nat) (M : mat) (ds : point -> list fnum).

(** the loop over the points [pts], once every call returns its row [ds] *)
Definition r_centroid_of (pts : list point) (best : option point) (dists : option (list fnum)) : Prop :=
  match best with
  | None => dists = None /\ forall p, In p pts -> flt (sum (ds p)) PInf = false
  | Some c => dists = Some (ds c) /\ flt (sum (ds c)) PInf = true /\
      exists before after, pts = before ++ c :: after /\
        (forall p, In p before -> fle (sum (ds p)) (sum (ds c)) = false) /\
        (forall p, In p after -> flt (sum (ds p)) (sum (ds c)) = false)
  end.

Lemma r_centroid_loop : forall pts o,
  provides env md o M ->
  (forall p, In p pts -> forall o, d_matrix o = Some M -> distances_to_point_with_matrix o (t_y r) p indices = Ok (ds p)) ->
  exists best least dists o', foldM (centroid_step_r sum env r md true indices) pts ((None, PInf, None), o) = Ok ((best, least, dists), o') /\
    r_centroid_of pts best dists /\ provides env md o' M /\
    match best with None => least = PInf | Some c => least = sum (ds c) end.
Proof.
  intros pts o Hp. induction pts as [ | p pts IH ] using rev_ind; intros Hd.
  - exists None, PInf, None, o. split; [ reflexivity | split; [ split; [ reflexivity | intros ? [] ] | auto ] ].
  - destruct IH as (best & least & dists & o' & E & Hc & Hp' & Hl); [ intros; apply Hd; [ apply in_or_app; auto | assumption ] | ].
    rewrite foldM_app, E. cbn [bind foldM]. unfold centroid_step_r at 1.
    destruct (provides_call env md o' M r p indices true Hp') as (o'' & Ec & Em). rewrite Ec.
    rewrite (Hd p) by (auto; apply in_or_app; right; left; reflexivity). cbn [bind].
    destruct (flt (sum (ds p)) least) eqn:El.
    + exists (Some p), (sum (ds p)), (Some (ds p)), o''. split; [ reflexivity | split; [ | split; [ left; exact Em | reflexivity ] ] ].
      cbn. split; [ reflexivity | ].
      destruct best as [ c | ]; cbn in Hc.
      * subst least. destruct Hc as (_ & Hci & before & after & -> & Hb & Ha). split; [ exact (flt_trans _ _ _ El Hci) | ].
        exists (before ++ c :: after), []. split; [ reflexivity | split; [ | intros ? [] ] ].
        intros q Hq. apply in_app_or in Hq. destruct (fle (sum (ds q)) (sum (ds p))) eqn:Eq; [ exfalso | reflexivity ].
        pose proof (fle_lt_trans _ _ _ Eq El) as Hlt. destruct Hq as [ Hq | [ <- | Hq ] ].
        -- specialize (Hb q Hq). apply flt_fle in Hlt. congruence.
        -- rewrite flt_irrefl in Hlt. discriminate.
        -- specialize (Ha q Hq). congruence.
      * subst least. destruct Hc as [ _ Hc ]. split; [ exact El | ].
        exists pts, []. split; [ reflexivity | split; [ | intros ? [] ] ].
        intros q Hq. destruct (fle (sum (ds q)) (sum (ds p))) eqn:Eq; [ exfalso | reflexivity ].
        pose proof (fle_lt_trans _ _ _ Eq El) as Hlt. specialize (Hc q Hq). congruence.
    + exists best, least, dists, o''. split; [ reflexivity | split; [ | split; [ left; exact Em | exact Hl ] ] ].
      destruct best as [ c | ]; cbn in Hc |- *.
      * subst least. destruct Hc as (Hds & Hci & before & after & -> & Hb & Ha). split; [ exact Hds | split; [ exact Hci | ] ].
        exists before, (after ++ [p]). split; [ rewrite <- app_assoc; reflexivity | split; [ exact Hb | ] ].
        intros q Hq. apply in_app_or in Hq. destruct Hq as [ Hq | [ <- | [] ] ]; auto.
      * subst least. destruct Hc as [ Hds Hc ]. split; [ exact Hds | ]. intros q Hq. apply in_app_or in Hq.
        destruct Hq as [ Hq | [ <- | [] ] ]; auto.
Qed.
End Centroid.

Lemma r_centroid_spec : forall sum env r md o M n x y items indices,
  t_items r = Ok items -> all_point_indices r = Ok indices -> t_y r = y ->
  (forall p, In p (map fst items) -> in_grid x y p) -> (forall j, In j indices -> j < n) -> x * y <= n ->
  square n M -> provides env md o M ->
  let ds p := map (entry_or M (index_of y p)) indices in
  (forall p, In p (map fst items) -> row_at M (index_of y p) indices (ds p)) /\
  exists best dists, find_centroid_and_distances_r sum env r md true o = Ok (best, dists) /\ r_centroid_of sum ds (map fst items) best dists.
Proof.
  intros sum env r md o M n x y items indices Hit Hidx Hy Hpts Hj Hn Hs Hp ds.
  assert (Hrow : forall p, In p (map fst items) -> mapM (fun j => m_get M (Z.of_nat (index_of y p)) (Z.of_nat j)) indices = Ok (ds p) /\ row_at M (index_of y p) indices (ds p)).
  { intros p Hin. destruct (index_of_encode _ _ _ (Hpts p Hin)) as [ _ L ]. apply (row_ok n); auto. lia. }
  split; [ intros p Hin; apply Hrow; exact Hin | ].
  unfold find_centroid_and_distances_r. rewrite Hidx, Hit. cbn [bind].
  destruct (r_centroid_loop sum env r md indices M ds (map fst items) o Hp) as (best & least & dists & o' & E & Hc & _).
  - intros p Hin o' Ho. unfold distances_to_point_with_matrix. rewrite Ho, Hy.
    destruct (index_of_encode _ _ _ (Hpts p Hin)) as [ Ee _ ]. rewrite Ee. apply Hrow. exact Hin.
  - rewrite E. cbn [bind]. eauto.
Qed.

Lemma r_centroid_first_least : forall sum ds pts best dists, r_centroid_of sum ds pts best dists -> first_least (fun p => sum (ds p)) pts best.
Proof. intros sum ds pts [ c | ] dists H; cbn in *; tauto. Qed.

(** the first point of least computed sum has nearly the least exact sum *)
Lemma r_near_least u e rnd ord N h (rows : point -> list fnum) pts best n :
  (0 <= u <= 1)%Q -> (0 <= e)%Q -> rounding rnd -> accurate u e rnd -> summation ord N h -> n <= N ->
  (forall p, In p pts -> length (rows p) = n) ->
  (forall p v, In p pts -> In v (rows p) -> is_fin v = true /\ fle (Fin 0) v = true) ->
  first_least (fun p => sum_by rnd ord (rows p)) pts best ->
  match best with
  | None => forall p, In p pts -> sum_by rnd ord (rows p) = PInf
  | Some c => In c pts /\ forall p, In p pts -> sum_by rnd ord (rows p) = PInf \/ exists qc qp, fsum (rows c) = Fin qc /\ fsum (rows p) = Fin qp /\
      (qpow (1 - u) h * qc <= qpow (1 + u) h * (qp + e * inject_Z (Z.of_nat n)) + e * inject_Z (Z.of_nat n))%Q
  end.
Proof.
  intros Hu He HR HA Ho Hn Hlen Hfin H.
  assert (B : forall p, In p pts -> exists q, fsum (rows p) = Fin q /\ (0 <= q)%Q /\ (sum_by rnd ord (rows p) = PInf \/
    exists r, sum_by rnd ord (rows p) = Fin r /\ (qpow (1 - u) h * q - e * inject_Z (Z.of_nat n) <= r)%Q /\ (r <= qpow (1 + u) h * (q + e * inject_Z (Z.of_nat n)))%Q)).
  { intros p Hp. destruct (fin_list (rows p) (fun v Hv => proj1 (Hfin p v Hp Hv))) as (ql & El).
    assert (Pq : forall v, In v ql -> (0 <= v)%Q).
    { intros v Hv. apply fle_Fin. apply (Hfin p (Fin v) Hp). rewrite El. apply in_map. exact Hv. }
    assert (Ln : length ql = n) by (rewrite <- (Hlen p Hp), El, map_length; reflexivity).
    pose proof (fsum_fin ql) as Es. rewrite <- El in Es. destruct (fsum (rows p)) as [ | | | q ]; try contradiction. cbn in Es.
    exists q. split; [ reflexivity | ]. split.
    - rewrite Es. clear - Pq. induction ql as [ | v ql IH ]; cbn; [ lra | ]. specialize (IH (fun w Hw => Pq w (or_intror Hw))). specialize (Pq v (or_introl eq_refl)). lra.
    - destruct (sum_by_bounds u e rnd Hu He HR HA ord N h ql (rows p) Ho ltac:(lia) El Pq) as [ E | (r & E & _ & B1 & B2) ]; [ left; exact E | right ].
      exists r. rewrite Ln in B1, B2. rewrite Es. auto. }
  destruct best as [ c | ]; cbn in H.
  - destruct H as (Hinf & before & after & -> & Hb & Ha).
    assert (Hc : In c (before ++ c :: after)) by (apply in_or_app; right; left; reflexivity). split; [ exact Hc | ].
    destruct (B c Hc) as (qc & Ec & Pc & [ E | (rc & Erc & Lc & Uc) ]); [ rewrite E in Hinf; discriminate | ].
    intros p Hp. destruct (B p Hp) as (qp & Ep & Pp & Hp').
    assert (Hle : forall rp, sum_by rnd ord (rows p) = Fin rp -> (rc <= rp)%Q).
    { intros rp Erp. apply in_app_or in Hp. destruct Hp as [ Hp | [ <- | Hp ] ].
      - specialize (Hb p Hp). rewrite Erp, Erc in Hb. destruct (Qlt_le_dec rp rc) as [ Hlt | ]; [ | assumption ].
        apply Qlt_le_weak in Hlt. apply fle_Fin in Hlt. congruence.
      - assert (rp = rc) as -> by congruence. apply Qle_refl.
      - specialize (Ha p Hp). rewrite Erp, Erc in Ha. destruct (Qlt_le_dec rp rc) as [ Hlt | ]; [ | assumption ].
        apply flt_Fin in Hlt. congruence. }
    destruct Hp' as [ E | (rp & Erp & _ & Up) ].
    + left. exact E.
    + right. exists qc, qp. split; [ exact Ec | ]. split; [ exact Ep | ]. specialize (Hle rp Erp). lra.
  - intros p Hp. destruct (B p Hp) as (q & _ & _ & [ E | (r & E & _) ]); [ exact E | ]. specialize (H p Hp). rewrite E in H. discriminate.
Qed.
