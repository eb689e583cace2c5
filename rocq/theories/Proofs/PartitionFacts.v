(** Facts about partitions, clusters and function application. *)
From Coq Require Import ZifyBool ZifyNat.
From Verif Require Import Base.Py Base.PyFacts Base.Arr Base.ArrFacts Spec.Grid Spec.Partition
     Model.Region Proofs.RegionFacts.

(* ---------- C01, C02, C70 ---------- *)
Lemma successive_loops_spec x y n :
  successive_loops x y n 0 = (0, repeat (Ok (grid x y)) n).
Proof.
  induction n as [|n IH]; cbn [successive_loops repeat]; auto.
  rewrite base_for_spec. cbn [skipn]. rewrite IH. reflexivity.
Qed.

Lemma break_then_loops x y m n :
  m <= x * y ->
  let '(idx1, first) := base_for_break x y 0 m in
  let '(idx2, rest) := successive_loops x y (S n) idx1 in
  first = Ok (firstn m (grid x y)) /\ idx2 = 0 /\
  rest = Ok (skipn m (grid x y)) :: repeat (Ok (grid x y)) n.
Proof.
  intros H. rewrite base_for_break_spec by lia. cbn [skipn]. cbn [successive_loops].
  rewrite base_for_spec. rewrite successive_loops_spec. auto.
Qed.

Lemma nested_for_spec x y n :
  0 < x * y ->
  nested_for x y (S n) 0 = Some (0, repeat (0%Z, 0%Z) (S n)).
Proof.
  intros H. induction n as [|n IH].
  - cbn [nested_for]. rewrite base_next_step by auto. rewrite base_for_spec. cbn [fst].
    unfold decode. destruct y; [lia|]. rewrite Nat.div_0_l, Nat.mod_0_l by lia. reflexivity.
  - assert (E : nested_for x y (S (S n)) 0 =
      match nested_for x y (S n) 0 with
      | None => None
      | Some (i, l) => match base_next x y i with
                       | (_, None) => None
                       | (i', Some p) => Some (fst (base_for x y i'), l ++ [p]) end end) by reflexivity.
    rewrite E, IH. rewrite base_next_step by auto. rewrite base_for_spec. cbn [fst].
    unfold decode. destruct y; [lia|]. rewrite Nat.div_0_l, Nat.mod_0_l by lia.
    replace (S (S n)) with (S n + 1) by lia. rewrite repeat_app. reflexivity.
Qed.

(* ---------- C03 ---------- *)
Lemma decode_encode x y pt :
  in_grid x y pt ->
  decode_index y (encode_point y pt) = Ok pt /\ (0 <= encode_point y pt < Z.of_nat (x * y))%Z.
Proof.
  destruct pt as [a b]; unfold in_grid, decode_index, encode_point; cbn [fst snd]. intros [Ha Hb].
  replace (y =? 0)%nat with false by lia. split.
  - f_equal. f_equal.
    + rewrite Z.quot_div_nonneg by nia. rewrite Z.div_add_l by lia. rewrite Z.div_small by lia. lia.
    + rewrite Z.add_comm, Z.mod_add by lia. apply Z.mod_small; lia.
  - nia.
Qed.

Lemma encode_decode x y n :
  (0 <= n < Z.of_nat (x * y))%Z ->
  exists pt, decode_index y n = Ok pt /\ in_grid x y pt /\ encode_point y pt = n.
Proof.
  intros H. assert (y <> 0) by (intros ->; lia).
  exists (n / Z.of_nat y, n mod Z.of_nat y)%Z. unfold decode_index, in_grid, encode_point; cbn [fst snd].
  replace (y =? 0)%nat with false by lia. rewrite Z.quot_div_nonneg by lia.
  assert (0 <= n / Z.of_nat y < Z.of_nat x)%Z.
  { split; [apply Z.div_pos; lia|]. apply Z.div_lt_upper_bound; [lia|]. rewrite Nat2Z.inj_mul in H. lia. }
  pose proof (Z.mod_pos_bound n (Z.of_nat y) ltac:(lia)).
  split; [reflexivity|]. split; [split; auto|]. rewrite Z.mul_comm. symmetry. apply Z.div_mod. lia.
Qed.

Lemma decode_nat y n : y <> 0 -> decode_index y (Z.of_nat n) = Ok (decode y n).
Proof.
  intros H. unfold decode_index, decode. replace (y =? 0)%nat with false by lia.
  rewrite Z.quot_div_nonneg, Nat2Z.inj_div, Nat2Z.inj_mod by lia. reflexivity.
Qed.

(* ---------- labels ---------- *)
Lemma label_at_lab p pt l :
  wf2 (labels p) -> in_grid (a2x (labels p)) (a2y (labels p)) pt -> (label_at p pt l <-> lab p pt = Some l).
Proof.
  intros Hw Hg. destruct (get2_lab p pt Hw Hg) as (l' & E & L). unfold label_at. rewrite E, L.
  split; congruence.
Qed.

Lemma at2_flat {A} (a : arr2 A) x y pt :
  a2x a = x -> a2y a = y -> wf2 a -> in_grid x y pt ->
  forall v, get2 a (fst pt) (snd pt) = Ok v ->
  getitem (a2d a) (encode_point y pt) = Ok v.
Proof.
  intros Hx Hy Hw Hg v Hv. destruct Hg as [H1 H2].
  destruct (get2_ok a (fst pt) (snd pt)) as (u & E & L); auto; try (rewrite ?Hx, ?Hy; auto).
  assert (u = v) by congruence; subst u. unfold at2 in L.
  apply getitem_in in L. rewrite <- L. f_equal. unfold encode_point. rewrite Hy. lia.
Qed.

Lemma membership_of_points_spec p x y pts :
  valid_partition p x y -> Forall (in_grid x y) pts ->
  exists ls, membership_of_points p pts = Ok ls /\
    Forall2 (fun pt l => label_at p pt l) pts ls.
Proof.
  intros (Hx & Hy & Hw & Hl & _) Hpts.
  exists (map (fun pt => match lab p pt with Some l => l | None => 0%Z end) pts).
  unfold membership_of_points, membership_of_point_indices. rewrite mapM_map.
  assert (G : forall pt, In pt pts ->
     label_at p pt (match lab p pt with Some l => l | None => 0%Z end)).
  { intros pt Hin. rewrite Forall_forall in Hpts. specialize (Hpts _ Hin).
    assert (Hg' : in_grid (a2x (labels p)) (a2y (labels p)) pt) by (rewrite Hx, Hy; auto).
    destruct (get2_lab p pt Hw Hg') as (l & E & L).
    rewrite L. exact E. }
  split.
  - rewrite mapM_ok with (g := fun pt => match lab p pt with Some l => l | None => 0%Z end); auto.
    intros pt Hin. rewrite Forall_forall in Hpts. rewrite Hy.
    apply at2_flat with (x := x); auto. apply G; auto.
  - clear - G. induction pts as [|a l IH]; cbn; constructor.
    + apply G; left; auto.
    + apply IH. intros; apply G; right; auto.
Qed.

Lemma is_member_label p x y pt c l :
  valid_partition p x y -> in_grid x y pt -> label_at p pt l -> is_member p pt c = Ok (l =? c)%Z.
Proof. intros _ _ H. unfold is_member. rewrite H. reflexivity. Qed.

(* ---------- clusters split the region ---------- *)
Lemma filter_partition_perm {A} (f : A -> Z) (l : list A) k :
  (forall x, In x l -> 0 <= f x < Z.of_nat k)%Z ->
  Permutation (concat (map (fun c => filter (fun x => (f x =? Z.of_nat c)%Z) l) (seq 0 k))) l.
Proof.
  intros H. induction l as [|a l IH].
  - replace (concat _) with (@nil A); auto. symmetry.
    induction (seq 0 k); cbn; auto.
  - specialize (IH (fun x Hx => H x (or_intror Hx))).
    assert (Ha : (0 <= f a < Z.of_nat k)%Z) by (apply H; left; auto).
    transitivity (a :: concat (map (fun c => filter (fun x => (f x =? Z.of_nat c)%Z) l) (seq 0 k))); auto.
    assert (Hk : seq 0 k = seq 0 (Z.to_nat (f a)) ++ Z.to_nat (f a) :: seq (S (Z.to_nat (f a))) (k - S (Z.to_nat (f a)))).
    { replace k with (Z.to_nat (f a) + S (k - S (Z.to_nat (f a)))) at 1 by lia.
      rewrite seq_app. reflexivity. }
    rewrite Hk, !map_app, !concat_app. cbn [map concat].
    assert (G : forall s n, (forall c, s <= c < s + n -> Z.of_nat c <> f a) ->
      concat (map (fun c => filter (fun x => (f x =? Z.of_nat c)%Z) (a :: l)) (seq s n))
      = concat (map (fun c => filter (fun x => (f x =? Z.of_nat c)%Z) l) (seq s n))).
    { intros s n; revert s; induction n as [|n IHn]; intros s Hs; cbn [seq map concat]; auto.
      rewrite IHn by (intros c Hc; apply Hs; lia). f_equal. cbn [filter].
      specialize (Hs s ltac:(lia)). replace (f a =? Z.of_nat s)%Z with false by lia. reflexivity. }
    rewrite !G by (intros c Hc; lia). cbn [filter].
    replace (f a =? Z.of_nat (Z.to_nat (f a)))%Z with true by lia.
    cbn [app]. rewrite <- Permutation_middle. reflexivity.
Qed.

Definition label_of (p : crisp) (pt : point) : Z := match lab p pt with Some l => l | None => 0%Z end.

Lemma label_of_spec p x y pt :
  valid_partition p x y -> in_grid x y pt ->
  label_at p pt (label_of p pt) /\ (0 <= label_of p pt < pk p)%Z.
Proof.
  intros (Hx & Hy & Hw & Hl & _) Hg.
  assert (Hg' : in_grid (a2x (labels p)) (a2y (labels p)) pt) by (rewrite Hx, Hy; auto).
  destruct (get2_lab p pt Hw Hg') as (l & E & L). unfold label_of. rewrite L. split; auto.
  apply (Hl pt l); auto.
Qed.

Lemma has_lab_label_of p x y pt c :
  valid_partition p x y -> in_grid x y pt -> has_lab p c pt = (label_of p pt =? c)%Z.
Proof.
  intros (Hx & Hy & Hw & Hl & _) Hg.
  assert (Hg' : in_grid (a2x (labels p)) (a2y (labels p)) pt) by (rewrite Hx, Hy; auto).
  destruct (get2_lab p pt Hw Hg') as (l & E & L). unfold has_lab, label_of. rewrite L; auto.
Qed.

Lemma valid_k_pos p x y : valid_partition p x y -> (0 < pk p)%Z.
Proof. intros (Hx & Hy & Hw & Hl & pt & Hg & Hk). specialize (Hl _ _ Hg Hk). lia. Qed.

Lemma labels_grid p x y : valid_partition p x y -> a2d (labels p) = map (label_of p) (grid x y).
Proof.
  intros Hv. pose proof Hv as (Hx & Hy & Hw & Hl & _). apply list_ext_len.
  - rewrite map_length, grid_length. rewrite Hw, Hx, Hy; auto.
  - intros n Hn. rewrite Hw, Hx, Hy in Hn. rewrite nth_error_map, nth_error_grid by auto. cbn.
    pose proof (decode_in_grid x y n Hn) as Hg.
    assert (y <> 0) by (intros ->; lia).
    assert (Hg' : in_grid (a2x (labels p)) (a2y (labels p)) (decode y n)) by (rewrite Hx, Hy; auto).
    destruct (get2_lab p (decode y n) Hw Hg') as (l & E & L). unfold label_of. rewrite L.
    unfold lab, at2, decode in L. cbn [fst snd] in L. rewrite !Nat2Z.id, Hy, flat_recompose in L by auto. exact L.
Qed.

Lemma create_all_spatial_clusters_ok {A} (p : crisp) (d : arr2 A) x y :
  valid_partition p x y -> a2x d = x -> a2y d = y ->
  create_all_spatial_clusters p (SPlain d) = Ok (map (fun i => SCluster (SPlain d) p i) (zrange 0 (pk p))).
Proof.
  intros (Hx & Hy & Hw & Hl & _) Ex Ey. unfold create_all_spatial_clusters. apply mapM_ok.
  intros i _. unfold create_spatial_cluster, s_x, s_y; cbn. rewrite Hx, Hy, Ex, Ey, !Nat.eqb_refl. reflexivity.
Qed.

Lemma create_all_spt_clusters_ok {A} (p : crisp) (d : arr3 A) x y :
  valid_partition p x y -> a3x d = x -> a3y d = y ->
  create_all_spt_clusters p (TPlain d) = Ok (map (fun i => TCluster (TPlain d) p i) (zrange 0 (pk p))).
Proof.
  intros (Hx & Hy & Hw & Hl & _) Ex Ey. unfold create_all_spt_clusters. apply mapM_ok.
  intros i _. unfold create_spt_cluster, t_x, t_y; cbn. rewrite Hx, Hy, Ex, Ey, !Nat.eqb_refl. reflexivity.
Qed.

Lemma cluster_items {A} (p : crisp) (d : arr2 A) x y c :
  valid_partition p x y -> wf2 d -> a2x d = x -> a2y d = y ->
  exists items, s_items (SCluster (SPlain d) p c) = Ok items /\
    map fst items = filter (fun pt => (label_of p pt =? c)%Z) (grid x y) /\
    (forall pt v, In (pt, v) items -> get2 d (fst pt) (snd pt) = Ok v).
Proof.
  intros Hv Hd Ex Ey. pose proof Hv as (Hx & Hy & Hw & Hl & _).
  assert (W : swf (SCluster (SPlain d) p c)) by (cbn; unfold s_x, s_y; cbn; repeat split; auto; congruence).
  destruct (a2d d) as [|dflt rest] eqn:Ed.
  - (* empty grid contradicts a valid partition *)
    exfalso. destruct Hv as (_ & _ & _ & _ & pt & [H1 H2] & _).
    unfold wf2 in Hd. rewrite Ed, Ex, Ey in Hd. cbn in Hd.
    assert (x <> 0) by (intros ->; lia). assert (y <> 0) by (intros ->; lia). nia.
  - unfold s_items. rewrite (s_for_spec dflt) by (auto using s_cluster_consistent). cbn [snd skipn].
    eexists; split; [reflexivity|].
    unfold s_x, s_y; cbn [s_data]. rewrite Ex, Ey. split.
    + rewrite map_map, map_id. apply filter_ext_in. intros pt Hin. apply in_grid_iff in Hin.
      cbn [s_memb]. apply has_lab_label_of with x y; auto.
    + intros pt v Hin. apply in_map_iff in Hin. destruct Hin as (pt' & E & Hin).
      inversion E; subst; clear E. apply filter_In in Hin. destruct Hin as [Hin _]. apply in_grid_iff in Hin.
      pose proof (get2_s_val (SCluster (SPlain d) p c) dflt pt W Hin) as G. exact G.
Qed.

Lemma cluster_len_spec p x y c :
  valid_partition p x y ->
  cluster_len p c = length (filter (fun pt => (label_of p pt =? c)%Z) (grid x y)).
Proof.
  intros Hv. unfold cluster_len. rewrite (labels_grid p x y Hv).
  induction (grid x y) as [|a l IH]; cbn; auto. destruct (label_of p a =? c)%Z; cbn; auto.
Qed.

Lemma clusters_split {A} (p : crisp) (d : arr2 A) x y :
  valid_partition p x y -> wf2 d -> a2x d = x -> a2y d = y ->
  exists clusters itemss,
    create_all_spatial_clusters p (SPlain d) = Ok clusters /\
    mapM s_items clusters = Ok itemss /\
    Permutation (map fst (concat itemss)) (grid x y) /\
    length itemss = Z.to_nat (pk p) /\
    (forall i items, nth_error itemss i = Some items ->
       cluster_len p (Z.of_nat i) = length items /\
       (forall pt, In pt (map fst items) <-> in_grid x y pt /\ is_member p pt (Z.of_nat i) = Ok true)).
Proof.
  intros Hv Hd Ex Ey.
  exists (map (fun i => SCluster (SPlain d) p i) (zrange 0 (pk p))).
  set (f := fun c => match s_items (SCluster (SPlain d) p c) with Ok it => it | Raise _ => [] end).
  assert (Hf : forall c, s_items (SCluster (SPlain d) p c) = Ok (f c) /\
                map fst (f c) = filter (fun pt => (label_of p pt =? c)%Z) (grid x y)).
  { intros c. destruct (cluster_items p d x y c Hv Hd Ex Ey) as (it & E1 & E2 & _). unfold f. rewrite E1. auto. }
  exists (map f (zrange 0 (pk p))).
  split; [eapply create_all_spatial_clusters_ok; eauto|].
  split; [rewrite mapM_map; apply mapM_ok; intros c _; apply Hf|].
  split; [|split].
  - rewrite concat_map, map_map.
    unfold zrange. rewrite map_map. rewrite Z.sub_0_r.
    erewrite map_ext. 2:{ intros c. rewrite Z.add_0_l. apply (proj2 (Hf (Z.of_nat c))). }
    apply filter_partition_perm. intros pt Hin. apply in_grid_iff in Hin.
    destruct (label_of_spec p x y pt Hv Hin) as [_ Hb]. lia.
  - rewrite map_length, zrange_length. f_equal; lia.
  - intros i items Hi. rewrite nth_error_map in Hi.
    destruct (nth_error (zrange 0 (pk p)) i) as [z|] eqn:Ez; cbn in Hi; [|discriminate].
    assert (i < length (zrange 0 (pk p))) by (apply nth_error_Some; congruence).
    rewrite zrange_length in H. rewrite zrange_nth in Ez by lia. rewrite Z.add_0_l in Ez.
    inversion Ez; subst z. inversion Hi; subst items. clear Hi Ez.
    destruct (Hf (Z.of_nat i)) as [E1 E2]. split.
    + rewrite (cluster_len_spec p x y) by auto. rewrite <- E2, map_length; auto.
    + intros pt. rewrite E2, filter_In, in_grid_iff. split.
      * intros [Hg Hl]. split; auto. destruct (label_of_spec p x y pt Hv Hg) as [Hla _].
        rewrite (is_member_label p x y pt _ _ Hv Hg Hla). congruence.
      * intros [Hg Hm]. split; auto. destruct (label_of_spec p x y pt Hv Hg) as [Hla _].
        rewrite (is_member_label p x y pt _ _ Hv Hg Hla) in Hm. congruence.
Qed.

(* ---------- all_point_indices ---------- *)
Lemma map_fst_filter_enumerate {A} (f : A -> bool) (l : list A) n :
  In n (map fst (filter (fun '(_, x) => f x) (enumerate l))) <-> exists x, nth_error l n = Some x /\ f x = true.
Proof.
  rewrite in_map_iff. split.
  - intros ((m & x) & E & Hin). cbn in E; subst m. apply filter_In in Hin. destruct Hin as [Hin Hf].
    apply In_nth_error in Hin. destruct Hin as [k Hk]. rewrite nth_error_enumerate in Hk.
    destruct (nth_error l k) eqn:E; cbn in Hk; inversion Hk; subst. eauto.
  - intros (x & Hx & Hf). exists (n, x). split; auto. apply filter_In. split; auto.
    apply nth_error_In with n. rewrite nth_error_enumerate, Hx. reflexivity.
Qed.

From Coq Require Import Sorted.
Lemma seq_sorted s n : StronglySorted lt (seq s n).
Proof.
  revert s; induction n; intros s; cbn; constructor; auto.
  apply Forall_forall. intros x Hx. apply in_seq in Hx. lia.
Qed.
Lemma sorted_filter {A} R (f : A -> bool) l : StronglySorted R l -> StronglySorted R (filter f l).
Proof.
  induction 1 as [|a l H IH Hf]; cbn; [constructor|]. destruct (f a); auto. constructor; auto.
  apply Forall_forall. intros x Hx. apply filter_In in Hx. rewrite Forall_forall in Hf. apply Hf; tauto.
Qed.

Lemma filter_enumerate_seq {A} (f : A -> bool) (l : list A) :
  map fst (filter (fun '(_, x) => f x) (enumerate l))
  = filter (fun n => match nth_error l n with Some x => f x | None => false end) (seq 0 (length l)).
Proof.
  unfold enumerate.
  assert (G : forall pre, map fst (filter (fun '(_, x) => f x) (combine (seq (length pre) (length l)) l))
     = filter (fun n => match nth_error (pre ++ l) n with Some x => f x | None => false end) (seq (length pre) (length l))).
  { induction l as [|a l IH]; intros pre; cbn [length seq combine filter map]; auto.
    rewrite nth_error_app2, Nat.sub_diag by lia. cbn [nth_error].
    specialize (IH (pre ++ [a])). rewrite app_length in IH. cbn [length] in IH.
    rewrite Nat.add_1_r in IH. rewrite <- app_assoc in IH. cbn [app] in IH.
    destruct (f a); cbn [map fst]; rewrite IH; reflexivity. }
  specialize (G []). exact G.
Qed.

Lemma all_point_indices_cluster {A} (p : crisp) (r : stregion A) x y c :
  valid_partition p x y -> t_x r = x -> t_y r = y ->
  exists ns, all_point_indices (TCluster r p c) = Ok ns /\ StronglySorted lt ns /\
    ns = map (fun pt => Z.to_nat (encode_point y pt)) (filter (fun pt => (label_of p pt =? c)%Z) (grid x y)).
Proof.
  intros Hv Ex Ey. pose proof Hv as (Hx & Hy & Hw & Hl & _).
  cbn [all_point_indices]. unfold membership_of_point_indices. rewrite mapM_map.
  rewrite Ex, Ey.
  set (g := fun n => label_of p (decode y n)).
  assert (E : mapM (fun n : nat => getitem (a2d (labels p)) (Z.of_nat n)) (seq 0 (x * y)) = Ok (map g (seq 0 (x * y)))).
  { apply mapM_ok. intros n Hn. apply in_seq in Hn. apply getitem_in. unfold g.
    rewrite (labels_grid p x y Hv), nth_error_map, nth_error_grid by lia. reflexivity. }
  rewrite E. cbn [bind]. eexists; split; [reflexivity|].
  rewrite (filter_enumerate_seq (fun l => (l =? c)%Z)). rewrite map_length, seq_length.
  split; [apply sorted_filter, seq_sorted|].
  rewrite grid_decode.
  assert (G : forall l, (forall n, In n l -> n < x * y) ->
    filter (fun n => match nth_error (map g (seq 0 (x * y))) n with Some l => (l =? c)%Z | None => false end) l
    = map (fun pt => Z.to_nat (encode_point y pt)) (filter (fun pt => (label_of p pt =? c)%Z) (map (decode y) l))).
  { induction l as [|a l IH]; intros Hin; cbn [filter map]; auto.
    assert (Ha : a < x * y) by (apply Hin; left; auto).
    rewrite nth_error_map, nth_error_seq. replace (a <? x * y)%nat with true by lia. cbn [option_map Nat.add].
    fold (g a). rewrite IH by (intros; apply Hin; right; auto).
    change (label_of p (decode y a)) with (g a). destruct (g a =? c)%Z; cbn [map]; auto. f_equal.
    assert (y <> 0) by (intros ->; lia). unfold encode_point, decode; cbn [fst snd].
    rewrite <- Nat2Z.inj_mul, <- Nat2Z.inj_add, Nat2Z.id. symmetry; apply flat_recompose; auto. }
  apply G. intros n Hn; apply in_seq in Hn; lia.
Qed.

(* ---------- writing loops ---------- *)
Lemma write_loop {A} (x y : nat) (d0 : arr2 A) (f : point -> res A) (g : point -> A) :
  a2x d0 = x -> a2y d0 = y -> wf2 d0 ->
  forall pts, NoDup pts -> (forall pt, In pt pts -> in_grid x y pt /\ f pt = Ok (g pt)) ->
  exists m, foldM (fun m pt => v <- f pt ;; set2 m (fst pt) (snd pt) v) pts d0 = Ok m /\
    wf2 m /\ a2x m = x /\ a2y m = y /\
    (forall pt, In pt pts -> get2 m (fst pt) (snd pt) = Ok (g pt)) /\
    (forall pt, in_grid x y pt -> ~ In pt pts -> get2 m (fst pt) (snd pt) = get2 d0 (fst pt) (snd pt)).
Proof.
  intros Hx Hy Hw pts Hnd Hf.
  destruct (fold_set2 (fun pt : point => pt) f d0 pts Hw) with (vals := map g pts)
    as (m & E & W & X & Y & P & Q).
  - intros b Hb. rewrite Hx, Hy. apply Hf; auto.
  - rewrite map_id; auto.
  - apply mapM_ok. intros pt Hpt; apply Hf; auto.
  - exists m. split; [exact E|]. split; [auto|]. split; [congruence|]. split; [congruence|]. split.
    + intros pt Hpt. apply P. apply in_combine_map; auto.
    + intros pt Hg Hn. destruct Hg as [G1 G2].
      destruct (get2_ok m (fst pt) (snd pt)) as (u & Eu & Lu); auto; try lia.
      destruct (get2_ok d0 (fst pt) (snd pt)) as (v & Ev & Lv); auto; try lia.
      rewrite Eu, Ev. rewrite Q in Lu; try lia; [congruence|].
      rewrite map_id, !Z2Nat.id by lia. destruct pt; auto.
Qed.

Lemma write_series_loop {A B} (len x y : nat) (d0 : arr3 A) (f : B -> res (list A)) (g : B -> list A) (key : B -> point) :
  a3t d0 = len -> a3x d0 = x -> a3y d0 = y -> wf3 d0 ->
  forall its, NoDup (map key its) ->
  (forall it, In it its -> in_grid x y (key it) /\ f it = Ok (g it) /\ length (g it) = len) ->
  exists m, foldM (fun m it => s <- f it ;; setseries3 m (fst (key it)) (snd (key it)) s) its d0 = Ok m /\
    wf3 m /\ a3t m = len /\ a3x m = x /\ a3y m = y /\
    (forall it, In it its -> series3 m (fst (key it)) (snd (key it)) = Ok (g it)) /\
    (forall pt, in_grid x y pt -> ~ In pt (map key its) ->
       series3 m (fst pt) (snd pt) = series3 d0 (fst pt) (snd pt)).
Proof.
  intros Ht Hx Hy Hw its; revert d0 Ht Hx Hy Hw.
  induction its as [|it its IH]; intros d0 Ht Hx Hy Hw Hnd Hf; cbn [foldM map].
  - exists d0. repeat split; auto. intros it [].
  - cbn [map] in Hnd. inversion Hnd as [|? ? Hni Hnd']; subst.
    destruct (Hf it) as (Hg & Ef & Hlen); [left; auto|].
    destruct (setseries3_spec d0 (fst (key it)) (snd (key it)) (g it)) as (d1 & E1 & W1 & T1 & X1 & Y1 & S1 & O1); auto.
    { apply Hg. } { apply Hg. }
    rewrite Ef; cbn [bind]. rewrite E1; cbn [bind].
    destruct (IH d1) as (m & E & W & T & X & Y & P & Q); auto.
    { intros it' Hin. apply Hf; right; auto. }
    exists m. split; [exact E|]. split; [exact W|]. split; [congruence|]. split; [congruence|]. split; [congruence|].
    split.
    + intros it' [<-|Hin]; [|apply P; auto]. rewrite Q; auto.
    + intros pt Hpt Hn. rewrite Q; auto.
      * apply O1; [apply Hpt|apply Hpt|]. intros E'. apply Hn. left. destruct pt, (key it); cbn in *; congruence.
      * intros Hin; apply Hn; right; auto.
Qed.

Lemma foldM_map {A B S} (f : S -> B -> res S) (h : A -> B) l s :
  foldM f (map h l) s = foldM (fun s x => f s (h x)) l s.
Proof. revert s; induction l as [|a l IH]; intros s; cbn; auto. destruct (f s (h a)); cbn; auto. Qed.

Lemma get2_full {A} x y (v : A) pt : in_grid x y pt -> get2 (full2 x y v) (fst pt) (snd pt) = Ok v.
Proof.
  intros [H1 H2]. destruct (get2_ok (full2 x y v) (fst pt) (snd pt)) as (u & E & L).
  { apply wf2_full. } { cbn; auto. } { cbn; auto. }
  rewrite E. rewrite at2_full in L by lia. congruence.
Qed.

Lemma series3_full {A} len x y (v : A) pt : in_grid x y pt -> series3 (full3 len x y v) (fst pt) (snd pt) = Ok (repeat v len).
Proof.
  intros [H1 H2]. destruct (series3_ok (full3 len x y v) (fst pt) (snd pt)) as (u & E & L & P).
  { apply wf3_full. } { cbn; auto. } { cbn; auto. }
  rewrite E. f_equal. cbn in L. apply list_ext_len.
  - rewrite repeat_length; auto.
  - intros n Hn. rewrite P by (cbn; lia). rewrite at3_full by lia. rewrite nth_error_repeat_eq.
    replace (n <? len)%nat with true by lia. reflexivity.
Qed.

(* ---------- merge ---------- *)
Lemma base_for_0 x y : snd (base_for x y 0) = Ok (grid x y).
Proof. rewrite base_for_spec; reflexivity. Qed.

Lemma merge_clusters_spec {A} (zero : A) (p : crisp) x y (clusters : list (sregion A)) (g : point -> A) :
  valid_partition p x y ->
  Forall (fun c => s_x c = x /\ s_y c = y) clusters ->
  mapM cluster_index_of clusters = Ok (zrange 0 (pk p)) ->
  (forall pt, in_grid x y pt ->
     exists c, nth_error clusters (Z.to_nat (label_of p pt)) = Some c /\ value_at c pt = Ok (g pt)) ->
  exists m, merge_clusters_2d zero p clusters = Ok (SPlain m) /\ wf2 m /\ a2x m = x /\ a2y m = y /\
    forall pt, in_grid x y pt -> get2 m (fst pt) (snd pt) = Ok (g pt).
Proof.
  intros Hv Hs Hi Hg. pose proof Hv as (Hx & Hy & Hw & Hl & _).
  unfold merge_clusters_2d. rewrite Hx, Hy.
  rewrite mapM_ok with (g := fun _ => tt).
  2:{ intros c Hc. rewrite Forall_forall in Hs. destruct (Hs c Hc) as [-> ->]. rewrite !Nat.eqb_refl. reflexivity. }
  cbn [bind]. rewrite Hi. cbn [bind].
  destruct (list_eq_dec Z.eq_dec (zrange 0 (pk p)) (zrange 0 (pk p))); [|congruence]. cbn [bind].
  assert (Hlen : length clusters = Z.to_nat (pk p)).
  { apply mapM_length in Hi. rewrite zrange_length in Hi. lia. }
  pose proof (valid_k_pos p x y Hv).
  destruct (nth_error_lt_some clusters 0) as [c0 Hc0]; [lia|].
  rewrite (getitem_in clusters 0 c0 Hc0 : getitem clusters 0 = Ok c0). cbn [bind].
  rewrite base_for_0. cbn [bind].
  destruct (write_loop x y (full2 x y zero)
      (fun pt => l <- get2 (labels p) (fst pt) (snd pt) ;; c <- getitem clusters l ;; value_at c pt) g
      eq_refl eq_refl (wf2_full x y zero) (grid x y)) as (m & E & W & X & Y & P & _).
  - apply grid_nodup.
  - intros pt Hin. apply in_grid_iff in Hin. split; auto.
    destruct (label_of_spec p x y pt Hv Hin) as [Hla Hb]. unfold label_at in Hla. rewrite Hla. cbn [bind].
    destruct (Hg pt Hin) as (c & Hc & Hval). apply getitem_in in Hc. rewrite Z2Nat.id in Hc by lia.
    rewrite Hc. cbn [bind]. exact Hval.
  - exists m.
    match goal with |- context [foldM ?h ?l ?i] => assert (E' : foldM h l i = Ok m) end.
    { rewrite <- E. apply foldM_ext. intros s pt _. rewrite !bind_assoc.
      destruct (get2 (labels p) (fst pt) (snd pt)); cbn [bind]; auto.
      rewrite bind_assoc. reflexivity. }
    rewrite E'. cbn [bind]. repeat split; auto. intros pt Hpt. apply P. apply in_grid_iff; auto.
Qed.

Lemma merge_clusters_bad_indices {A} (zero : A) (p : crisp) x y (clusters : list (sregion A)) is :
  valid_partition p x y ->
  Forall (fun c => s_x c = x /\ s_y c = y) clusters ->
  mapM cluster_index_of clusters = Ok is -> is <> zrange 0 (pk p) ->
  merge_clusters_2d zero p clusters = Raise ValueError.
Proof.
  intros Hv Hs Hi Hne. pose proof Hv as (Hx & Hy & Hw & Hl & _).
  unfold merge_clusters_2d. rewrite Hx, Hy.
  rewrite mapM_ok with (g := fun _ => tt).
  2:{ intros c Hc. rewrite Forall_forall in Hs. destruct (Hs c Hc) as [-> ->]. rewrite !Nat.eqb_refl. reflexivity. }
  cbn [bind]. rewrite Hi. cbn [bind].
  destruct (list_eq_dec Z.eq_dec is (zrange 0 (pk p))); [congruence|]. reflexivity.
Qed.

Lemma value_at_cluster {A} (p : crisp) (d : arr2 A) x y c pt :
  valid_partition p x y -> wf2 d -> a2x d = x -> a2y d = y -> in_grid x y pt ->
  value_at (SCluster (SPlain d) p c) pt
  = if (label_of p pt =? c)%Z then get2 d (fst pt) (snd pt) else Raise ValueError.
Proof.
  intros Hv Hd Ex Ey Hg. cbn [value_at].
  destruct (label_of_spec p x y pt Hv Hg) as [Hla _].
  rewrite (is_member_label p x y pt c _ Hv Hg Hla). reflexivity.
Qed.

Lemma nth_error_zrange0 k n : (0 <= n < k)%Z -> nth_error (zrange 0 k) (Z.to_nat n) = Some n.
Proof. intros H. rewrite zrange_nth by lia. f_equal; lia. Qed.

Lemma split_merge {A} (zero : A) (p : crisp) (d : arr2 A) x y :
  valid_partition p x y -> wf2 d -> a2x d = x -> a2y d = y ->
  exists clusters, create_all_spatial_clusters p (SPlain d) = Ok clusters /\
    merge_clusters_2d zero p clusters = Ok (SPlain d).
Proof.
  intros Hv Hd Ex Ey. eexists. split; [eapply create_all_spatial_clusters_ok; eauto|].
  destruct (merge_clusters_spec zero p x y (map (fun i => SCluster (SPlain d) p i) (zrange 0 (pk p)))
              (fun pt => s_val (SPlain d) zero pt) Hv) as (m & E & W & X & Y & P).
  - apply Forall_forall. intros c Hc. apply in_map_iff in Hc. destruct Hc as (i & <- & _).
    unfold s_x, s_y; cbn; auto.
  - rewrite mapM_map. rewrite mapM_ok with (g := fun i => i); [rewrite map_id; auto|]. reflexivity.
  - intros pt Hg. destruct (label_of_spec p x y pt Hv Hg) as [Hla Hb].
    rewrite nth_error_map, nth_error_zrange0 by auto. cbn [option_map]. eexists; split; [reflexivity|].
    rewrite (value_at_cluster p d x y) by auto. rewrite Z.eqb_refl.
    apply (get2_s_val (SPlain d)); cbn; auto. unfold s_x, s_y; cbn. rewrite Ex, Ey; auto.
  - rewrite E. do 2 f_equal. apply arr2_ext_get; auto; try congruence.
    intros i j Hi Hj. rewrite X, Y in *. specialize (P (i, j)). cbn [fst snd] in P. rewrite P by (split; auto).
    symmetry. apply (get2_s_val (SPlain d) zero (i, j)); cbn; auto. unfold s_x, s_y; cbn. rewrite Ex, Ey. split; auto.
Qed.

Lemma zrange_perm_clusters {A} (zero : A) (p : crisp) (d : arr2 A) x y is :
  valid_partition p x y -> wf2 d -> a2x d = x -> a2y d = y ->
  is <> zrange 0 (pk p) ->
  merge_clusters_2d zero p (map (fun i => SCluster (SPlain d) p i) is) = Raise ValueError.
Proof.
  intros Hv Hd Ex Ey Hne. eapply merge_clusters_bad_indices; eauto.
  - apply Forall_forall. intros c Hc. apply in_map_iff in Hc. destruct Hc as (i & <- & _).
    unfold s_x, s_y; cbn; auto.
  - rewrite mapM_map. rewrite mapM_ok with (g := fun i => i); [rewrite map_id; auto|]. reflexivity.
Qed.

(* ---------- representatives ---------- *)
Lemma repeat_value_cluster {A} (p : crisp) (d : arr2 A) x y c v :
  a2x d = x -> a2y d = y ->
  repeat_value (SCluster (SPlain d) p c) v = Ok (SCluster (SPlain (full2 x y v)) p c).
Proof.
  intros Ex Ey. unfold repeat_value, copy_value_as_matrix_elements, reshape2, s_x, s_y. cbn [s_data].
  rewrite Ex, Ey, repeat_length, Nat.eqb_refl. reflexivity.
Qed.

Lemma mapM_enumerate_reps {A} (p : crisp) (d : arr2 A) x y (reps : list point) :
  a2x d = x -> a2y d = y -> length reps = Z.to_nat (pk p) ->
  mapM (fun '(i, cluster) => rep <- getitem reps (Z.of_nat i) ;; s_repeat_point cluster rep)
       (enumerate (map (fun i => SCluster (SPlain d) p i) (zrange 0 (pk p))))
  = mapM (fun '(i, rep) => v <- value_at (SCluster (SPlain d) p (Z.of_nat i)) rep ;;
                           Ok (SCluster (SPlain (full2 x y v)) p (Z.of_nat i)))
         (enumerate reps).
Proof.
  intros Ex Ey Hlen.
  assert (El : enumerate (map (fun i => SCluster (SPlain d) p i) (zrange 0 (pk p)))
             = map (fun n => (n, SCluster (SPlain d) p (Z.of_nat n))) (seq 0 (length reps))).
  { apply list_ext. intros n. rewrite nth_error_enumerate, !nth_error_map, nth_error_seq.
    unfold zrange. rewrite nth_error_map, nth_error_seq. rewrite Hlen, Z.sub_0_r.
    destruct (n <? Z.to_nat (pk p))%nat; reflexivity. }
  rewrite El, mapM_map.
  assert (Er : enumerate reps = map (fun n => (n, nth n reps (0, 0)%Z)) (seq 0 (length reps))).
  { apply list_ext. intros n. rewrite nth_error_enumerate, nth_error_map, nth_error_seq.
    destruct (n <? length reps)%nat eqn:E.
    - rewrite (nth_error_nth' reps (0, 0)%Z) by lia. reflexivity.
    - replace (nth_error reps n) with (@None point); auto. symmetry; apply nth_error_None; lia. }
  rewrite Er, mapM_map. apply mapM_ext. intros n Hn. apply in_seq in Hn.
  rewrite (getitem_in reps n (nth n reps (0, 0)%Z)) by (apply nth_error_nth'; lia).
  cbn [bind]. unfold s_repeat_point. destruct (value_at _ _); cbn [bind]; auto.
  apply repeat_value_cluster; auto.
Qed.

Lemma merge_reps {A} (zero : A) (p : crisp) (d : arr2 A) x y (reps : list point) :
  valid_partition p x y -> wf2 d -> a2x d = x -> a2y d = y ->
  length reps = Z.to_nat (pk p) ->
  (forall i rep, nth_error reps i = Some rep -> in_grid x y rep /\ label_at p rep (Z.of_nat i)) ->
  exists clusters m, create_all_spatial_clusters p (SPlain d) = Ok clusters /\
    merge_with_representatives_2d zero p clusters reps = Ok (SPlain m) /\
    wf2 m /\ a2x m = x /\ a2y m = y /\
    forall pt l rep, in_grid x y pt -> label_at p pt l -> nth_error reps (Z.to_nat l) = Some rep ->
      get2 m (fst pt) (snd pt) = get2 d (fst rep) (snd rep).
Proof.
  intros Hv Hd Ex Ey Hlen Hreps. pose proof Hv as (Hx & Hy & Hw & Hl & _).
  set (vof := fun rep => s_val (SPlain d) zero rep).
  set (rc := map (fun '(i, rep) => SCluster (SPlain (full2 x y (vof rep))) p (Z.of_nat i)) (enumerate reps)).
  assert (Hval : forall i rep, nth_error reps i = Some rep -> value_at (SCluster (SPlain d) p (Z.of_nat i)) rep = Ok (vof rep)).
  { intros i rep Hi. destruct (Hreps i rep Hi) as [Hg Hla].
    rewrite (value_at_cluster p d x y) by auto.
    assert (label_of p rep = Z.of_nat i).
    { destruct (label_of_spec p x y rep Hv Hg) as [Hla' _]. unfold label_at in *. congruence. }
    rewrite H, Z.eqb_refl. apply (get2_s_val (SPlain d)); cbn; auto. unfold s_x, s_y; cbn. rewrite Ex, Ey; auto. }
  destruct (merge_clusters_spec zero p x y rc
     (fun pt => match nth_error reps (Z.to_nat (label_of p pt)) with Some rep => vof rep | None => zero end) Hv)
    as (m & E & W & X & Y & P).
  - apply Forall_forall. intros c Hc. apply in_map_iff in Hc. destruct Hc as ((i, rep) & <- & _).
    unfold s_x, s_y; cbn; auto.
  - unfold rc. rewrite mapM_map.
    rewrite mapM_ok with (g := fun '(i, _) => Z.of_nat i) by (intros [i rep] _; reflexivity).
    f_equal. apply list_ext. intros n. rewrite nth_error_map, nth_error_enumerate.
    unfold zrange. rewrite nth_error_map, nth_error_seq, Z.sub_0_r, <- Hlen.
    destruct (n <? length reps)%nat eqn:En.
    + destruct (nth_error_lt_some reps n) as [rep Hr]; [lia|]. rewrite Hr; reflexivity.
    + replace (nth_error reps n) with (@None point); auto. symmetry; apply nth_error_None; lia.
  - intros pt Hg. destruct (label_of_spec p x y pt Hv Hg) as [Hla Hb].
    destruct (nth_error_lt_some reps (Z.to_nat (label_of p pt))) as [rep Hr]; [lia|].
    unfold rc. rewrite nth_error_map, nth_error_enumerate, Hr. cbn [option_map].
    eexists; split; [reflexivity|]. cbn [value_at].
    rewrite (is_member_label p x y pt _ _ Hv Hg Hla). rewrite Z2Nat.id by lia. rewrite Z.eqb_refl. cbn [bind].
    apply get2_full; auto.
  - exists (map (fun i => SCluster (SPlain d) p i) (zrange 0 (pk p))), m.
    split; [eapply create_all_spatial_clusters_ok; eauto|].
    split.
    + unfold merge_with_representatives_2d. rewrite map_length, zrange_length, Z.sub_0_r, <- Hlen, Nat.eqb_refl.
      cbn [py_assert bind]. rewrite (mapM_enumerate_reps p d x y) by auto.
      rewrite mapM_ok with (g := fun '(i, rep) => SCluster (SPlain (full2 x y (vof rep))) p (Z.of_nat i)).
      * cbn [bind]. exact E.
      * intros [i rep] Hin. apply In_nth_error in Hin. destruct Hin as [n Hn].
        rewrite nth_error_enumerate in Hn. destruct (nth_error reps n) as [r'|] eqn:Er; cbn in Hn; [|discriminate].
        inversion Hn; subst. rewrite (Hval i rep Er). reflexivity.
    + split; [auto|]. split; [auto|]. split; [auto|].
      intros pt l rep Hg Hla Hr. rewrite P by auto.
      assert (label_of p pt = l).
      { destruct (label_of_spec p x y pt Hv Hg) as [Hla' _]. unfold label_at in *. congruence. }
      subst l. rewrite Hr. symmetry. unfold vof.
      destruct (Hreps _ _ Hr) as [Hgr _].
      apply (get2_s_val (SPlain d)); cbn; auto. unfold s_x, s_y; cbn. rewrite Ex, Ey; auto.
Qed.

Lemma merge_reps_nonmember {A} (zero : A) (p : crisp) (d : arr2 A) x y (reps : list point) :
  valid_partition p x y -> wf2 d -> a2x d = x -> a2y d = y ->
  length reps = Z.to_nat (pk p) -> Forall (in_grid x y) reps ->
  (exists i rep, nth_error reps i = Some rep /\ ~ label_at p rep (Z.of_nat i)) ->
  exists clusters, create_all_spatial_clusters p (SPlain d) = Ok clusters /\
    merge_with_representatives_2d zero p clusters reps = Raise ValueError.
Proof.
  intros Hv Hd Ex Ey Hlen Hreps (i & rep & Hi & Hn).
  exists (map (fun i => SCluster (SPlain d) p i) (zrange 0 (pk p))).
  split; [eapply create_all_spatial_clusters_ok; eauto|].
  unfold merge_with_representatives_2d. rewrite map_length, zrange_length, Z.sub_0_r, <- Hlen, Nat.eqb_refl.
  cbn [py_assert bind]. rewrite (mapM_enumerate_reps p d x y) by auto.
  assert (G : forall j r, nth_error reps j = Some r ->
     value_at (SCluster (SPlain d) p (Z.of_nat j)) r = if (label_of p r =? Z.of_nat j)%Z then get2 d (fst r) (snd r) else Raise ValueError).
  { intros j r Hj. apply (value_at_cluster p d x y); auto. rewrite Forall_forall in Hreps. apply Hreps.
    eapply nth_error_In; eauto. }
  rewrite mapM_some_raise with (x := (i, rep)) (e := ValueError); auto.
  - apply nth_error_In with i. rewrite nth_error_enumerate, Hi. reflexivity.
  - rewrite (G i rep Hi).
    assert (in_grid x y rep) as Hg by (rewrite Forall_forall in Hreps; apply Hreps; eapply nth_error_In; eauto).
    destruct (label_of_spec p x y rep Hv Hg) as [Hla _].
    destruct (label_of p rep =? Z.of_nat i)%Z eqn:E; auto.
    exfalso. apply Hn. replace (Z.of_nat i) with (label_of p rep) by lia. auto.
  - intros [j r] e Hin He. apply In_nth_error in Hin. destruct Hin as [n Hnn].
    rewrite nth_error_enumerate in Hnn. destruct (nth_error reps n) as [r'|] eqn:Er; cbn in Hnn; [|discriminate].
    inversion Hnn; subst n r'. rewrite (G j r Er) in He.
    destruct (label_of p r =? Z.of_nat j)%Z; cbn in He; [|congruence].
    assert (in_grid x y r) as [Hg1 Hg2] by (rewrite Forall_forall in Hreps; apply Hreps; eapply nth_error_In; eauto).
    destruct (get2_ok d (fst r) (snd r)) as (v & Ev & _); auto; try lia.
    rewrite Ev in He; cbn in He; discriminate.
Qed.

(* ---------- rectangles ---------- *)
Lemma intersecting_spec p x y g :
  valid_partition p x y -> (0 <= x1 g /\ x2 g <= Z.of_nat x /\ 0 <= y1 g /\ y2 g <= Z.of_nat y)%Z ->
  exists is, find_indices_of_clusters_intersecting_with p g = Ok is /\ NoDup is /\
    forall c, In c is <-> exists pt, (x1 g <= fst pt < x2 g)%Z /\ (y1 g <= snd pt < y2 g)%Z /\ label_at p pt c.
Proof.
  intros Hv Hr. pose proof Hv as (Hx & Hy & Hw & Hl & _).
  unfold find_indices_of_clusters_intersecting_with, membership_of_point_indices. rewrite Hy.
  set (pts := flat_map (fun a => map (fun b => (a, b)) (zrange (y1 g) (y2 g))) (zrange (x1 g) (x2 g))).
  assert (Ei : flat_map (fun x0 => map (fun y0 => (x0 * Z.of_nat y + y0)%Z) (zrange (y1 g) (y2 g))) (zrange (x1 g) (x2 g))
               = map (encode_point y) pts).
  { unfold pts. induction (zrange (x1 g) (x2 g)) as [|a l IH]; cbn [flat_map]; auto.
    rewrite map_app, map_map, IH. reflexivity. }
  rewrite Ei, mapM_map.
  assert (Hpts : forall pt, In pt pts <-> (x1 g <= fst pt < x2 g)%Z /\ (y1 g <= snd pt < y2 g)%Z).
  { intros [a b]. unfold pts. rewrite in_flat_map. cbn [fst snd]. split.
    - intros (a' & Ha & Hb). apply in_map_iff in Hb. destruct Hb as (b' & E & Hb). inversion E; subst.
      apply in_zrange in Ha, Hb. auto.
    - intros [Ha Hb]. exists a. split; [apply in_zrange; auto|]. apply in_map_iff. exists b. split; auto.
      apply in_zrange; auto. }
  rewrite mapM_ok with (g := label_of p).
  2:{ intros pt Hin. apply Hpts in Hin. assert (Hg : in_grid x y pt) by (unfold in_grid; lia).
      destruct (label_of_spec p x y pt Hv Hg) as [Hla _]. apply at2_flat with x; auto. }
  cbn [bind]. eexists; split; [reflexivity|]. split; [apply NoDup_nodup|].
  intros c. rewrite nodup_In, in_map_iff. split.
  - intros (pt & <- & Hin). exists pt. apply Hpts in Hin. destruct Hin as [H1 H2]. repeat split; try lia.
    assert (Hg : in_grid x y pt) by (unfold in_grid; lia). apply (label_of_spec p x y pt Hv Hg).
  - intros (pt & H1 & H2 & Hla). exists pt. split; [|apply Hpts; auto].
    assert (Hg : in_grid x y pt) by (unfold in_grid; lia).
    destruct (label_of_spec p x y pt Hv Hg) as [Hla' _]. unfold label_at in *. congruence.
Qed.

(* ---------- function application ---------- *)
Lemma s_apply_scalar_spec {A B} (zero : B) (f : fregion A B) (r : sregion A) (g : point -> A -> B) (dflt : A) :
  swf r -> s_consistent r -> f_x f = s_x r -> f_y f = s_y r ->
  (forall pt v, in_grid (s_x r) (s_y r) pt -> s_memb r pt = true -> exists fn, f_at f pt = Ok fn /\ fn v = Ok (g pt v)) ->
  exists m, s_apply_scalar zero f r = Ok (s_new_spatial r m) /\ wf2 m /\ a2x m = s_x r /\ a2y m = s_y r /\
    forall pt, in_grid (s_x r) (s_y r) pt ->
      get2 m (fst pt) (snd pt) = Ok (if s_memb r pt then g pt (s_val r dflt pt) else zero).
Proof.
  intros Hw Hc Ex Ey Hf. unfold s_apply_scalar. rewrite Ex, Ey, !Nat.eqb_refl. cbn [py_assert bind].
  unfold s_items. rewrite (s_for_spec dflt) by auto. cbn [snd bind skipn]. rewrite foldM_map.
  destruct (write_loop (s_x r) (s_y r) (full2 (s_x r) (s_y r) zero)
     (fun pt => fn <- f_at f pt ;; fn (s_val r dflt pt)) (fun pt => g pt (s_val r dflt pt)) eq_refl eq_refl (wf2_full _ _ _)
     (filter (s_memb r) (grid (s_x r) (s_y r)))) as (m & E & W & X & Y & P & Q).
  - apply NoDup_filter, grid_nodup.
  - intros pt Hin. apply filter_In in Hin. destruct Hin as [Hin Hm]. apply in_grid_iff in Hin. split; auto.
    destruct (Hf pt (s_val r dflt pt) Hin Hm) as (fn & E1 & E2). rewrite E1; cbn; auto.
  - exists m. rewrite foldM_ext with (g := fun m pt => v <- (fn <- f_at f pt ;; fn (s_val r dflt pt)) ;; set2 m (fst pt) (snd pt) v).
    2:{ intros s pt _. unfold apply_scalar_step. rewrite bind_assoc. reflexivity. }
    rewrite E. cbn [bind]. repeat split; auto. intros pt Hg.
    destruct (s_memb r pt) eqn:Em.
    + apply P. apply filter_In; split; auto. apply in_grid_iff; auto.
    + rewrite Q; auto; [apply get2_full; auto|]. rewrite filter_In. intros [_ H]; congruence.
Qed.

Lemma t_apply_scalar_spec {A B} (zero : B) (f : fregion (list A) B) (r : stregion A) (g : point -> list A -> B) :
  twf r -> t_consistent r -> f_x f = t_x r -> f_y f = t_y r ->
  (forall pt, in_grid (t_x r) (t_y r) pt -> t_memb r pt = true ->
     exists fn, f_at f pt = Ok fn /\ fn (t_ser r pt) = Ok (g pt (t_ser r pt))) ->
  exists m, t_apply_scalar zero f r = Ok (t_new_spatial r m) /\ wf2 m /\ a2x m = t_x r /\ a2y m = t_y r /\
    forall pt, in_grid (t_x r) (t_y r) pt ->
      get2 m (fst pt) (snd pt) = Ok (if t_memb r pt then g pt (t_ser r pt) else zero).
Proof.
  intros Hw Hc Ex Ey Hf. unfold t_apply_scalar. rewrite Ex, Ey, !Nat.eqb_refl. cbn [py_assert bind].
  unfold t_items. rewrite t_for_spec by auto. cbn [snd bind skipn]. rewrite foldM_map.
  destruct (write_loop (t_x r) (t_y r) (full2 (t_x r) (t_y r) zero)
     (fun pt => fn <- f_at f pt ;; fn (t_ser r pt)) (fun pt => g pt (t_ser r pt)) eq_refl eq_refl (wf2_full _ _ _)
     (filter (t_memb r) (grid (t_x r) (t_y r)))) as (m & E & W & X & Y & P & Q).
  - apply NoDup_filter, grid_nodup.
  - intros pt Hin. apply filter_In in Hin. destruct Hin as [Hin Hm]. apply in_grid_iff in Hin. split; auto.
    destruct (Hf pt Hin Hm) as (fn & E1 & E2). rewrite E1; cbn; auto.
  - exists m. rewrite foldM_ext with (g := fun m pt => v <- (fn <- f_at f pt ;; fn (t_ser r pt)) ;; set2 m (fst pt) (snd pt) v).
    2:{ intros s pt _. unfold apply_scalar_step. rewrite bind_assoc. reflexivity. }
    rewrite E. cbn [bind]. repeat split; auto. intros pt Hg.
    destruct (t_memb r pt) eqn:Em.
    + apply P. apply filter_In; split; auto. apply in_grid_iff; auto.
    + rewrite Q; auto; [apply get2_full; auto|]. rewrite filter_In. intros [_ H]; congruence.
Qed.

Lemma t_apply_series_spec {A} (zero : A) (f : fregion (list A) (list A)) (r : stregion A) (g : point -> list A -> list A) len :
  twf r -> t_consistent r -> f_x f = t_x r -> f_y f = t_y r ->
  (forall pt, in_grid (t_x r) (t_y r) pt -> t_memb r pt = true ->
     exists fn, f_at f pt = Ok fn /\ fn (t_ser r pt) = Ok (g pt (t_ser r pt)) /\ length (g pt (t_ser r pt)) = len) ->
  exists m, t_apply_series zero f r len = Ok (t_new_st r m) /\ wf3 m /\ a3t m = len /\ a3x m = t_x r /\ a3y m = t_y r /\
    forall pt, in_grid (t_x r) (t_y r) pt ->
      series3 m (fst pt) (snd pt) = Ok (if t_memb r pt then g pt (t_ser r pt) else repeat zero len).
Proof.
  intros Hw Hc Ex Ey Hf. unfold t_apply_series. rewrite Ex, Ey, !Nat.eqb_refl. cbn [py_assert bind].
  unfold t_items. rewrite t_for_spec by auto. cbn [snd bind skipn]. rewrite foldM_map.
  destruct (write_series_loop len (t_x r) (t_y r) (full3 len (t_x r) (t_y r) zero)
     (fun pt => fn <- f_at f pt ;; fn (t_ser r pt)) (fun pt => g pt (t_ser r pt)) (fun pt => pt) eq_refl eq_refl eq_refl (wf3_full _ _ _ _)
     (filter (t_memb r) (grid (t_x r) (t_y r)))) as (m & E & W & T & X & Y & P & Q).
  - rewrite map_id. apply NoDup_filter, grid_nodup.
  - intros pt Hin. apply filter_In in Hin. destruct Hin as [Hin Hm]. apply in_grid_iff in Hin. split; auto.
    destruct (Hf pt Hin Hm) as (fn & E1 & E2 & E3). rewrite E1; cbn; auto.
  - exists m. rewrite foldM_ext with (g := fun m pt => v <- (fn <- f_at f pt ;; fn (t_ser r pt)) ;; setseries3 m (fst pt) (snd pt) v).
    2:{ intros s pt _. unfold apply_series_step. rewrite bind_assoc. reflexivity. }
    rewrite E. cbn [bind]. repeat split; auto. intros pt Hg.
    destruct (t_memb r pt) eqn:Em.
    + apply P. apply filter_In; split; auto. apply in_grid_iff; auto.
    + rewrite Q; auto; [apply series3_full; auto|]. rewrite map_id, filter_In. intros [_ H]; congruence.
Qed.

Lemma s_apply_series_spec {A B} (zero : B) (f : fregion A (list B)) (r : sregion A) (g : point -> A -> list B) len (dflt : A) :
  swf r -> s_consistent r -> f_x f = s_x r -> f_y f = s_y r ->
  (forall pt, in_grid (s_x r) (s_y r) pt -> s_memb r pt = true ->
     exists fn, f_at f pt = Ok fn /\ fn (s_val r dflt pt) = Ok (g pt (s_val r dflt pt)) /\
                length (g pt (s_val r dflt pt)) = len) ->
  exists m, s_apply_series zero f r len = Ok (s_new_st r m) /\ wf3 m /\ a3t m = len /\ a3x m = s_x r /\ a3y m = s_y r /\
    forall pt, in_grid (s_x r) (s_y r) pt ->
      series3 m (fst pt) (snd pt) = Ok (if s_memb r pt then g pt (s_val r dflt pt) else repeat zero len).
Proof.
  intros Hw Hc Ex Ey Hf. unfold s_apply_series. rewrite Ex, Ey, !Nat.eqb_refl. cbn [py_assert bind].
  unfold s_items. rewrite (s_for_spec dflt) by auto. cbn [snd bind skipn]. rewrite foldM_map.
  destruct (write_series_loop len (s_x r) (s_y r) (full3 len (s_x r) (s_y r) zero)
     (fun pt => fn <- f_at f pt ;; fn (s_val r dflt pt)) (fun pt => g pt (s_val r dflt pt)) (fun pt => pt) eq_refl eq_refl eq_refl (wf3_full _ _ _ _)
     (filter (s_memb r) (grid (s_x r) (s_y r)))) as (m & E & W & T & X & Y & P & Q).
  - rewrite map_id. apply NoDup_filter, grid_nodup.
  - intros pt Hin. apply filter_In in Hin. destruct Hin as [Hin Hm]. apply in_grid_iff in Hin. split; auto.
    destruct (Hf pt Hin Hm) as (fn & E1 & E2 & E3). rewrite E1; cbn; auto.
  - exists m. rewrite foldM_ext with (g := fun m pt => v <- (fn <- f_at f pt ;; fn (s_val r dflt pt)) ;; setseries3 m (fst pt) (snd pt) v).
    2:{ intros s pt _. unfold apply_series_step. rewrite bind_assoc. reflexivity. }
    rewrite E. cbn [bind]. repeat split; auto. intros pt Hg.
    destruct (s_memb r pt) eqn:Em.
    + apply P. apply filter_In; split; auto. apply in_grid_iff; auto.
    + rewrite Q; auto; [apply series3_full; auto|]. rewrite map_id, filter_In. intros [_ H]; congruence.
Qed.

(* ---------- default cluster_len ---------- *)
Lemma default_cluster_len_zero x y mem c n :
  default_cluster_len x y mem c = Ok n -> n = 0%Z.
Proof.
  unfold default_cluster_len. rewrite base_for_0. cbn [bind]. intros H.
  eapply (foldM_inv (fun s => s = 0%Z)); [| |exact H]; auto.
  intros s pt s' _ -> E. destruct (mem pt c) as [b|]; cbn in E; [|discriminate]. destruct b; congruence.
Qed.

Lemma default_cluster_len_crisp p x y c :
  valid_partition p x y -> default_cluster_len x y (is_member p) c = Ok 0%Z.
Proof.
  intros Hv. unfold default_cluster_len. rewrite base_for_0. cbn [bind].
  assert (G : forall l, (forall pt, In pt l -> in_grid x y pt) ->
    foldM (fun members pt => b <- is_member p pt c ;; Ok (if b then members + 0 else members)%Z) l 0%Z = Ok 0%Z).
  { induction l as [|a l IH]; intros Hl; cbn [foldM]; auto.
    assert (Ha : in_grid x y a) by (apply Hl; left; auto).
    destruct (label_of_spec p x y a Hv Ha) as [Hla _].
    rewrite (is_member_label p x y a c _ Hv Ha Hla). cbn [bind].
    destruct (label_of p a =? c)%Z; cbn [Z.add]; apply IH; intros; apply Hl; right; auto. }
  apply G. intros pt Hin; apply in_grid_iff; auto.
Qed.

(* ---------- statements used by Props/Regions.v ---------- *)
Lemma grid_row_major x y :
  NoDup (grid x y) /\ length (grid x y) = x * y /\
  (forall p, In p (grid x y) <-> in_grid x y p) /\
  (forall i j, i < x -> j < y -> nth_error (grid x y) (i * y + j) = Some (Z.of_nat i, Z.of_nat j)).
Proof.
  split; [apply grid_nodup|]. split; [apply grid_length|]. split; [apply in_grid_iff|].
  intros i j Hi Hj. rewrite nth_error_grid by (apply flat_lt; auto). unfold decode.
  rewrite flat_div, flat_mod by auto. reflexivity.
Qed.

Lemma spatial_loop {A} (d : arr2 A) : wf2 d ->
  exists items, s_for (SPlain d) 0 = (0, Ok items) /\ map fst items = grid (a2x d) (a2y d) /\
    forall pt v, In (pt, v) items -> value_at (SPlain d) pt = Ok v.
Proof.
  intros Hd. destruct (a2d d) as [|dflt rest] eqn:Ed.
  - assert (Hz : a2x d * a2y d = 0) by (rewrite <- Hd, Ed; reflexivity).
    exists []. split; [|split].
    + unfold s_for, s_x, s_y. cbn [s_data]. rewrite Hz. cbn [run_for s_next]. unfold s_x, s_y; cbn [s_data].
      rewrite base_next_end by lia. reflexivity.
    + symmetry. apply length_zero_iff_nil. rewrite grid_length; auto.
    + intros pt v [].
  - rewrite (s_for_spec dflt) by (auto using s_plain_consistent). eexists. split; [reflexivity|].
    cbn [skipn]. split.
    + rewrite map_map, map_id. unfold s_x, s_y; cbn [s_data].
      apply filter_all; reflexivity.
    + intros pt v Hin. apply in_map_iff in Hin. destruct Hin as (pt' & E & Hin). inversion E; subst.
      apply filter_In in Hin. destruct Hin as [Hin _]. apply in_grid_iff in Hin.
      apply (get2_s_val (SPlain d)); auto.
Qed.

Lemma spatio_temporal_loop {A} (d : arr3 A) : wf3 d ->
  exists items, t_for (TPlain d) 0 = (0, Ok items) /\ map fst items = grid (a3x d) (a3y d) /\
    forall pt s, In (pt, s) items -> series_at (TPlain d) pt = Ok s /\ length s = a3t d.
Proof.
  intros Hd. rewrite t_for_spec by (auto using t_plain_consistent). eexists. split; [reflexivity|].
  cbn [skipn]. split.
  - rewrite map_map, map_id. unfold t_x, t_y; cbn [t_data].
    apply filter_all; reflexivity.
  - intros pt v Hin. apply in_map_iff in Hin. destruct Hin as (pt' & E & Hin). inversion E; subst.
    apply filter_In in Hin. destruct Hin as [Hin _]. apply in_grid_iff in Hin.
    pose proof (series3_t_ser (TPlain d) pt Hd Hin) as G. split; auto.
    destruct Hin as [H1 H2]. destruct (series3_ok d (fst pt) (snd pt)) as (s & E' & L & _); auto.
    cbn [t_data] in G. congruence.
Qed.

Lemma break_incomplete x y m : 0 < m <= x * y ->
  snd (base_for x y (fst (base_for_break x y 0 m))) <> Ok (grid x y).
Proof.
  intros H E. rewrite base_for_break_spec in E by lia. cbn [fst Nat.add] in E.
  rewrite base_for_spec in E. cbn [snd] in E. inversion E as [E'].
  apply (f_equal (@length _)) in E'. rewrite skipn_length, !grid_length in E'. set (n := x * y) in *. clearbody n. lia.
Qed.

Lemma index_to_absolute_point_spec g pt :
  (x1 g <= fst pt < x2 g)%Z -> (y1 g <= snd pt < y2 g)%Z ->
  index_to_absolute_point g ((fst pt - x1 g) * (y2 g - y1 g) + (snd pt - y1 g)) = Ok pt.
Proof.
  intros H1 H2. unfold index_to_absolute_point, absolute_position_of_point. cbn [fst snd].
  replace (y2 g - y1 g =? 0)%Z with false by lia.
  rewrite Z.quot_div_nonneg by nia. rewrite Z.div_add_l by lia. rewrite Z.div_small by lia.
  rewrite (Z.add_comm (_ * _)), Z.mod_add by lia. rewrite Z.mod_small by lia.
  destruct pt; cbn [fst snd]. f_equal; f_equal; lia.
Qed.

Lemma membership_agrees p x y pts :
  valid_partition p x y -> Forall (in_grid x y) pts ->
  exists ls, membership_of_points p pts = Ok ls /\
    Forall2 (fun pt l => forall c, is_member p pt c = Ok (l =? c)%Z) pts ls.
Proof.
  intros Hv Hp. destruct (membership_of_points_spec p x y pts Hv Hp) as (ls & E & F).
  exists ls. split; auto. clear E Hp. induction F; constructor; auto.
  intros c. unfold is_member. rewrite H. reflexivity.
Qed.

Lemma cluster_lengths_sum p x y : valid_partition p x y ->
  fold_right plus 0 (map (cluster_len p) (zrange 0 (pk p))) = x * y.
Proof.
  intros Hv. rewrite <- (grid_length x y).
  assert (Hb : forall pt, In pt (grid x y) -> (0 <= label_of p pt < Z.of_nat (Z.to_nat (pk p)))%Z).
  { intros pt Hin. apply in_grid_iff in Hin. destruct (label_of_spec p x y pt Hv Hin) as [_ H]. lia. }
  pose proof (filter_partition_perm (label_of p) (grid x y) (Z.to_nat (pk p)) Hb) as P.
  apply Permutation_length in P. rewrite <- P.
  unfold zrange. rewrite map_map, Z.sub_0_r.
  generalize (seq 0 (Z.to_nat (pk p))). intros l. induction l as [|c l IH]; cbn [map fold_right concat]; auto.
  rewrite app_length, <- IH. rewrite Z.add_0_l. f_equal. apply cluster_len_spec; auto.
Qed.

Lemma cluster_value_at {A} (p : crisp) (r : sregion A) c pt l : label_at p pt l ->
  (l = c -> value_at (SCluster r p c) pt = value_at r pt) /\
  (l <> c -> value_at (SCluster r p c) pt = Raise ValueError).
Proof.
  intros H. cbn [value_at]. unfold is_member. rewrite H. cbn [bind]. split; intros E.
  - subst. rewrite Z.eqb_refl. reflexivity.
  - replace (l =? c)%Z with false by lia. reflexivity.
Qed.

Lemma cluster_series_at {A} (p : crisp) (r : stregion A) c pt l : label_at p pt l ->
  (l = c -> series_at (TCluster r p c) pt = series_at r pt) /\
  (l <> c -> series_at (TCluster r p c) pt = Raise ValueError).
Proof.
  intros H. cbn [series_at]. unfold is_member. rewrite H. cbn [bind]. split; intros E.
  - subst. rewrite Z.eqb_refl. reflexivity.
  - replace (l =? c)%Z with false by lia. reflexivity.
Qed.

Lemma cluster_t_items {A} (p : crisp) (d : arr3 A) x y c :
  valid_partition p x y -> wf3 d -> a3x d = x -> a3y d = y ->
  exists items, t_items (TCluster (TPlain d) p c) = Ok items /\
    map fst items = filter (fun pt => (label_of p pt =? c)%Z) (grid x y) /\
    (forall pt v, In (pt, v) items -> series3 d (fst pt) (snd pt) = Ok v).
Proof.
  intros Hv Hd Ex Ey. pose proof Hv as (Hx & Hy & Hw & Hl & _).
  assert (W : twf (TCluster (TPlain d) p c)) by (cbn; unfold t_x, t_y; cbn; repeat split; auto; congruence).
  unfold t_items. rewrite t_for_spec by (auto using t_cluster_consistent). cbn [snd skipn].
  eexists; split; [reflexivity|].
  unfold t_x, t_y; cbn [t_data]. rewrite Ex, Ey. split.
  - rewrite map_map, map_id. apply filter_ext_in. intros pt Hin. apply in_grid_iff in Hin.
    cbn [t_memb]. apply has_lab_label_of with x y; auto.
  - intros pt v Hin. apply in_map_iff in Hin. destruct Hin as (pt' & E & Hin).
    inversion E; subst; clear E. apply filter_In in Hin. destruct Hin as [Hin _]. apply in_grid_iff in Hin.
    exact (series3_t_ser (TCluster (TPlain d) p c) pt W Hin).
Qed.

Lemma spt_clusters_split {A} (p : crisp) (d : arr3 A) x y :
  valid_partition p x y -> wf3 d -> a3x d = x -> a3y d = y ->
  exists clusters itemss,
    create_all_spt_clusters p (TPlain d) = Ok clusters /\
    mapM t_items clusters = Ok itemss /\
    Permutation (map fst (concat itemss)) (grid x y) /\
    length itemss = Z.to_nat (pk p) /\
    (forall i items, nth_error itemss i = Some items ->
       cluster_len p (Z.of_nat i) = length items /\
       (forall pt, In pt (map fst items) <-> in_grid x y pt /\ is_member p pt (Z.of_nat i) = Ok true)).
Proof.
  intros Hv Hd Ex Ey.
  exists (map (fun i => TCluster (TPlain d) p i) (zrange 0 (pk p))).
  set (f := fun c => match t_items (TCluster (TPlain d) p c) with Ok it => it | Raise _ => [] end).
  assert (Hf : forall c, t_items (TCluster (TPlain d) p c) = Ok (f c) /\
                map fst (f c) = filter (fun pt => (label_of p pt =? c)%Z) (grid x y)).
  { intros c. destruct (cluster_t_items p d x y c Hv Hd Ex Ey) as (it & E1 & E2 & _). unfold f. rewrite E1. auto. }
  exists (map f (zrange 0 (pk p))).
  split; [eapply create_all_spt_clusters_ok; eauto|].
  split; [rewrite mapM_map; apply mapM_ok; intros c _; apply Hf|].
  split; [|split].
  - rewrite concat_map, map_map.
    unfold zrange. rewrite map_map. rewrite Z.sub_0_r.
    erewrite map_ext. 2:{ intros c. rewrite Z.add_0_l. apply (proj2 (Hf (Z.of_nat c))). }
    apply filter_partition_perm. intros pt Hin. apply in_grid_iff in Hin.
    destruct (label_of_spec p x y pt Hv Hin) as [_ Hb]. lia.
  - rewrite map_length, zrange_length. f_equal; lia.
  - intros i items Hi. rewrite nth_error_map in Hi.
    destruct (nth_error (zrange 0 (pk p)) i) as [z|] eqn:Ez; cbn in Hi; [|discriminate].
    assert (i < length (zrange 0 (pk p))) by (apply nth_error_Some; congruence).
    rewrite zrange_length in H. rewrite zrange_nth in Ez by lia. rewrite Z.add_0_l in Ez.
    inversion Ez; subst z. inversion Hi; subst items. clear Hi Ez.
    destruct (Hf (Z.of_nat i)) as [E1 E2]. split.
    + rewrite (cluster_len_spec p x y) by auto. rewrite <- E2, map_length; auto.
    + intros pt. rewrite E2, filter_In, in_grid_iff. split.
      * intros [Hg Hl]. split; auto. destruct (label_of_spec p x y pt Hv Hg) as [Hla _].
        rewrite (is_member_label p x y pt _ _ Hv Hg Hla). congruence.
      * intros [Hg Hm]. split; auto. destruct (label_of_spec p x y pt Hv Hg) as [Hla _].
        rewrite (is_member_label p x y pt _ _ Hv Hg Hla) in Hm. congruence.
Qed.

Lemma cluster_indices_items {A} (p : crisp) (d : arr3 A) x y c :
  valid_partition p x y -> wf3 d -> a3x d = x -> a3y d = y ->
  exists ns items, all_point_indices (TCluster (TPlain d) p c) = Ok ns /\
    t_items (TCluster (TPlain d) p c) = Ok items /\
    StronglySorted lt ns /\
    map Z.of_nat ns = map (fun it => fst (fst it) * Z.of_nat y + snd (fst it))%Z items.
Proof.
  intros Hv Hd Ex Ey.
  destruct (all_point_indices_cluster p (TPlain d) x y c Hv) as (ns & E1 & S1 & N1); auto.
  destruct (cluster_t_items p d x y c Hv Hd Ex Ey) as (items & E2 & M2 & _).
  exists ns, items. repeat split; auto.
  rewrite N1, map_map. rewrite <- (map_map fst (fun pt => fst pt * Z.of_nat y + snd pt)%Z), M2.
  apply map_ext_in. intros pt Hin. apply filter_In in Hin. destruct Hin as [Hin _].
  apply in_grid_iff in Hin. destruct Hin as [H1 H2]. unfold encode_point. rewrite Z2Nat.id by nia. reflexivity.
Qed.

Lemma merge_clusters_values {A} (zero : A) (p : crisp) x y (clusters : list (sregion A)) :
  valid_partition p x y ->
  Forall (fun c => s_x c = x /\ s_y c = y) clusters ->
  mapM cluster_index_of clusters = Ok (zrange 0 (pk p)) ->
  (forall pt l c, in_grid x y pt -> label_at p pt l -> nth_error clusters (Z.to_nat l) = Some c ->
     exists v, value_at c pt = Ok v) ->
  exists m, merge_clusters_2d zero p clusters = Ok (SPlain m) /\ wf2 m /\ a2x m = x /\ a2y m = y /\
    forall pt l c, in_grid x y pt -> label_at p pt l -> nth_error clusters (Z.to_nat l) = Some c ->
      get2 m (fst pt) (snd pt) = value_at c pt.
Proof.
  intros Hv Hs Hi Hg.
  assert (Hlen : length clusters = Z.to_nat (pk p)).
  { apply mapM_length in Hi. rewrite zrange_length in Hi. lia. }
  set (g := fun pt => match nth_error clusters (Z.to_nat (label_of p pt)) with
                      | Some c => match value_at c pt with Ok v => v | Raise _ => zero end
                      | None => zero end).
  destruct (merge_clusters_spec zero p x y clusters g Hv Hs Hi) as (m & E & W & X & Y & P).
  - intros pt Hpt. destruct (label_of_spec p x y pt Hv Hpt) as [Hla Hb].
    destruct (nth_error_lt_some clusters (Z.to_nat (label_of p pt))) as [c Hc]; [lia|].
    exists c. split; auto. destruct (Hg pt _ c Hpt Hla Hc) as [v Ev]. unfold g. rewrite Hc, Ev. reflexivity.
  - exists m. split; [auto|]. split; [auto|]. split; [auto|]. split; [auto|].
    intros pt l c Hpt Hla Hc. rewrite P by auto.
    assert (label_of p pt = l).
    { destruct (label_of_spec p x y pt Hv Hpt) as [Hla' _]. unfold label_at in *. congruence. }
    subst l. destruct (Hg pt _ c Hpt Hla Hc) as [v Ev]. unfold g. rewrite Hc, Ev. reflexivity.
Qed.

Lemma intersecting_medoids {M} p x y g (medoids : list M) :
  valid_partition p x y -> (0 <= x1 g /\ x2 g <= Z.of_nat x /\ 0 <= y1 g /\ y2 g <= Z.of_nat y)%Z ->
  length medoids = Z.to_nat (pk p) ->
  exists ms, find_medoids_of_clusters_intersecting_with p (Some medoids) g = Ok ms /\
    (forall m, In m ms <-> exists pt c, (x1 g <= fst pt < x2 g)%Z /\ (y1 g <= snd pt < y2 g)%Z /\
                              label_at p pt c /\ nth_error medoids (Z.to_nat c) = Some m).
Proof.
  intros Hv Hr Hlen. destruct (intersecting_spec p x y g Hv Hr) as (is & E & ND & Q).
  unfold find_medoids_of_clusters_intersecting_with. rewrite E. cbn [bind].
  assert (Hb : forall c, In c is -> exists m, getitem medoids c = Ok m /\ nth_error medoids (Z.to_nat c) = Some m).
  { intros c Hc. apply getitem_Z_in. apply Q in Hc. destruct Hc as (pt & H1 & H2 & H3).
    destruct Hv as (_ & _ & _ & Hl & _). specialize (Hl pt c ltac:(unfold in_grid; lia) H3). lia. }
  assert (Hms : exists ms, mapM (getitem medoids) is = Ok ms).
  { clear - Hb. induction is as [|c is IH]; cbn [mapM]; [eexists; reflexivity|].
    destruct (Hb c) as (m & -> & _); [left; auto|]. cbn [bind].
    destruct IH as [ms ->]; [intros; apply Hb; right; auto|]. cbn [bind]. eauto. }
  destruct Hms as [ms Hms]. exists ms. split; auto. intros m. split.
  - intros Hin. apply In_nth_error in Hin. destruct Hin as [n Hn].
    assert (n < length is) by (rewrite <- (mapM_length _ _ _ Hms); apply nth_error_Some; congruence).
    destruct (nth_error_lt_some is n) as [c Hc]; auto.
    destruct (mapM_nth _ _ _ Hms n c Hc) as (m' & G1 & G2).
    assert (Hinc : In c is) by (eapply nth_error_In; eauto).
    destruct (Hb c Hinc) as (m'' & G3 & G4). apply Q in Hinc. destruct Hinc as (pt & P1 & P2 & P3).
    exists pt, c. repeat split; try lia; auto. congruence.
  - intros (pt & c & P1 & P2 & P3 & P4). assert (Hinc : In c is) by (apply Q; eauto).
    apply In_nth_error in Hinc. destruct Hinc as [n Hn].
    destruct (mapM_nth _ _ _ Hms n c Hn) as (m' & G1 & G2).
    destruct (Hb c) as (m'' & G3 & G4); [eapply nth_error_In; eauto|].
    apply nth_error_In with n. congruence.
Qed.

Lemma apply_scalar_plain {A B} (zero : B) (f : fregion A B) (d : arr2 A) (g : point -> A -> B) :
  wf2 d -> f_x f = a2x d -> f_y f = a2y d ->
  (forall pt v, in_grid (a2x d) (a2y d) pt -> exists fn, f_at f pt = Ok fn /\ fn v = Ok (g pt v)) ->
  exists m, s_apply_scalar zero f (SPlain d) = Ok (SPlain m) /\ wf2 m /\ a2x m = a2x d /\ a2y m = a2y d /\
    forall pt v, in_grid (a2x d) (a2y d) pt -> get2 d (fst pt) (snd pt) = Ok v ->
      get2 m (fst pt) (snd pt) = Ok (g pt v).
Proof.
  intros Hd Ex Ey Hf. destruct (a2d d) as [|dflt rest] eqn:Ed.
  - assert (Hz : a2x d * a2y d = 0) by (rewrite <- Hd, Ed; reflexivity).
    destruct (spatial_loop d Hd) as (items & E & Hfst & _).
    assert (items = []).
    { apply length_zero_iff_nil. rewrite <- (map_length fst), Hfst, grid_length; auto. }
    subst items. exists (full2 (a2x d) (a2y d) zero). split; [|split; [apply wf2_full|split; [auto|split; [auto|]]]].
    + unfold s_apply_scalar, s_items, s_x, s_y; cbn [s_data]. rewrite Ex, Ey, !Nat.eqb_refl. cbn [py_assert bind].
      rewrite E. reflexivity.
    + intros pt v [H1 H2]. exfalso. assert (a2x d <> 0) by lia. assert (a2y d <> 0) by lia. nia.
  - destruct (s_apply_scalar_spec zero f (SPlain d) g dflt) as (m & E & W & X & Y & P);
      auto using s_plain_consistent.
    exists m. repeat split; auto. intros pt v Hg Hv. specialize (P pt Hg). cbn [s_memb] in P. rewrite P.
    pose proof (get2_s_val (SPlain d) dflt pt Hd Hg) as G. cbn [s_data] in G. congruence.
Qed.

Lemma apply_scalar_cluster {A B} (zero : B) (f : fregion A B) (p : crisp) x y (d : arr2 A) c (g : point -> A -> B) :
  valid_partition p x y -> wf2 d -> a2x d = x -> a2y d = y -> f_x f = x -> f_y f = y ->
  (forall pt v, in_grid x y pt -> label_at p pt c -> exists fn, f_at f pt = Ok fn /\ fn v = Ok (g pt v)) ->
  exists m, s_apply_scalar zero f (SCluster (SPlain d) p c) = Ok (SCluster (SPlain m) p c) /\
    wf2 m /\ a2x m = x /\ a2y m = y /\
    forall pt l v, in_grid x y pt -> label_at p pt l -> get2 d (fst pt) (snd pt) = Ok v ->
      get2 m (fst pt) (snd pt) = Ok (if (l =? c)%Z then g pt v else zero).
Proof.
  intros Hv Hd Dx Dy Ex Ey Hf. pose proof Hv as (Hx & Hy & Hw & Hl & Hex).
  destruct (a2d d) as [|dflt rest] eqn:Ed.
  - exfalso. destruct Hex as (pt & [H1 H2] & _). unfold wf2 in Hd. rewrite Ed, Dx, Dy in Hd. cbn in Hd.
    assert (x <> 0) by (intros ->; lia). assert (y <> 0) by (intros ->; lia). nia.
  - assert (W : swf (SCluster (SPlain d) p c)) by (cbn; unfold s_x, s_y; cbn; repeat split; auto; congruence).
    destruct (s_apply_scalar_spec zero f (SCluster (SPlain d) p c) g dflt) as (m & E & Wm & X & Y & P);
      auto using s_cluster_consistent.
    + unfold s_x; cbn; congruence.
    + unfold s_y; cbn; congruence.
    + unfold s_x, s_y; cbn [s_data s_memb]. rewrite Dx, Dy. intros pt v Hg Hm.
      apply Hf; auto. rewrite (has_lab_label_of p x y) in Hm by auto.
      destruct (label_of_spec p x y pt Hv Hg) as [Hla _]. replace c with (label_of p pt) by lia. auto.
    + unfold s_x, s_y in *; cbn [s_data s_memb s_new_spatial] in *. rewrite Dx, Dy in *.
      exists m. repeat split; auto. intros pt l v Hg Hla Hval. rewrite P by auto.
      rewrite (has_lab_label_of p x y) by auto.
      assert (label_of p pt = l).
      { destruct (label_of_spec p x y pt Hv Hg) as [Hla' _]. unfold label_at in *. congruence. }
      subst l. assert (Hg' : in_grid (a2x d) (a2y d) pt) by (rewrite Dx, Dy; auto).
      pose proof (get2_s_val (SPlain d) dflt pt Hd Hg') as G. cbn [s_data] in G.
      unfold s_val in *; cbn [s_data] in *. rewrite G in Hval. inversion Hval; subst. reflexivity.
Qed.

Lemma apply_series_scalar_plain {A B} (zero : B) (f : fregion (list A) B) (d : arr3 A) (g : point -> list A -> B) :
  wf3 d -> f_x f = a3x d -> f_y f = a3y d ->
  (forall pt s, in_grid (a3x d) (a3y d) pt -> exists fn, f_at f pt = Ok fn /\ fn s = Ok (g pt s)) ->
  exists m, t_apply_scalar zero f (TPlain d) = Ok (SPlain m) /\ wf2 m /\ a2x m = a3x d /\ a2y m = a3y d /\
    forall pt s, in_grid (a3x d) (a3y d) pt -> series3 d (fst pt) (snd pt) = Ok s ->
      get2 m (fst pt) (snd pt) = Ok (g pt s).
Proof.
  intros Hd Ex Ey Hf.
  destruct (t_apply_scalar_spec zero f (TPlain d) g) as (m & E & W & X & Y & P);
    auto using t_plain_consistent.
  exists m. repeat split; auto. intros pt v Hg Hv. specialize (P pt Hg). cbn [t_memb] in P. rewrite P.
  pose proof (series3_t_ser (TPlain d) pt Hd Hg) as G. cbn [t_data] in G. congruence.
Qed.

Lemma apply_series_cluster {A} (zero : A) (f : fregion (list A) (list A)) (p : crisp) x y (d : arr3 A) c len
    (g : point -> list A -> list A) :
  valid_partition p x y -> wf3 d -> a3x d = x -> a3y d = y -> f_x f = x -> f_y f = y ->
  (forall pt s, in_grid x y pt -> label_at p pt c ->
     exists fn, f_at f pt = Ok fn /\ fn s = Ok (g pt s) /\ length (g pt s) = len) ->
  exists m, t_apply_series zero f (TCluster (TPlain d) p c) len = Ok (TCluster (TPlain m) p c) /\
    wf3 m /\ a3t m = len /\ a3x m = x /\ a3y m = y /\
    forall pt l s, in_grid x y pt -> label_at p pt l -> series3 d (fst pt) (snd pt) = Ok s ->
      series3 m (fst pt) (snd pt) = Ok (if (l =? c)%Z then g pt s else repeat zero len).
Proof.
  intros Hv Hd Dx Dy Ex Ey Hf. pose proof Hv as (Hx & Hy & Hw & Hl & Hex).
  assert (W : twf (TCluster (TPlain d) p c)) by (cbn; unfold t_x, t_y; cbn; repeat split; auto; congruence).
  destruct (t_apply_series_spec zero f (TCluster (TPlain d) p c) g len) as (m & E & Wm & T & X & Y & P);
    auto using t_cluster_consistent.
  - unfold t_x; cbn; congruence.
  - unfold t_y; cbn; congruence.
  - unfold t_x, t_y; cbn [t_data t_memb]. rewrite Dx, Dy. intros pt Hg Hm.
    apply Hf; auto. rewrite (has_lab_label_of p x y) in Hm by auto.
    destruct (label_of_spec p x y pt Hv Hg) as [Hla _]. replace c with (label_of p pt) by lia. auto.
  - unfold t_x, t_y in *; cbn [t_data t_memb t_new_st] in *. rewrite Dx, Dy in *.
    exists m. repeat split; auto. intros pt l v Hg Hla Hval. rewrite P by auto.
    rewrite (has_lab_label_of p x y) by auto.
    assert (label_of p pt = l).
    { destruct (label_of_spec p x y pt Hv Hg) as [Hla' _]. unfold label_at in *. congruence. }
    subst l. assert (Hg' : in_grid (a3x d) (a3y d) pt) by (rewrite Dx, Dy; auto).
    pose proof (series3_t_ser (TPlain d) pt Hd Hg') as G. cbn [t_data] in G.
    unfold t_ser in *; cbn [t_data] in *. rewrite G in Hval. inversion Hval; subst. reflexivity.
Qed.

Lemma apply_scalar_mismatch {A B} (zero : B) (f : fregion A B) (r : sregion A) :
  f_x f <> s_x r \/ f_y f <> s_y r -> s_apply_scalar zero f r = Raise AssertionError.
Proof.
  intros H. unfold s_apply_scalar. destruct (Nat.eqb_spec (s_x r) (f_x f)); cbn [py_assert bind]; auto.
  destruct (Nat.eqb_spec (s_y r) (f_y f)); cbn [py_assert bind]; auto. lia.
Qed.
