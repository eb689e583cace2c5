(** Facts about subsets, repeated series and listings of regions (Model/Region.v). *)
From Coq Require Import ZifyBool ZifyNat.
From Verif Require Import Base.Py Base.PyFacts Base.Arr Base.ArrFacts
     Spec.Grid Spec.Partition Spec.Rect Model.Region Proofs.RegionFacts Proofs.PartitionFacts.

Lemma region_subset_plain {A} (d : arr3 A) g :
  wf3 d -> rect_in g (a3x d) (a3y d) ->
  exists m, t_region_subset (TPlain d) g = Ok (TPlain m) /\ wf3 m /\ a3t m = a3t d /\
    Z.of_nat (a3x m) = (x2 g - x1 g)%Z /\ Z.of_nat (a3y m) = (y2 g - y1 g)%Z /\
    forall i j, (0 <= i < x2 g - x1 g)%Z -> (0 <= j < y2 g - y1 g)%Z ->
      series_at (TPlain m) (i, j) = series_at (TPlain d) (x1 g + i, y1 g + j)%Z.
Proof.
  intros Hw (H1 & H2 & H3 & H4). cbn [t_region_subset].
  destruct (slice3_spec d None (Some (x1 g, x2 g)) (Some (y1 g, y2 g))) as (W & T & X & Y & P);
    cbn; auto; try lia.
  cbn [srng fst snd] in *. eexists; split; [reflexivity|].
  split; auto. split; [lia|]. split; [lia|]. split; [lia|].
  intros i j Hi Hj. cbn [series_at fst snd].
  destruct (series3_ok d (x1 g + i) (y1 g + j)) as (s & E & Len & _); auto; try lia.
  rewrite slice3_series with (s := s); cbn [srng fst snd sok]; auto; try lia.
  - rewrite E, Nat.sub_0_r. cbn [skipn]. rewrite firstn_all2 by lia. reflexivity.
  - rewrite <- E. f_equal; lia.
Qed.

Lemma interval_subset_plain {A} (d : arr3 A) ti :
  wf3 d -> interval_in ti (a3t d) ->
  exists m, interval_subset (TPlain d) ti = TPlain m /\ wf3 m /\ Z.of_nat (a3t m) = (t2 ti - t1 ti)%Z /\
    a3x m = a3x d /\ a3y m = a3y d /\
    forall pt s, in_grid (a3x d) (a3y d) pt -> series_at (TPlain d) pt = Ok s ->
      exists s', series_at (TPlain m) pt = Ok s' /\
        forall n, (Z.of_nat n < t2 ti - t1 ti)%Z -> nth_error s' n = nth_error s (Z.to_nat (t1 ti) + n).
Proof.
  intros Hw (H1 & H2). cbn [interval_subset].
  destruct (slice3_spec d (Some (t1 ti, t2 ti)) None None) as (W & T & X & Y & P);
    cbn; auto; try lia.
  cbn [srng fst snd] in *. eexists; split; [reflexivity|].
  split; auto. split; [lia|]. split; [lia|]. split; [lia|].
  intros [i j] s [Hi Hj] E. cbn [series_at fst snd] in *.
  rewrite slice3_series with (s := s); cbn [srng fst snd sok]; auto; try lia.
  eexists; split; [reflexivity|]. intros n Hn. rewrite nth_error_firstn, nth_error_skipn.
  match goal with |- context [(?u <? ?v)%nat] => replace (u <? v)%nat with true by lia end. reflexivity.
Qed.

(** [m] is the block of [a] with corner (t0, i0, j0) and shape (t, x, y) *)
Definition is_slice {A} (a m : arr3 A) (t0 i0 j0 t x y : nat) : Prop :=
  wf3 m /\ a3t m = t /\ a3x m = x /\ a3y m = y /\
  forall k i j, k < t -> i < x -> j < y -> at3 m k i j = at3 a (t0 + k) (i0 + i) (j0 + j).

Lemma is_slice_unique {A} (a m n : arr3 A) t0 i0 j0 t x y :
  is_slice a m t0 i0 j0 t x y -> is_slice a n t0 i0 j0 t x y -> m = n.
Proof.
  intros (W & T & X & Y & P) (W' & T' & X' & Y' & P'). apply arr3_ext; auto; try congruence.
  rewrite T, X, Y. intros k i j Hk Hi Hj. rewrite P, P' by auto. reflexivity.
Qed.

Lemma is_slice_trans {A} (a b c : arr3 A) t0 i0 j0 t x y t0' i0' j0' t' x' y' :
  is_slice a b t0 i0 j0 t x y -> is_slice b c t0' i0' j0' t' x' y' ->
  t0' + t' <= t -> i0' + x' <= x -> j0' + y' <= y ->
  is_slice a c (t0 + t0') (i0 + i0') (j0 + j0') t' x' y'.
Proof.
  intros (W & T & X & Y & P) (W' & T' & X' & Y' & P') Ht Hx Hy.
  split; auto. split; auto. split; auto. split; auto. intros k i j Hk Hi Hj.
  rewrite P' by auto. rewrite P by (clear - Hk Hi Hj Ht Hx Hy; lia). f_equal; apply Nat.add_assoc.
Qed.

Lemma slice3_is_slice {A} (a : arr3 A) st sx sy t0 i0 j0 t x y :
  wf3 a -> sok (a3t a) st -> sok (a3x a) sx -> sok (a3y a) sy ->
  srng (a3t a) st = (t0, t0 + t) -> srng (a3x a) sx = (i0, i0 + x) -> srng (a3y a) sy = (j0, j0 + y) ->
  is_slice a (slice3 a st sx sy) t0 i0 j0 t x y.
Proof.
  intros Hw S1 S2 S3 E1 E2 E3. destruct (slice3_spec a st sx sy Hw S1 S2 S3) as (W & T & X & Y & P).
  rewrite E1, E2, E3 in *. cbn [fst snd] in *.
  assert (T' : a3t (slice3 a st sx sy) = t) by (rewrite T; clear; lia).
  assert (X' : a3x (slice3 a st sx sy) = x) by (rewrite X; clear; lia).
  assert (Y' : a3y (slice3 a st sx sy) = y) by (rewrite Y; clear; lia).
  split; auto. split; auto. split; auto. split; auto. intros k i j Hk Hi Hj.
  apply P; congruence.
Qed.

Lemma srng_some n a b : (0 <= a <= b)%Z -> srng n (Some (a, b)) = (Z.to_nat a, Z.to_nat a + Z.to_nat (b - a)).
Proof. intros H. cbn. f_equal. lia. Qed.
Lemma srng_none n : srng n None = (0, 0 + n).
Proof. reflexivity. Qed.

Lemma slice_region {A} (a : arr3 A) g : wf3 a -> rect_in g (a3x a) (a3y a) ->
  is_slice a (slice3 a None (Some (x1 g, x2 g)) (Some (y1 g, y2 g))) 0 (Z.to_nat (x1 g)) (Z.to_nat (y1 g))
           (a3t a) (Z.to_nat (x2 g - x1 g)) (Z.to_nat (y2 g - y1 g)).
Proof.
  intros Hw (H1 & H2 & H3 & H4). apply slice3_is_slice; auto using srng_some, srng_none; cbn; auto.
Qed.
Lemma slice_interval {A} (a : arr3 A) ti : wf3 a -> interval_in ti (a3t a) ->
  is_slice a (slice3 a (Some (t1 ti, t2 ti)) None None) (Z.to_nat (t1 ti)) 0 0 (Z.to_nat (t2 ti - t1 ti)) (a3x a) (a3y a).
Proof.
  intros Hw (H1 & H2). apply slice3_is_slice; auto using srng_some, srng_none; cbn; auto.
Qed.
Lemma slice_both {A} (a : arr3 A) g ti : wf3 a -> rect_in g (a3x a) (a3y a) -> interval_in ti (a3t a) ->
  is_slice a (slice3 a (Some (t1 ti, t2 ti)) (Some (x1 g, x2 g)) (Some (y1 g, y2 g)))
    (Z.to_nat (t1 ti)) (Z.to_nat (x1 g)) (Z.to_nat (y1 g))
    (Z.to_nat (t2 ti - t1 ti)) (Z.to_nat (x2 g - x1 g)) (Z.to_nat (y2 g - y1 g)).
Proof.
  intros Hw (H1 & H2 & H3 & H4) (H5 & H6). apply slice3_is_slice; auto using srng_some; cbn; auto.
Qed.

Lemma subset_both_orders {A} (d : arr3 A) g ti :
  wf3 d -> rect_in g (a3x d) (a3y d) -> interval_in ti (a3t d) ->
  exists rs, t_region_subset (TPlain d) g = Ok rs /\
    interval_subset rs ti = subset (TPlain d) g ti /\
    t_region_subset (interval_subset (TPlain d) ti) g = Ok (subset (TPlain d) g ti).
Proof.
  intros Hw Hg Ht. eexists; split; [reflexivity|].
  unfold subset. cbn [interval_subset t_region_subset t_new_st t_data].
  pose proof (slice_both d g ti Hw Hg Ht) as S0.
  pose proof (slice_region d g Hw Hg) as S1. pose proof (slice_interval d ti Hw Ht) as S2.
  set (a := slice3 d None (Some (x1 g, x2 g)) (Some (y1 g, y2 g))) in *.
  set (b := slice3 d (Some (t1 ti, t2 ti)) None None) in *. clearbody a b.
  pose proof S1 as (Wa & Ta & Xa & Ya & _). pose proof S2 as (Wb & Tb & Xb & Yb & _).
  pose proof (slice_interval a ti Wa ltac:(rewrite Ta; auto)) as S3.
  pose proof (slice_region b g Wb ltac:(rewrite Xb, Yb; auto)) as S4.
  destruct Hg as (H1 & H2 & H3 & H4). destruct Ht as (H5 & H6).
  rewrite Xa, Ya in S3. rewrite Tb in S4.
  pose proof (is_slice_trans _ _ _ _ _ _ _ _ _ _ _ _ _ _ _ S1 S3) as S5.
  pose proof (is_slice_trans _ _ _ _ _ _ _ _ _ _ _ _ _ _ _ S2 S4) as S6.
  rewrite Nat.add_0_l, !Nat.add_0_r in S5. rewrite Nat.add_0_r, !Nat.add_0_l in S6.
  split; f_equal; [|f_equal]; (eapply is_slice_unique; [|exact S0]);
    [apply S5|apply S6]; clear - H1 H2 H3 H4 H5 H6; lia.
Qed.

Lemma region_subset_twice {A} (d : arr3 A) g h :
  wf3 d -> rect_in g (a3x d) (a3y d) ->
  rect_in h (Z.to_nat (x2 g - x1 g)) (Z.to_nat (y2 g - y1 g)) ->
  exists rs, t_region_subset (TPlain d) g = Ok rs /\
    t_region_subset rs h
    = t_region_subset (TPlain d) (Rect (x1 g + x1 h) (x1 g + x2 h) (y1 g + y1 h) (y1 g + y2 h)).
Proof.
  intros Hw Hg Hh. eexists; split; [reflexivity|]. cbn [t_region_subset].
  pose proof (slice_region d g Hw Hg) as S1.
  set (g' := Rect (x1 g + x1 h) (x1 g + x2 h) (y1 g + y1 h) (y1 g + y2 h)).
  assert (Hg' : rect_in g' (a3x d) (a3y d)).
  { destruct Hg as (H1 & H2 & H3 & H4), Hh as (G1 & G2 & G3 & G4). unfold rect_in, g'; cbn [x1 x2 y1 y2]. lia. }
  pose proof (slice_region d g' Hw Hg') as S0.
  set (a := slice3 d None (Some (x1 g, x2 g)) (Some (y1 g, y2 g))) in *. clearbody a.
  pose proof S1 as (Wa & Ta & Xa & Ya & _).
  pose proof (slice_region a h Wa ltac:(rewrite Xa, Ya; auto)) as S3. rewrite Ta in S3.
  destruct Hg as (H1 & H2 & H3 & H4), Hh as (G1 & G2 & G3 & G4).
  pose proof (is_slice_trans _ _ _ _ _ _ _ _ _ _ _ _ _ _ _ S1 S3) as S5.
  unfold g' in *. cbn [x1 x2 y1 y2] in *. do 2 f_equal.
  replace (x1 g + x2 h - (x1 g + x1 h))%Z with (x2 h - x1 h)%Z in S0 by ring.
  replace (y1 g + y2 h - (y1 g + y1 h))%Z with (y2 h - y1 h)%Z in S0 by ring.
  rewrite !Z2Nat.inj_add in S0 by (clear - H1 H3 G1 G3; lia).
  eapply is_slice_unique; [|exact S0]. apply S5; clear - H1 H2 H3 H4 G1 G2 G3 G4; lia.
Qed.

Lemma interval_subset_twice {A} (d : arr3 A) a b :
  wf3 d -> interval_in a (a3t d) -> interval_in b (Z.to_nat (t2 a - t1 a)) ->
  interval_subset (interval_subset (TPlain d) a) b
  = interval_subset (TPlain d) (Interval (t1 a + t1 b) (t1 a + t2 b)).
Proof.
  intros Hw Ha Hb. cbn [interval_subset].
  set (c := Interval (t1 a + t1 b) (t1 a + t2 b)).
  pose proof (slice_interval d a Hw Ha) as S1.
  assert (Hc : interval_in c (a3t d)).
  { destruct Ha as (H1 & H2), Hb as (G1 & G2). unfold interval_in, c; cbn [t1 t2]. lia. }
  pose proof (slice_interval d c Hw Hc) as S0.
  set (m := slice3 d (Some (t1 a, t2 a)) None None) in *. clearbody m.
  pose proof S1 as (Wa & Ta & Xa & Ya & _).
  pose proof (slice_interval m b Wa ltac:(rewrite Ta; auto)) as S3. rewrite Xa, Ya in S3.
  destruct Ha as (H1 & H2), Hb as (G1 & G2).
  pose proof (is_slice_trans _ _ _ _ _ _ _ _ _ _ _ _ _ _ _ S1 S3) as S5.
  unfold c in *. cbn [t1 t2] in *. f_equal.
  replace (t1 a + t2 b - (t1 a + t1 b))%Z with (t2 b - t1 b)%Z in S0 by ring.
  rewrite Z2Nat.inj_add in S0 by (clear - H1 G1; lia).
  eapply is_slice_unique; [|exact S0]. apply S5; clear - H1 H2 G1 G2; lia.
Qed.

(** clusters keep their partition under interval_subset and refuse region_subset *)
Lemma cluster_interval_subset {A} (d : arr3 A) p c ti :
  exists m, interval_subset (TPlain d) ti = TPlain m /\
    interval_subset (TCluster (TPlain d) p c) ti = TCluster (TPlain m) p c.
Proof. cbn. eexists; split; reflexivity. Qed.
Lemma cluster_region_subset {A} (r : stregion A) (s : sregion A) p c g :
  t_region_subset (TCluster r p c) g = Raise NotImplementedError /\
  s_region_subset (SCluster s p c) g = Raise NotImplementedError.
Proof. split; reflexivity. Qed.

Lemma s_region_subset_plain {A} (d : arr2 A) g :
  wf2 d -> rect_in g (a2x d) (a2y d) ->
  exists m, s_region_subset (SPlain d) g = Ok (SPlain m) /\ wf2 m /\
    Z.of_nat (a2x m) = (x2 g - x1 g)%Z /\ Z.of_nat (a2y m) = (y2 g - y1 g)%Z /\
    forall i j, (0 <= i < x2 g - x1 g)%Z -> (0 <= j < y2 g - y1 g)%Z ->
      value_at (SPlain m) (i, j) = value_at (SPlain d) (x1 g + i, y1 g + j)%Z.
Proof.
  intros Hw (H1 & H2 & H3 & H4). cbn [s_region_subset]. eexists; split; [reflexivity|].
  destruct (slice2_shape d (x1 g) (x2 g) (y1 g) (y2 g)) as [X Y]; auto.
  split; [apply wf2_slice2; auto|]. split; [lia|]. split; [lia|]. intros i j Hi Hj. cbn [value_at fst snd].
  destruct (get2_ok (slice2 d (x1 g) (x2 g) (y1 g) (y2 g)) i j) as (v & E & L); try lia.
  { apply wf2_slice2; auto. }
  destruct (get2_ok d (x1 g + i) (y1 g + j)) as (w & E' & L'); try lia; auto.
  rewrite E, E'. rewrite slice2_at in L; auto; try lia.
  replace (Z.to_nat (x1 g) + Z.to_nat i) with (Z.to_nat (x1 g + i)) in L by lia.
  replace (Z.to_nat (y1 g) + Z.to_nat j) with (Z.to_nat (y1 g + j)) in L by lia. congruence.
Qed.

(* ---------- repeated series ---------- *)
Lemma copy_array_spec {A} (s : list A) x y :
  exists m, copy_array_as_matrix_elements s x y = Ok m /\ wf3 m /\ a3t m = length s /\ a3x m = x /\ a3y m = y /\
    forall pt, in_grid x y pt -> series3 m (fst pt) (snd pt) = Ok s.
Proof.
  unfold copy_array_as_matrix_elements, reshape3.
  assert (L : length (flat_map (fun v => repeat v (x * y)) s) = length s * x * y).
  { rewrite flat_map_const_length with (w := x * y); [lia|]. intros; apply repeat_length. }
  rewrite L, Nat.eqb_refl. eexists; split; [reflexivity|].
  set (m := mk3 (length s) x y (flat_map (fun v => repeat v (x * y)) s)).
  assert (W : wf3 m) by exact L.
  split; auto. split; auto. split; auto. split; auto. intros [i j] [Hi Hj]. cbn [fst snd] in *.
  destruct (series3_ok m i j) as (s' & E & Len & P); auto. rewrite E. f_equal.
  apply list_ext_len; [exact Len|]. intros n Hn. rewrite Len in Hn. rewrite P by auto.
  unfold at3. cbn [a3x a3y a3d m]. cbn [a3t m] in Hn.
  destruct (nth_error_lt_some s n Hn) as [v Hv].
  replace ((n * x + Z.to_nat i) * y + Z.to_nat j) with (n * (x * y) + (Z.to_nat i * y + Z.to_nat j)) by lia.
  rewrite nth_error_flat_map_const with (x := v); auto.
  - rewrite nth_error_repeat_eq, Hv.
    pose proof (flat_lt x y (Z.to_nat i) (Z.to_nat j) ltac:(lia) ltac:(lia)).
    match goal with |- context [(?u <? ?v)%nat] => replace (u <? v)%nat with true by lia end. reflexivity.
  - intros; apply repeat_length.
  - apply flat_lt; lia.
Qed.

Lemma repeat_series_spec {A} (d : arr3 A) (s : list A) :
  exists m, repeat_series (TPlain d) s = Ok (TPlain m) /\ wf3 m /\ a3t m = length s /\ a3x m = a3x d /\ a3y m = a3y d /\
    forall pt, in_grid (a3x d) (a3y d) pt -> series_at (TPlain m) pt = Ok s.
Proof.
  unfold repeat_series, t_x, t_y. cbn [t_data].
  destruct (copy_array_spec s (a3x d) (a3y d)) as (m & E & W & T & X & Y & P). rewrite E. cbn [bind t_new_st].
  exists m. repeat split; auto.
Qed.
Lemma repeat_series_cluster {A} (d : arr3 A) p x y c (s : list A) :
  valid_partition p x y -> a3x d = x -> a3y d = y ->
  exists r, repeat_series (TCluster (TPlain d) p c) s = Ok r /\ t_x r = x /\ t_y r = y /\
    forall pt l, in_grid x y pt -> label_at p pt l ->
      series_at r pt = (if (l =? c)%Z then Ok s else Raise ValueError).
Proof.
  intros Hv X Y. unfold repeat_series, t_x, t_y. cbn [t_data]. rewrite X, Y.
  destruct (copy_array_spec s x y) as (m & E & W & T & X' & Y' & P). rewrite E. cbn [bind t_new_st].
  eexists; split; [reflexivity|]. split; [exact X'|]. split; [exact Y'|]. intros pt l Hg Hl.
  cbn [series_at]. unfold is_member. rewrite Hl. cbn [bind]. destruct (l =? c)%Z; auto.
Qed.

Lemma repeat_value_plain {A} (d : arr2 A) v :
  exists m, repeat_value (SPlain d) v = Ok (SPlain m) /\ wf2 m /\ a2x m = a2x d /\ a2y m = a2y d /\
    forall pt, in_grid (a2x d) (a2y d) pt -> value_at (SPlain m) pt = Ok v.
Proof.
  unfold repeat_value, copy_value_as_matrix_elements, reshape2, s_x, s_y. cbn [s_data].
  rewrite repeat_length, Nat.eqb_refl. cbn [bind s_new_spatial].
  eexists; split; [reflexivity|]. split; [apply wf2_full|]. split; auto. split; auto.
  intros pt Hg. apply (get2_full (a2x d) (a2y d) v pt Hg).
Qed.

Lemma as_list_spec {A} (d : arr3 A) : wf3 d ->
  exists l, as_list (TPlain d) = Ok l /\ length l = a3x d * a3y d /\
    forall i j, i < a3x d -> j < a3y d ->
      exists s, nth_error l (i * a3y d + j) = Some s /\ series_at (TPlain d) (Z.of_nat i, Z.of_nat j) = Ok s.
Proof.
  intros Hw. unfold as_list, t_items. rewrite t_for_spec; [|exact Hw|apply t_plain_consistent].
  cbn [snd bind skipn]. unfold t_x, t_y; cbn [t_data].
  rewrite filter_all by (intros; reflexivity). eexists; split; [reflexivity|].
  rewrite !map_length, grid_length. split; auto. intros i j Hi Hj.
  rewrite !nth_error_map. rewrite nth_error_grid by (apply flat_lt; auto). cbn [option_map].
  eexists; split; [reflexivity|]. cbn [snd series_at fst].
  unfold decode. rewrite flat_div, flat_mod by auto.
  apply (series3_t_ser (TPlain d) (Z.of_nat i, Z.of_nat j)); auto. split; unfold t_x, t_y; cbn; lia.
Qed.

Lemma to_list_of_series {A} (d : arr3 A) : wf3 d ->
  as_list (TPlain d) = spatio_temporal_to_list_of_time_series d.
Proof.
  intros Hw. unfold as_list, t_items. rewrite t_for_spec; [|exact Hw|apply t_plain_consistent].
  cbn [snd bind skipn]. unfold t_x, t_y; cbn [t_data].
  rewrite filter_all by (intros; reflexivity).
  unfold spatio_temporal_to_list_of_time_series.
  assert (E : flat_map (fun x => map (fun y => (x, y)) (zrange 0 (Z.of_nat (a3y d)))) (zrange 0 (Z.of_nat (a3x d)))
              = grid (a3x d) (a3y d)).
  { unfold grid, zrange. rewrite !Z.sub_0_r, !Nat2Z.id. generalize (seq 0 (a3x d)). intros l.
    induction l as [|a l IH]; cbn [map flat_map]; auto. rewrite IH. f_equal. rewrite map_map. reflexivity. }
  rewrite E. rewrite map_map. cbn [snd].
  rewrite (mapM_ok _ (t_ser (TPlain d))); auto.
  intros [i j] Hin. apply in_grid_iff in Hin. apply (series3_t_ser (TPlain d) (i, j)); auto.
Qed.

(* ---------- repeat_point ---------- *)
Lemma t_value_at_raises {A} (r : stregion A) pt : exists e, t_value_at r pt = Raise e.
Proof.
  induction r as [d|r IH p c|r IH mn mx]; cbn; eauto.
  destruct (is_member p pt c) as [[|]|e]; cbn; eauto.
Qed.
Lemma repeat_point_plain {A} (d : arr3 A) pt : wf3 d -> in_grid (a3x d) (a3y d) pt ->
  exists s m, series_at (TPlain d) pt = Ok s /\ t_repeat_point (TPlain d) pt = Ok (TPlain m) /\
    wf3 m /\ a3t m = a3t d /\ a3x m = a3x d /\ a3y m = a3y d /\
    forall q, in_grid (a3x d) (a3y d) q -> series_at (TPlain m) q = Ok s.
Proof.
  intros Hw Hg. destruct Hg as [H1 H2]. destruct (series3_ok d (fst pt) (snd pt)) as (s & E & L & _); auto.
  destruct (repeat_series_spec d s) as (m & Em & W & T & X & Y & P).
  exists s, m. split; [exact E|]. split; [cbn; rewrite E; exact Em|]. split; auto. split; [congruence|]. auto.
Qed.
Lemma repeat_point_cluster {A} (d : arr3 A) p x y c pt l : valid_partition p x y -> in_grid x y pt -> label_at p pt l ->
  t_repeat_point (TCluster (TPlain d) p c) pt = Raise (if (l =? c)%Z then AttributeError else ValueError).
Proof.
  intros Hv Hg Hl. cbn. unfold is_member. rewrite Hl. cbn [bind]. destruct (l =? c)%Z; reflexivity.
Qed.
Lemma repeat_point_scaled {A} (d : arr3 A) mn mx pt :
  t_repeat_point (TScaled (TPlain d) mn mx) pt = Raise AttributeError.
Proof. reflexivity. Qed.
Lemma repeat_point_decorated {A} (r : stregion A) pt : (forall d, r <> TPlain d) ->
  exists e, t_repeat_point r pt = Raise e.
Proof.
  intros H. destruct r as [d|r p c|r mn mx]; [destruct (H d); auto| |];
    unfold t_repeat_point; match goal with |- context [t_value_at ?r ?p] => destruct (t_value_at_raises r p) as [e ->] end; cbn; eauto.
Qed.
