(** Properties C17, C18, C71: subsets of regions, repeated series, listings. *)
From Coq Require Import ZifyBool ZifyNat.
From Verif Require Import Base.Py Base.Arr Spec.Grid Spec.Partition Spec.Rect Model.Region
     Proofs.SubsetFacts Props.Regions.

(* ---------------------------------------------------------------- C17 *)
Theorem C17_region_subset : forall A (d : arr3 A) g, wf3 d -> rect_in g (a3x d) (a3y d) ->
  exists m, t_region_subset (TPlain d) g = Ok (TPlain m) /\ wf3 m /\ a3t m = a3t d /\
    Z.of_nat (a3x m) = (x2 g - x1 g)%Z /\ Z.of_nat (a3y m) = (y2 g - y1 g)%Z /\
    forall i j, (0 <= i < x2 g - x1 g)%Z -> (0 <= j < y2 g - y1 g)%Z ->
      series_at (TPlain m) (i, j) = series_at (TPlain d) (x1 g + i, y1 g + j)%Z.
Proof. exact @region_subset_plain. Qed.
Print Assumptions C17_region_subset.

Theorem C17_spatial_region_subset : forall A (d : arr2 A) g, wf2 d -> rect_in g (a2x d) (a2y d) ->
  exists m, s_region_subset (SPlain d) g = Ok (SPlain m) /\ wf2 m /\
    Z.of_nat (a2x m) = (x2 g - x1 g)%Z /\ Z.of_nat (a2y m) = (y2 g - y1 g)%Z /\
    forall i j, (0 <= i < x2 g - x1 g)%Z -> (0 <= j < y2 g - y1 g)%Z ->
      value_at (SPlain m) (i, j) = value_at (SPlain d) (x1 g + i, y1 g + j)%Z.
Proof. exact @s_region_subset_plain. Qed.
Print Assumptions C17_spatial_region_subset.

Theorem C17_interval_subset : forall A (d : arr3 A) ti, wf3 d -> interval_in ti (a3t d) ->
  exists m, interval_subset (TPlain d) ti = TPlain m /\ wf3 m /\ Z.of_nat (a3t m) = (t2 ti - t1 ti)%Z /\
    a3x m = a3x d /\ a3y m = a3y d /\
    forall pt s, in_grid (a3x d) (a3y d) pt -> series_at (TPlain d) pt = Ok s ->
      exists s', series_at (TPlain m) pt = Ok s' /\
        forall n, (Z.of_nat n < t2 ti - t1 ti)%Z -> nth_error s' n = nth_error s (Z.to_nat (t1 ti) + n).
Proof. exact @interval_subset_plain. Qed.
Print Assumptions C17_interval_subset.

Theorem C17_subset_is_both_in_either_order : forall A (d : arr3 A) g ti,
  wf3 d -> rect_in g (a3x d) (a3y d) -> interval_in ti (a3t d) ->
  exists rs, t_region_subset (TPlain d) g = Ok rs /\
    interval_subset rs ti = subset (TPlain d) g ti /\
    t_region_subset (interval_subset (TPlain d) ti) g = Ok (subset (TPlain d) g ti).
Proof. exact @subset_both_orders. Qed.
Print Assumptions C17_subset_is_both_in_either_order.

Theorem C17_region_subset_twice : forall A (d : arr3 A) g h,
  wf3 d -> rect_in g (a3x d) (a3y d) -> rect_in h (Z.to_nat (x2 g - x1 g)) (Z.to_nat (y2 g - y1 g)) ->
  exists rs, t_region_subset (TPlain d) g = Ok rs /\
    t_region_subset rs h
    = t_region_subset (TPlain d) (Rect (x1 g + x1 h) (x1 g + x2 h) (y1 g + y1 h) (y1 g + y2 h)).
Proof. exact @region_subset_twice. Qed.
Print Assumptions C17_region_subset_twice.

Theorem C17_interval_subset_twice : forall A (d : arr3 A) a b,
  wf3 d -> interval_in a (a3t d) -> interval_in b (Z.to_nat (t2 a - t1 a)) ->
  interval_subset (interval_subset (TPlain d) a) b
  = interval_subset (TPlain d) (Interval (t1 a + t1 b) (t1 a + t2 b)).
Proof. exact @interval_subset_twice. Qed.
Print Assumptions C17_interval_subset_twice.

Theorem C17_clusters : forall A (d : arr3 A) (s : sregion A) p c ti g,
  (exists m, interval_subset (TPlain d) ti = TPlain m /\
     interval_subset (TCluster (TPlain d) p c) ti = TCluster (TPlain m) p c) /\
  t_region_subset (TCluster (TPlain d) p c) g = Raise NotImplementedError /\
  s_region_subset (SCluster s p c) g = Raise NotImplementedError.
Proof. intros. split; [apply cluster_interval_subset|]. split; reflexivity. Qed.
Print Assumptions C17_clusters.

Example C17_ex : wf3 ex_t /\ rect_in (Rect 0 2 1 3) (a3x ex_t) (a3y ex_t) /\ interval_in (Interval 1 2) (a3t ex_t) /\
  t_region_subset (TPlain ex_t) (Rect 0 2 1 3) = Ok (TPlain (mk3 2 2 2 [11; 12; 21; 22; 111; 112; 121; 122]%Z)) /\
  subset (TPlain ex_t) (Rect 0 2 1 3) (Interval 1 2) = TPlain (mk3 1 2 2 [111; 112; 121; 122]%Z) /\
  rect_in (Rect 1 2 0 1) (Z.to_nat (2 - 0)) (Z.to_nat (3 - 1)).
Proof. unfold rect_in, interval_in; cbn; repeat split; lia. Qed.

(* ---------------------------------------------------------------- C18 *)
Theorem C18_repeat_series : forall A (d : arr3 A) (s : list A),
  exists m, repeat_series (TPlain d) s = Ok (TPlain m) /\ wf3 m /\ a3t m = length s /\ a3x m = a3x d /\ a3y m = a3y d /\
    forall pt, in_grid (a3x d) (a3y d) pt -> series_at (TPlain m) pt = Ok s.
Proof. exact @repeat_series_spec. Qed.
Print Assumptions C18_repeat_series.

Theorem C18_repeat_series_on_cluster : forall A (d : arr3 A) p x y c (s : list A),
  valid_partition p x y -> a3x d = x -> a3y d = y ->
  exists r, repeat_series (TCluster (TPlain d) p c) s = Ok r /\ t_x r = x /\ t_y r = y /\
    forall pt l, in_grid x y pt -> label_at p pt l ->
      series_at r pt = (if (l =? c)%Z then Ok s else Raise ValueError).
Proof. exact @repeat_series_cluster. Qed.
Print Assumptions C18_repeat_series_on_cluster.

Theorem C18_repeat_series_over_region : forall A (s : list A) x y,
  exists m, repeat_series_over_region s x y = Ok (TPlain m) /\ wf3 m /\ a3t m = length s /\ a3x m = x /\ a3y m = y /\
    forall pt, in_grid x y pt -> series_at (TPlain m) pt = Ok s.
Proof.
  intros A s x y. unfold repeat_series_over_region. destruct (copy_array_spec s x y) as (m & E & R). rewrite E. cbn [bind]. exists m; auto.
Qed.
Print Assumptions C18_repeat_series_over_region.

Theorem C18_repeat_value : forall A (d : arr2 A) v,
  exists m, repeat_value (SPlain d) v = Ok (SPlain m) /\ wf2 m /\ a2x m = a2x d /\ a2y m = a2y d /\
    forall pt, in_grid (a2x d) (a2y d) pt -> value_at (SPlain m) pt = Ok v.
Proof. exact @repeat_value_plain. Qed.
Print Assumptions C18_repeat_value.

Theorem C18_as_list_in_index_order : forall A (d : arr3 A), wf3 d ->
  exists l, as_list (TPlain d) = Ok l /\ length l = a3x d * a3y d /\
    forall i j, i < a3x d -> j < a3y d ->
      exists s, nth_error l (i * a3y d + j) = Some s /\ series_at (TPlain d) (Z.of_nat i, Z.of_nat j) = Ok s.
Proof. exact @as_list_spec. Qed.
Print Assumptions C18_as_list_in_index_order.

Theorem C18_as_list_is_list_of_time_series : forall A (d : arr3 A), wf3 d ->
  as_list (TPlain d) = spatio_temporal_to_list_of_time_series d.
Proof. exact @to_list_of_series. Qed.
Print Assumptions C18_as_list_is_list_of_time_series.

Example C18_ex : repeat_series_over_region [7; 8]%Z 1 2 = Ok (TPlain (mk3 2 1 2 [7; 7; 8; 8]%Z)) /\
  as_list (TPlain ex_t) = Ok [[10;110];[11;111];[12;112];[20;120];[21;121];[22;122]]%Z.
Proof. split; reflexivity. Qed.

(* ---------------------------------------------------------------- C71 *)
Theorem C71_repeat_point_on_region : forall A (d : arr3 A) pt, wf3 d -> in_grid (a3x d) (a3y d) pt ->
  exists s m, series_at (TPlain d) pt = Ok s /\ t_repeat_point (TPlain d) pt = Ok (TPlain m) /\
    wf3 m /\ a3t m = a3t d /\ a3x m = a3x d /\ a3y m = a3y d /\
    forall q, in_grid (a3x d) (a3y d) q -> series_at (TPlain m) q = Ok s.
Proof. exact @repeat_point_plain. Qed.
Print Assumptions C71_repeat_point_on_region.

(** "repeat_point works on every region" is false: it raises on every decorated one *)
Theorem C71_repeat_point_on_decorated_refuted : forall A (r : stregion A) pt, (forall d, r <> TPlain d) ->
  exists e, t_repeat_point r pt = Raise e.
Proof. exact @repeat_point_decorated. Qed.
Print Assumptions C71_repeat_point_on_decorated_refuted.

Theorem C71_which_error : forall A (d : arr3 A) p x y c pt l mn mx,
  valid_partition p x y -> in_grid x y pt -> label_at p pt l ->
  t_repeat_point (TCluster (TPlain d) p c) pt = Raise (if (l =? c)%Z then AttributeError else ValueError) /\
  t_repeat_point (TScaled (TPlain d) mn mx) pt = Raise AttributeError.
Proof. intros; split; [eapply repeat_point_cluster; eauto|reflexivity]. Qed.
Print Assumptions C71_which_error.

Example C71_ex : t_repeat_point (TPlain ex_t) (1, 0)%Z
  = Ok (TPlain (mk3 2 2 3 [20;20;20;20;20;20;120;120;120;120;120;120]%Z)) /\
  label_at ex_p (1, 0)%Z 2%Z /\ t_repeat_point (TCluster (TPlain ex_t) ex_p 2) (1, 0)%Z = Raise AttributeError.
Proof. repeat split. Qed.
