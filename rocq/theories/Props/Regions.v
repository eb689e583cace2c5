(** Properties C01-C10, C16, C68, C70: iteration over regions, partitions, clusters, merging, functions. *)
From Coq Require Import Sorted ZifyBool ZifyNat.
From Verif Require Import Base.Py Base.Arr Spec.Grid Spec.Partition Model.Region
     Proofs.RegionFacts Proofs.PartitionFacts.

(* a small partition used in the examples:   0 1 1
                                             2 0 1   *)
Definition ex_labels : arr2 Z := mk2 2 3 [0; 1; 1; 2; 0; 1]%Z.
Definition ex_p : crisp := Crisp ex_labels 3.
Definition ex_d : arr2 Z := mk2 2 3 [10; 11; 12; 20; 21; 22]%Z.
Definition ex_t : arr3 Z := mk3 2 2 3 [10; 11; 12; 20; 21; 22; 110; 111; 112; 120; 121; 122]%Z.

Example ex_p_built : from_membership_array [0; 1; 1; 2; 0; 1]%Z 2 3 = Ok ex_p.
Proof. vm_compute. reflexivity. Qed.

Lemma ex_p_valid : valid_partition ex_p 2 3.
Proof.
  split; [reflexivity|]. split; [reflexivity|]. split; [reflexivity|]. split.
  - intros [a b] l [H1 H2] H. cbn [fst snd] in *. unfold label_at in H. cbn [fst snd] in H.
    assert (A : a = 0%Z \/ a = 1%Z) by lia. assert (B : b = 0%Z \/ b = 1%Z \/ b = 2%Z) by lia.
    destruct A as [->| ->], B as [->|[->| ->]]; vm_compute in H; inversion H; subst; cbn; lia.
  - exists (1, 0)%Z. split; [split; cbn; lia|reflexivity].
Qed.

(* ---------------------------------------------------------------- C01 *)
Theorem C01_full_loops_visit_grid_in_order : forall x y n,
  successive_loops x y n 0 = (0, repeat (Ok (grid x y)) n).
Proof. exact successive_loops_spec. Qed.
Print Assumptions C01_full_loops_visit_grid_in_order.

(** the grid is what it should be: each point once, the n-th being (n / y, n mod y) *)
Theorem C01_grid_row_major : forall x y,
  NoDup (grid x y) /\ length (grid x y) = x * y /\
  (forall p, In p (grid x y) <-> in_grid x y p) /\
  (forall i j, i < x -> j < y -> nth_error (grid x y) (i * y + j) = Some (Z.of_nat i, Z.of_nat j)).
Proof. exact grid_row_major. Qed.
Print Assumptions C01_grid_row_major.

(** loops over spatial and spatio-temporal regions yield (point, value) for the same points *)
Theorem C01_spatial_loop : forall A (d : arr2 A), wf2 d ->
  exists items, s_for (SPlain d) 0 = (0, Ok items) /\ map fst items = grid (a2x d) (a2y d) /\
    forall pt v, In (pt, v) items -> value_at (SPlain d) pt = Ok v.
Proof. exact @spatial_loop. Qed.
Print Assumptions C01_spatial_loop.

Theorem C01_spatio_temporal_loop : forall A (d : arr3 A), wf3 d ->
  exists items, t_for (TPlain d) 0 = (0, Ok items) /\ map fst items = grid (a3x d) (a3y d) /\
    forall pt s, In (pt, s) items -> series_at (TPlain d) pt = Ok s /\ length s = a3t d.
Proof. exact @spatio_temporal_loop. Qed.
Print Assumptions C01_spatio_temporal_loop.

Example C01_ex : successive_loops 2 3 2 0
  = (0, [Ok [(0,0);(0,1);(0,2);(1,0);(1,1);(1,2)]; Ok [(0,0);(0,1);(0,2);(1,0);(1,1);(1,2)]]%Z).
Proof. reflexivity. Qed.
Example C01_ex_wf : wf2 ex_d /\ wf3 ex_t.
Proof. split; reflexivity. Qed.

(* ---------------------------------------------------------------- C02 *)
Theorem C02_break_shifts_next_loop : forall x y m n, m <= x * y ->
  let '(idx1, first) := base_for_break x y 0 m in
  let '(idx2, rest) := successive_loops x y (S n) idx1 in
  first = Ok (firstn m (grid x y)) /\ idx2 = 0 /\
  rest = Ok (skipn m (grid x y)) :: repeat (Ok (grid x y)) n.
Proof. exact break_then_loops. Qed.
Print Assumptions C02_break_shifts_next_loop.

Example C02_ex : 4 <= 2 * 3 /\ base_for_break 2 3 0 4 = (4, Ok [(0,0);(0,1);(0,2);(1,0)]%Z).
Proof. split; [lia|reflexivity]. Qed.

(** the claim "every loop visits every point" is false after any early exit *)
Theorem C02_every_loop_is_complete_refuted : forall x y m, 0 < m <= x * y ->
  snd (base_for x y (fst (base_for_break x y 0 m))) <> Ok (grid x y).
Proof. exact break_incomplete. Qed.
Print Assumptions C02_every_loop_is_complete_refuted.

(* ---------------------------------------------------------------- C03 *)
Theorem C03_decode_of_encode : forall x y pt, in_grid x y pt ->
  decode_index y (encode_point y pt) = Ok pt /\ (0 <= encode_point y pt < Z.of_nat (x * y))%Z.
Proof. exact decode_encode. Qed.
Print Assumptions C03_decode_of_encode.

Theorem C03_encode_of_decode : forall x y n, (0 <= n < Z.of_nat (x * y))%Z ->
  exists pt, decode_index y n = Ok pt /\ in_grid x y pt /\ encode_point y pt = n.
Proof. exact encode_decode. Qed.
Print Assumptions C03_encode_of_decode.

Theorem C03_index_to_absolute_point : forall g pt,
  (x1 g <= fst pt < x2 g)%Z -> (y1 g <= snd pt < y2 g)%Z ->
  index_to_absolute_point g ((fst pt - x1 g) * (y2 g - y1 g) + (snd pt - y1 g)) = Ok pt.
Proof. exact index_to_absolute_point_spec. Qed.
Print Assumptions C03_index_to_absolute_point.

Example C03_ex : in_grid 2 3 (1, 2)%Z /\ encode_point 3 (1, 2)%Z = 5%Z /\ decode_index 3 5 = Ok (1, 2)%Z /\
  index_to_absolute_point (Rect 40 50 50 60) 23 = Ok (42, 53)%Z.
Proof. repeat split; cbn; lia. Qed.

(* ---------------------------------------------------------------- C04 *)
Theorem C04_membership_of_points_agrees : forall p x y pts,
  valid_partition p x y -> Forall (in_grid x y) pts ->
  exists ls, membership_of_points p pts = Ok ls /\
    Forall2 (fun pt l => forall c, is_member p pt c = Ok (l =? c)%Z) pts ls.
Proof. exact membership_agrees. Qed.
Print Assumptions C04_membership_of_points_agrees.

Example C04_ex : valid_partition ex_p 2 3 /\ Forall (in_grid 2 3) [(1,1); (0,2)]%Z /\
  membership_of_points ex_p [(1,1); (0,2)]%Z = Ok [0; 1]%Z.
Proof. split; [exact ex_p_valid|]. split; [repeat constructor; cbn; lia|reflexivity]. Qed.

(* ---------------------------------------------------------------- C05 *)
Theorem C05_clusters_split_region : forall A (p : crisp) (d : arr2 A) x y,
  valid_partition p x y -> wf2 d -> a2x d = x -> a2y d = y ->
  exists clusters itemss,
    create_all_spatial_clusters p (SPlain d) = Ok clusters /\
    mapM s_items clusters = Ok itemss /\
    Permutation (map fst (concat itemss)) (grid x y) /\
    length itemss = Z.to_nat (pk p) /\
    (forall i items, nth_error itemss i = Some items ->
       cluster_len p (Z.of_nat i) = length items /\
       (forall pt, In pt (map fst items) <-> in_grid x y pt /\ is_member p pt (Z.of_nat i) = Ok true)).
Proof. exact @clusters_split. Qed.
Print Assumptions C05_clusters_split_region.

Theorem C05_cluster_lengths_add_up : forall p x y, valid_partition p x y ->
  fold_right plus 0 (map (cluster_len p) (zrange 0 (pk p))) = x * y.
Proof. exact cluster_lengths_sum. Qed.
Print Assumptions C05_cluster_lengths_add_up.

Theorem C05_spatio_temporal_clusters : forall A (p : crisp) (d : arr3 A) x y,
  valid_partition p x y -> wf3 d -> a3x d = x -> a3y d = y ->
  exists clusters itemss,
    create_all_spt_clusters p (TPlain d) = Ok clusters /\
    mapM t_items clusters = Ok itemss /\
    Permutation (map fst (concat itemss)) (grid x y) /\
    length itemss = Z.to_nat (pk p) /\
    (forall i items, nth_error itemss i = Some items ->
       cluster_len p (Z.of_nat i) = length items /\
       (forall pt, In pt (map fst items) <-> in_grid x y pt /\ is_member p pt (Z.of_nat i) = Ok true)).
Proof. exact @spt_clusters_split. Qed.
Print Assumptions C05_spatio_temporal_clusters.

Example C05_ex : valid_partition ex_p 2 3 /\ wf2 ex_d /\ a2x ex_d = 2 /\ a2y ex_d = 3 /\
  s_items (SCluster (SPlain ex_d) ex_p 1) = Ok [((0,1),11); ((0,2),12); ((1,2),22)]%Z.
Proof. split; [exact ex_p_valid|]. repeat split. Qed.

(* ---------------------------------------------------------------- C06 *)
Theorem C06_cluster_value_at : forall A (p : crisp) (r : sregion A) c pt l, label_at p pt l ->
  (l = c -> value_at (SCluster r p c) pt = value_at r pt) /\
  (l <> c -> value_at (SCluster r p c) pt = Raise ValueError).
Proof. exact @cluster_value_at. Qed.
Print Assumptions C06_cluster_value_at.

Theorem C06_cluster_series_at : forall A (p : crisp) (r : stregion A) c pt l, label_at p pt l ->
  (l = c -> series_at (TCluster r p c) pt = series_at r pt) /\
  (l <> c -> series_at (TCluster r p c) pt = Raise ValueError).
Proof. exact @cluster_series_at. Qed.
Print Assumptions C06_cluster_series_at.

Theorem C06_all_point_indices : forall A (p : crisp) (d : arr3 A) x y c,
  valid_partition p x y -> wf3 d -> a3x d = x -> a3y d = y ->
  exists ns items, all_point_indices (TCluster (TPlain d) p c) = Ok ns /\
    t_items (TCluster (TPlain d) p c) = Ok items /\
    StronglySorted lt ns /\
    map Z.of_nat ns = map (fun it => fst (fst it) * Z.of_nat y + snd (fst it))%Z items.
Proof. exact @cluster_indices_items. Qed.
Print Assumptions C06_all_point_indices.

Example C06_ex : label_at ex_p (1, 1)%Z 0%Z /\ value_at (SCluster (SPlain ex_d) ex_p 0) (1, 1)%Z = Ok 21%Z /\
  value_at (SCluster (SPlain ex_d) ex_p 1) (1, 1)%Z = Raise ValueError /\
  all_point_indices (TCluster (TPlain ex_t) ex_p 1) = Ok [1; 2; 5].
Proof. repeat split. Qed.

(* ---------------------------------------------------------------- C07 *)
Theorem C07_merge_takes_value_of_own_cluster :
  forall A (zero : A) (p : crisp) x y (clusters : list (sregion A)),
  valid_partition p x y ->
  Forall (fun c => s_x c = x /\ s_y c = y) clusters ->
  mapM cluster_index_of clusters = Ok (zrange 0 (pk p)) ->
  (forall pt l c, in_grid x y pt -> label_at p pt l -> nth_error clusters (Z.to_nat l) = Some c ->
     exists v, value_at c pt = Ok v) ->
  exists m, merge_clusters_2d zero p clusters = Ok (SPlain m) /\ wf2 m /\ a2x m = x /\ a2y m = y /\
    forall pt l c, in_grid x y pt -> label_at p pt l -> nth_error clusters (Z.to_nat l) = Some c ->
      get2 m (fst pt) (snd pt) = value_at c pt.
Proof. exact @merge_clusters_values. Qed.
Print Assumptions C07_merge_takes_value_of_own_cluster.

Theorem C07_split_then_merge_is_identity : forall A (zero : A) (p : crisp) (d : arr2 A) x y,
  valid_partition p x y -> wf2 d -> a2x d = x -> a2y d = y ->
  exists clusters, create_all_spatial_clusters p (SPlain d) = Ok clusters /\
    merge_clusters_2d zero p clusters = Ok (SPlain d).
Proof. exact @split_merge. Qed.
Print Assumptions C07_split_then_merge_is_identity.

Theorem C07_other_index_lists_rejected :
  forall A (zero : A) (p : crisp) x y (clusters : list (sregion A)) is,
  valid_partition p x y -> Forall (fun c => s_x c = x /\ s_y c = y) clusters ->
  mapM cluster_index_of clusters = Ok is -> is <> zrange 0 (pk p) ->
  merge_clusters_2d zero p clusters = Raise ValueError.
Proof. exact @merge_clusters_bad_indices. Qed.
Print Assumptions C07_other_index_lists_rejected.

Example C07_ex : exists clusters,
  create_all_spatial_clusters ex_p (SPlain ex_d) = Ok clusters /\ length clusters = 3 /\
  Forall (fun c => s_x c = 2 /\ s_y c = 3) clusters /\
  mapM cluster_index_of clusters = Ok (zrange 0 (pk ex_p)) /\
  merge_clusters_2d 0%Z ex_p clusters = Ok (SPlain ex_d).
Proof. eexists. split; [reflexivity|]. repeat split. repeat constructor. Qed.

(* ---------------------------------------------------------------- C08 *)
(** "the order of the clusters passed in does not matter" is false: every other order is rejected *)
Theorem C08_order_does_not_matter_refuted : forall A (zero : A) (p : crisp) (d : arr2 A) x y is,
  valid_partition p x y -> wf2 d -> a2x d = x -> a2y d = y ->
  Permutation is (zrange 0 (pk p)) -> is <> zrange 0 (pk p) ->
  merge_clusters_2d zero p (map (fun i => SCluster (SPlain d) p i) is) = Raise ValueError.
Proof. intros; eapply zrange_perm_clusters; eauto. Qed.
Print Assumptions C08_order_does_not_matter_refuted.

Example C08_ex : Permutation [1; 0; 2]%Z (zrange 0 (pk ex_p)) /\ [1; 0; 2]%Z <> zrange 0 (pk ex_p) /\
  merge_clusters_2d 0%Z ex_p (map (fun i => SCluster (SPlain ex_d) ex_p i) [1; 0; 2]%Z) = Raise ValueError.
Proof. split; [apply perm_swap|]. split; [vm_compute; discriminate|reflexivity]. Qed.

(* ---------------------------------------------------------------- C09 *)
Theorem C09_representatives_replicated : forall A (zero : A) (p : crisp) (d : arr2 A) x y (reps : list point),
  valid_partition p x y -> wf2 d -> a2x d = x -> a2y d = y ->
  length reps = Z.to_nat (pk p) ->
  (forall i rep, nth_error reps i = Some rep -> in_grid x y rep /\ label_at p rep (Z.of_nat i)) ->
  exists clusters m, create_all_spatial_clusters p (SPlain d) = Ok clusters /\
    merge_with_representatives_2d zero p clusters reps = Ok (SPlain m) /\
    wf2 m /\ a2x m = x /\ a2y m = y /\
    forall pt l rep, in_grid x y pt -> label_at p pt l -> nth_error reps (Z.to_nat l) = Some rep ->
      get2 m (fst pt) (snd pt) = get2 d (fst rep) (snd rep).
Proof. exact @merge_reps. Qed.
Print Assumptions C09_representatives_replicated.

Theorem C09_foreign_representative_rejected :
  forall A (zero : A) (p : crisp) (d : arr2 A) x y (reps : list point),
  valid_partition p x y -> wf2 d -> a2x d = x -> a2y d = y ->
  length reps = Z.to_nat (pk p) -> Forall (in_grid x y) reps ->
  (exists i rep, nth_error reps i = Some rep /\ ~ label_at p rep (Z.of_nat i)) ->
  exists clusters, create_all_spatial_clusters p (SPlain d) = Ok clusters /\
    merge_with_representatives_2d zero p clusters reps = Raise ValueError.
Proof. exact @merge_reps_nonmember. Qed.
Print Assumptions C09_foreign_representative_rejected.

Example C09_ex : let reps := [(1,1); (0,2); (1,0)]%Z in
  length reps = Z.to_nat (pk ex_p) /\
  (forall i rep, nth_error reps i = Some rep -> in_grid 2 3 rep /\ label_at ex_p rep (Z.of_nat i)) /\
  merge_with_representatives_2d 0%Z ex_p (map (fun i => SCluster (SPlain ex_d) ex_p i) [0; 1; 2]%Z) reps
  = Ok (SPlain (mk2 2 3 [21; 12; 12; 20; 21; 12]%Z)).
Proof.
  split; [reflexivity|]. split; [|reflexivity].
  intros [|[|[|i]]] rep H; inversion H; subst; try (split; [split; cbn; lia|reflexivity]).
  destruct i; discriminate.
Qed.

(* ---------------------------------------------------------------- C10 *)
Theorem C10_intersecting_clusters : forall p x y g,
  valid_partition p x y -> (0 <= x1 g /\ x2 g <= Z.of_nat x /\ 0 <= y1 g /\ y2 g <= Z.of_nat y)%Z ->
  exists is, find_indices_of_clusters_intersecting_with p g = Ok is /\ NoDup is /\
    forall c, In c is <-> exists pt, (x1 g <= fst pt < x2 g)%Z /\ (y1 g <= snd pt < y2 g)%Z /\ label_at p pt c.
Proof. exact intersecting_spec. Qed.
Print Assumptions C10_intersecting_clusters.

Theorem C10_intersecting_medoids : forall M p x y g (medoids : list M),
  valid_partition p x y -> (0 <= x1 g /\ x2 g <= Z.of_nat x /\ 0 <= y1 g /\ y2 g <= Z.of_nat y)%Z ->
  length medoids = Z.to_nat (pk p) ->
  exists ms, find_medoids_of_clusters_intersecting_with p (Some medoids) g = Ok ms /\
    (forall m, In m ms <-> exists pt c, (x1 g <= fst pt < x2 g)%Z /\ (y1 g <= snd pt < y2 g)%Z /\
                              label_at p pt c /\ nth_error medoids (Z.to_nat c) = Some m).
Proof. exact @intersecting_medoids. Qed.
Print Assumptions C10_intersecting_medoids.

Example C10_ex : let g := Rect 0 1 1 3 in
  (0 <= x1 g /\ x2 g <= Z.of_nat 2 /\ 0 <= y1 g /\ y2 g <= Z.of_nat 3)%Z /\
  find_indices_of_clusters_intersecting_with ex_p g = Ok [1]%Z.
Proof. cbn; repeat split; lia. Qed.

(** a rectangle that sticks out on the y side yields a cluster that has no point in it *)
Theorem C10_out_of_range_rectangle_refuted : exists p x y g is c,
  valid_partition p x y /\ find_indices_of_clusters_intersecting_with p g = Ok is /\ In c is /\
  ~ exists pt, in_grid x y pt /\ (x1 g <= fst pt < x2 g)%Z /\ (y1 g <= snd pt < y2 g)%Z /\ label_at p pt c.
Proof.
  exists ex_p, 2, 3, (Rect 0 1 2 4), [1; 2]%Z, 2%Z.
  split; [exact ex_p_valid|]. split; [reflexivity|]. split; [cbn; auto|].
  intros ([a b] & [Ha Hb] & H1 & H2 & H3). cbn in *. unfold label_at in H3. cbn [fst snd] in H3.
  assert (a = 0%Z) by lia. assert (b = 2%Z) by lia. subst. vm_compute in H3. discriminate.
Qed.
Print Assumptions C10_out_of_range_rectangle_refuted.

(* ---------------------------------------------------------------- C16 *)
(** [visits r pt]: the loop over the region reaches pt (all points of a plain region, the members of a
    cluster); [memb_label] says when for a cluster. *)
Theorem C16_scalar_on_region : forall A B (zero : B) (f : fregion A B) (d : arr2 A) (g : point -> A -> B),
  wf2 d -> f_x f = a2x d -> f_y f = a2y d ->
  (forall pt v, in_grid (a2x d) (a2y d) pt -> exists fn, f_at f pt = Ok fn /\ fn v = Ok (g pt v)) ->
  exists m, s_apply_scalar zero f (SPlain d) = Ok (SPlain m) /\ wf2 m /\ a2x m = a2x d /\ a2y m = a2y d /\
    forall pt v, in_grid (a2x d) (a2y d) pt -> get2 d (fst pt) (snd pt) = Ok v ->
      get2 m (fst pt) (snd pt) = Ok (g pt v).
Proof. exact @apply_scalar_plain. Qed.
Print Assumptions C16_scalar_on_region.

Theorem C16_scalar_on_cluster : forall A B (zero : B) (f : fregion A B) (p : crisp) x y (d : arr2 A) c (g : point -> A -> B),
  valid_partition p x y -> wf2 d -> a2x d = x -> a2y d = y -> f_x f = x -> f_y f = y ->
  (forall pt v, in_grid x y pt -> label_at p pt c -> exists fn, f_at f pt = Ok fn /\ fn v = Ok (g pt v)) ->
  exists m, s_apply_scalar zero f (SCluster (SPlain d) p c) = Ok (SCluster (SPlain m) p c) /\
    wf2 m /\ a2x m = x /\ a2y m = y /\
    forall pt l v, in_grid x y pt -> label_at p pt l -> get2 d (fst pt) (snd pt) = Ok v ->
      get2 m (fst pt) (snd pt) = Ok (if (l =? c)%Z then g pt v else zero).
Proof. exact @apply_scalar_cluster. Qed.
Print Assumptions C16_scalar_on_cluster.

Theorem C16_series_to_scalar : forall A B (zero : B) (f : fregion (list A) B) (d : arr3 A) (g : point -> list A -> B),
  wf3 d -> f_x f = a3x d -> f_y f = a3y d ->
  (forall pt s, in_grid (a3x d) (a3y d) pt -> exists fn, f_at f pt = Ok fn /\ fn s = Ok (g pt s)) ->
  exists m, t_apply_scalar zero f (TPlain d) = Ok (SPlain m) /\ wf2 m /\ a2x m = a3x d /\ a2y m = a3y d /\
    forall pt s, in_grid (a3x d) (a3y d) pt -> series3 d (fst pt) (snd pt) = Ok s ->
      get2 m (fst pt) (snd pt) = Ok (g pt s).
Proof. exact @apply_series_scalar_plain. Qed.
Print Assumptions C16_series_to_scalar.

Theorem C16_series_to_series : forall A (zero : A) (f : fregion (list A) (list A)) (p : crisp) x y (d : arr3 A) c len
    (g : point -> list A -> list A),
  valid_partition p x y -> wf3 d -> a3x d = x -> a3y d = y -> f_x f = x -> f_y f = y ->
  (forall pt s, in_grid x y pt -> label_at p pt c ->
     exists fn, f_at f pt = Ok fn /\ fn s = Ok (g pt s) /\ length (g pt s) = len) ->
  exists m, t_apply_series zero f (TCluster (TPlain d) p c) len = Ok (TCluster (TPlain m) p c) /\
    wf3 m /\ a3t m = len /\ a3x m = x /\ a3y m = y /\
    forall pt l s, in_grid x y pt -> label_at p pt l -> series3 d (fst pt) (snd pt) = Ok s ->
      series3 m (fst pt) (snd pt) = Ok (if (l =? c)%Z then g pt s else repeat zero len).
Proof. exact @apply_series_cluster. Qed.
Print Assumptions C16_series_to_series.

Theorem C16_shape_mismatch : forall A B (zero : B) (f : fregion A B) (r : sregion A),
  f_x f <> s_x r \/ f_y f <> s_y r -> s_apply_scalar zero f r = Raise AssertionError.
Proof. exact @apply_scalar_mismatch. Qed.
Print Assumptions C16_shape_mismatch.

Example C16_ex :
  let f := fregion_of_array (mk2 2 3 (map (fun k v => Ok (k * v)%Z) [1; 2; 3; 4; 5; 6]%Z)) in
  f_x f = 2 /\ f_y f = 3 /\
  s_apply_scalar 0%Z f (SCluster (SPlain ex_d) ex_p 1) = Ok (SCluster (SPlain (mk2 2 3 [0; 22; 36; 0; 0; 132]%Z)) ex_p 1).
Proof. repeat split. Qed.

(* ---------------------------------------------------------------- C68 *)
Theorem C68_inherited_cluster_len_is_zero : forall p x y c, valid_partition p x y ->
  default_cluster_len x y (is_member p) c = Ok 0%Z.
Proof. exact default_cluster_len_crisp. Qed.
Print Assumptions C68_inherited_cluster_len_is_zero.

Theorem C68_any_partition_type : forall x y (mem : point -> Z -> res bool) c n,
  default_cluster_len x y mem c = Ok n -> n = 0%Z.
Proof. exact default_cluster_len_zero. Qed.
Print Assumptions C68_any_partition_type.

(** The inherited cluster_len should count the members of a cluster, as the one of crisp partitions does: it does not. *)
Theorem C68_inherited_cluster_len_counts_members_refuted : exists p x y c,
  valid_partition p x y /\ default_cluster_len x y (is_member p) c <> Ok (Z.of_nat (cluster_len p c)).
Proof. exists ex_p, 2, 3, 1%Z. split; [exact ex_p_valid|vm_compute; discriminate]. Qed.
Print Assumptions C68_inherited_cluster_len_counts_members_refuted.
Example C68_ex : default_cluster_len 2 3 (is_member ex_p) 1 = Ok 0%Z /\ cluster_len ex_p 1 = 3%nat.
Proof. split; vm_compute; reflexivity. Qed.


(* ---------------------------------------------------------------- C70 *)
Theorem C70_nested_loops_never_end : forall x y n, 0 < x * y ->
  nested_for x y (S n) 0 = Some (0, repeat (0%Z, 0%Z) (S n)).
Proof. exact nested_for_spec. Qed.
Print Assumptions C70_nested_loops_never_end.

Example C70_ex : 0 < 2 * 3 /\ nested_for 2 3 4 0 = Some (0, [(0,0);(0,0);(0,0);(0,0)]%Z).
Proof. split; [lia|reflexivity]. Qed.
