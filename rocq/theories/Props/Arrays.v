(** Properties C11-C15, C22: regular partitions, divisors, extrema, sliding windows. *)
From Coq Require Import Sorted ZifyBool ZifyNat.
From Verif Require Import Base.Py Base.Arr Base.Float Spec.Grid Spec.Partition Spec.Extrema
     Model.Region Model.Maths Model.Arrays
     Proofs.MathsFacts Proofs.ArraysFacts Props.Regions.

(* ---------------------------------------------------------------- C11 *)
(** The rows split at xb 0 = 0 < xb 1 < ... < xb dx = x and the columns likewise; the cell (i, j) of row
    block r and column block c carries the label r * dy + c. *)
Theorem C11_block_labels : forall x y k m, (1 <= k)%Z -> regular_partitioning x y k = Ok m ->
  exists dx dy (xb yb : nat -> nat),
    two_balanced_divisors_order_x_y k (Z.of_nat x) (Z.of_nat y) = Ok (Z.of_nat dx, Z.of_nat dy) /\
    Z.of_nat (dx * dy) = k /\
    a2x m = x /\ a2y m = y /\ wf2 m /\
    xb 0 = 0 /\ xb dx = x /\ (forall i, i < dx -> xb i < xb (S i)) /\
    yb 0 = 0 /\ yb dy = y /\ (forall i, i < dy -> yb i < yb (S i)) /\
    forall r c i j, r < dx -> c < dy -> xb r <= i < xb (S r) -> yb c <= j < yb (S c) ->
      get2 m (Z.of_nat i) (Z.of_nat j) = Ok (Z.of_nat (r * dy + c)).
Proof. exact regular_partitioning_spec. Qed.
Print Assumptions C11_block_labels.

Theorem C11_when_it_returns : forall x y k, (1 <= k)%Z ->
  exists dx dy, two_balanced_divisors_order_x_y k (Z.of_nat x) (Z.of_nat y) = Ok (dx, dy) /\
    ((dx <= Z.of_nat x /\ dy <= Z.of_nat y)%Z -> exists m, regular_partitioning x y k = Ok m) /\
    (~ (dx <= Z.of_nat x /\ dy <= Z.of_nat y)%Z -> regular_partitioning x y k = Raise ValueError).
Proof. exact regular_partitioning_ok_iff. Qed.
Print Assumptions C11_when_it_returns.

Theorem C11_partition_has_k_clusters : forall x y k,
  (1 <= k)%Z -> (exists m, regular_partitioning x y k = Ok m) ->
  exists p, with_regular_partition k x y = Ok p /\ pk p = k /\ valid_partition p x y /\
    (forall c, (0 <= c < k)%Z -> exists pt, in_grid x y pt /\ label_at p pt c).
Proof. exact regular_partition_valid. Qed.
Print Assumptions C11_partition_has_k_clusters.

Example C11_ex : regular_partitioning 4 5 6
  = Ok (mk2 4 5 [0;1;2;2;2; 0;1;2;2;2; 3;4;5;5;5; 3;4;5;5;5]%Z).
Proof. vm_compute. reflexivity. Qed.
Example C11_ex2 : regular_partitioning 2 8 6
  = Ok (mk2 2 8 [0;0;0;1;1;1;2;2; 3;3;3;4;4;4;5;5]%Z).
Proof. vm_compute. reflexivity. Qed.
Example C11_ex_raise : regular_partitioning 3 4 11 = Raise ValueError.
Proof. vm_compute. reflexivity. Qed.

(* ---------------------------------------------------------------- C12 *)
Theorem C12_divisors : forall n, (1 <= n)%Z ->
  exists ds, divisors n = Ok ds /\ StronglySorted Z.lt ds /\ forall d, In d ds <-> (0 < d)%Z /\ (d | n)%Z.
Proof. exact divisors_spec. Qed.
Print Assumptions C12_divisors.

Example C12_ex : divisors 36 = Ok [1; 2; 3; 4; 6; 9; 12; 18; 36]%Z.
Proof. vm_compute. reflexivity. Qed.

(* ---------------------------------------------------------------- C13 *)
Theorem C13_balanced_divisors : forall n, (1 <= n)%Z ->
  exists a b, find_two_balanced_divisors n = Ok (a, b) /\ (0 < a /\ a <= b /\ a * b = n)%Z /\
    forall c d, (0 < c -> c <= d -> c * d = n -> b - a <= d - c)%Z.
Proof.
  intros n Hn. destruct (find_two_balanced_divisors_spec n Hn) as (a & b & E & Ha & Hab & Hm & H).
  exists a, b. split; auto. split; auto. intros c d H1 H2 H3. destruct (H c d H1 H2 H3). lia.
Qed.
Print Assumptions C13_balanced_divisors.

Theorem C13_order_follows_lengths : forall n x y, (1 <= n)%Z ->
  exists a b dx dy, find_two_balanced_divisors n = Ok (a, b) /\
    two_balanced_divisors_order_x_y n x y = Ok (dx, dy) /\
    (if (x <? y)%Z then (dx, dy) = (a, b) else (dx, dy) = (b, a)) /\ (0 < a <= b)%Z /\ (dx * dy = n)%Z.
Proof.
  intros n x y Hn. destruct (find_two_balanced_divisors_spec n Hn) as (a & b & E & Ha & Hab & Hm & H).
  unfold two_balanced_divisors_order_x_y. rewrite E. cbn [bind fst snd].
  destruct (x <? y)%Z; [exists a, b, a, b|exists a, b, b, a]; repeat split; auto; lia.
Qed.
Print Assumptions C13_order_follows_lengths.

Example C13_ex : find_two_balanced_divisors 24 = Ok (4, 6)%Z /\ find_two_balanced_divisors 23 = Ok (1, 23)%Z /\
  find_two_balanced_divisors 25 = Ok (5, 5)%Z /\ two_balanced_divisors_order_x_y 24 10 9 = Ok (6, 4)%Z.
Proof. repeat split; vm_compute; reflexivity. Qed.

(* ---------------------------------------------------------------- C14 *)
(** [items] are the (point, value) pairs of the loop over the region (C01, C05) *)
Theorem C14_find_minimum : forall (r : sregion fnum) items, s_items r = Ok items ->
  exists res, find_minimum r = Ok res /\ first_least items res.
Proof. intros r items H. unfold find_minimum. rewrite H. cbn [bind]. eexists; split; [reflexivity|apply min_fold]. Qed.
Print Assumptions C14_find_minimum.

Theorem C14_find_maximum : forall (r : sregion fnum) items, s_items r = Ok items ->
  exists res, find_maximum r = Ok res /\ first_greatest items res.
Proof. intros r items H. unfold find_maximum. rewrite H. cbn [bind]. eexists; split; [reflexivity|apply max_fold]. Qed.
Print Assumptions C14_find_maximum.

Definition ex_f : arr2 fnum := mk2 2 3 [NaN; Fin 3; Fin (1#2); Fin 7; Fin (1#2); Fin (-2)]%Q.
Example C14_ex : find_minimum (SCluster (SPlain ex_f) ex_p 1) = Ok (Some (1, 2)%Z, Fin (-2)) /\
  find_minimum (SPlain (mk2 1 2 [NaN; PInf])) = Ok (None, PInf) /\
  find_maximum (SCluster (SPlain ex_f) ex_p 0) = Ok (Some (1, 1)%Z, Fin (1#2)).
Proof. repeat split. Qed.

(* ---------------------------------------------------------------- C15 *)
Theorem C15_minimum_value_and_index : forall shape data v idx,
  length data = fold_right Nat.mul 1 shape ->
  minimum_value_and_index shape data = Ok (v, idx) ->
  is_nan v = false /\ In v data /\ (forall y, In y data -> is_nan y = false -> fle v y = true) /\
  Forall2 (fun c len => c < len) idx shape /\
  (exists w, nth_error data (ravel shape idx) = Some w /\ feqb w v = true) /\
  (forall m w, m < ravel shape idx -> nth_error data m = Some w -> feqb w v = false).
Proof. exact minimum_value_and_index_spec. Qed.
Print Assumptions C15_minimum_value_and_index.

Theorem C15_maximum_value_and_index : forall shape data v idx,
  length data = fold_right Nat.mul 1 shape ->
  maximum_value_and_index shape data = Ok (v, idx) ->
  is_nan v = false /\ In v data /\ (forall y, In y data -> is_nan y = false -> fle y v = true) /\
  Forall2 (fun c len => c < len) idx shape /\
  (exists w, nth_error data (ravel shape idx) = Some w /\ feqb w v = true) /\
  (forall m w, m < ravel shape idx -> nth_error data m = Some w -> feqb w v = false).
Proof. exact maximum_value_and_index_spec. Qed.
Print Assumptions C15_maximum_value_and_index.

(** it returns as soon as some entry is not NaN, and raises IndexError when all are *)
Theorem C15_when_it_returns : forall shape data, data <> [] ->
  ((exists y, In y data /\ is_nan y = false) ->
     (exists r, minimum_value_and_index shape data = Ok r) /\ (exists r, maximum_value_and_index shape data = Ok r)) /\
  ((forall y, In y data -> is_nan y = true) ->
     minimum_value_and_index shape data = Raise IndexError /\ maximum_value_and_index shape data = Raise IndexError).
Proof.
  intros shape data Hne. split.
  - intros H. destruct (minimum_value_and_index_ok shape data H) as (v & i & ->).
    destruct (maximum_value_and_index_ok shape data H) as (v' & i' & ->). eauto.
  - apply extrema_all_nan; auto.
Qed.
Print Assumptions C15_when_it_returns.

Example C15_ex : minimum_value_and_index [2; 3] [NaN; Fin 3; Fin (1#2); Fin 7; Fin (1#2); Fin 5] = Ok (Fin (1#2), [0; 2]) /\
  maximum_value_and_index [2; 3] [NaN; Fin 3; Fin (1#2); Fin 7; Fin (1#2); Fin 5] = Ok (Fin 7, [1; 0]) /\
  ravel [2; 3] [1; 0] = 3.
Proof. repeat split. Qed.

(* ---------------------------------------------------------------- C22 *)
Theorem C22_sliding_window : forall A (array : list A) w stride, (0 <= w)%Z -> (1 <= stride)%Z ->
  exists ws, sliding_window array w stride = Ok ws /\
    Z.of_nat (length ws)
      = (if (w <=? Z.of_nat (length array)) then (Z.of_nat (length array) - w) / stride + 1 else 0)%Z /\
    forall n win, nth_error ws n = Some win ->
      (Z.of_nat n * stride + w <= Z.of_nat (length array))%Z /\
      win = firstn (Z.to_nat w) (skipn (n * Z.to_nat stride) array) /\ length win = Z.to_nat w.
Proof. exact @sliding_window_spec. Qed.
Print Assumptions C22_sliding_window.

(** no start that fits is left out *)
Theorem C22_every_fitting_start_present : forall A (array : list A) w stride n, (0 <= w)%Z -> (1 <= stride)%Z ->
  (Z.of_nat n * stride + w <= Z.of_nat (length array))%Z ->
  exists ws, sliding_window array w stride = Ok ws /\ n < length ws.
Proof.
  intros A array w stride n Hw Hs Hn. destruct (sliding_window_spec array w stride Hw Hs) as (ws & E & L & _).
  exists ws. split; auto. replace (w <=? Z.of_nat (length array))%Z with true in L by nia.
  assert (Z.of_nat n <= (Z.of_nat (length array) - w) / stride)%Z by (apply Z.div_le_lower_bound; nia).
  set (q := ((Z.of_nat (length array) - w) / stride)%Z) in *. clearbody q. lia.
Qed.
Print Assumptions C22_every_fitting_start_present.

(** with stride 1 consecutive windows overlap in all but one element *)
Theorem C22_stride_one_overlap : forall A (array : list A) w ws n a b, (1 <= w)%Z ->
  sliding_window array w 1 = Ok ws -> nth_error ws n = Some a -> nth_error ws (S n) = Some b ->
  tl a = removelast b.
Proof.
  intros A array w ws n a b Hw E Ha Hb. destruct (sliding_window_spec array w 1 ltac:(lia) ltac:(lia)) as (ws' & E' & _ & P).
  rewrite E in E'. inversion E'; subst ws'. destruct (P _ _ Ha) as (B1 & -> & _). destruct (P _ _ Hb) as (B2 & -> & _).
  set (m := Z.to_nat w). replace (Z.to_nat 1) with 1 by reflexivity. rewrite !Nat.mul_1_r.
  assert (Hm : S n + m <= length array) by lia. assert (1 <= m) by lia. clearbody m. clear - Hm H.
  destruct m as [|m]; [lia|].
  assert (Hsk : exists x, skipn n array = x :: skipn (S n) array).
  { revert n Hm. induction array as [|x xs IH]; intros n Hm; [cbn in Hm; lia|].
    destruct n; [eexists; reflexivity|]. destruct (IH n) as [z Hz]; [cbn in Hm; lia|]. exists z. exact Hz. }
  rewrite removelast_firstn by (rewrite skipn_length; lia).
  destruct Hsk as [x ->]. reflexivity.
Qed.
Print Assumptions C22_stride_one_overlap.

Theorem C22_stride_zero_raises : forall A (array : list A) w, sliding_window array w 0 = Raise ValueError.
Proof. reflexivity. Qed.
Print Assumptions C22_stride_zero_raises.

Example C22_ex : sliding_window [1; 2; 3; 4; 5; 6; 7] 3 2 = Ok [[1; 2; 3]; [3; 4; 5]; [5; 6; 7]] /\
  sliding_window [1; 2] 3 1 = Ok [].
Proof. split; reflexivity. Qed.
