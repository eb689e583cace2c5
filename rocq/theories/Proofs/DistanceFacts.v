(** Facts about distance matrices. *)
From Coq Require Import ZifyBool ZifyNat String QArith.
From Verif Require Import Base.Py Base.PyFacts Base.Arr Base.ArrFacts Base.Float Base.FloatFacts Model.Region Model.Pool Model.Distance
  Spec.Grid Spec.Partition Spec.Distance Proofs.RegionFacts Proofs.PartitionFacts Proofs.SubsetFacts Proofs.PoolFacts.
Local Notation length := List.length.
Local Close Scope Q_scope.
Local Close Scope string_scope.
Local Open Scope nat_scope.

(* ---------- nested loops over the grid ---------- *)

Lemma foldM_flat_map : forall {A B S} (f : S -> B -> res S) (h : A -> list B) l s,
  foldM f (flat_map h l) s = foldM (fun s a => foldM f (h a) s) l s.
Proof.
  induction l as [ | a l IH ]; intros s; cbn [flat_map foldM]; [ reflexivity | ].
  rewrite foldM_app. destruct (foldM f (h a) s); cbn [bind]; auto.
Qed.

Lemma zrange_0 : forall n, zrange 0 (Z.of_nat n) = map Z.of_nat (seq 0 n).
Proof. intros. unfold zrange. rewrite Z.sub_0_r, Nat2Z.id. apply map_ext. intros. lia. Qed.

Lemma foldM_grid : forall {S} (f : S -> point -> res S) x y s,
  foldM (fun s i => foldM (fun s j => f s (i, j)) (zrange 0 (Z.of_nat y)) s) (zrange 0 (Z.of_nat x)) s
  = foldM f (grid x y) s.
Proof.
  intros S f x y s. unfold grid. rewrite foldM_flat_map, (zrange_0 x), foldM_map.
  apply foldM_ext. intros i st _. rewrite zrange_0, !foldM_map. reflexivity.
Qed.

Lemma list_of_2d_points_grid : forall x y, list_of_2d_points (Z.of_nat x) (Z.of_nat y) = grid x y.
Proof.
  intros. unfold list_of_2d_points, grid. rewrite !zrange_0. rewrite flat_map_concat_map, map_map, <- flat_map_concat_map.
  apply flat_map_ext. intros i. rewrite map_map. reflexivity.
Qed.

(* ---------- filling the rows of a matrix ---------- *)

Lemma replace_nth_middle : forall {A} (l1 l2 : list A) a b, replace_nth (l1 ++ a :: l2) (length l1) b = l1 ++ b :: l2.
Proof. induction l1; cbn; intros; [ reflexivity | rewrite IHl1; reflexivity ]. Qed.

Lemma fill_rows : forall {K} (f : K -> res (list fnum)) (g : K -> list fnum) (pos : K -> Z) n ks pre tail,
  (forall i k, nth_error ks i = Some k -> pos k = Z.of_nat (length pre + i)) ->
  length tail = length ks ->
  (forall k, In k ks -> f k = Ok (g k) /\ length (g k) = n) ->
  foldM (fun M k => row <- f k ;; m_set_row M (pos k) row) ks (Mat n (pre ++ tail)) = Ok (Mat n (pre ++ map g ks)).
Proof.
  intros K f g pos n. induction ks as [ | k ks IH ]; intros pre tail Hpos Hlen Hf.
  - destruct tail; [ reflexivity | discriminate ].
  - destruct tail as [ | t tail ]; [ discriminate | ]. cbn [foldM].
    destruct (Hf k (or_introl eq_refl)) as [ E L ]. rewrite E. cbn [bind].
    unfold m_set_row at 1. rewrite (Hpos 0 k eq_refl), Nat.add_0_r. cbn [m_rows m_cols].
    rewrite norm_index_of_nat by (rewrite app_length; cbn; lia). rewrite L, Nat.eqb_refl. cbn [bind].
    rewrite replace_nth_middle. change (g k :: tail) with ([g k] ++ tail). rewrite app_assoc.
    rewrite IH; [ rewrite <- app_assoc; reflexivity | | cbn in Hlen; lia | intros; apply Hf; right; assumption ].
    intros i k' Hk. rewrite (Hpos (S i) k' Hk), app_length. cbn. lia.
Qed.

Lemma m_get_entry : forall M i j v, entry M i j = Some v <-> m_get M (Z.of_nat i) (Z.of_nat j) = Ok v.
Proof.
  intros M i j v. unfold entry, m_get. split.
  - destruct (nth_error (m_rows M) i) as [ row | ] eqn:E; [ | discriminate ]. intros H.
    rewrite (getitem_in _ _ _ E). cbn [bind]. apply getitem_in. exact H.
  - assert (G : forall {A} (l : list A) n x, getitem l (Z.of_nat n) = Ok x -> nth_error l n = Some x).
    { intros A l n x H. unfold getitem in H. destruct (norm_index (length l) (Z.of_nat n)) as [ m | ] eqn:En; [ | discriminate ].
      assert (m = n) as ->.
      { destruct (Nat.ltb_spec n (length l)) as [ Hl | Hl ].
        - rewrite norm_index_of_nat in En by exact Hl. congruence.
        - exfalso. assert (norm_index (length l) (Z.of_nat n) = None) by (apply norm_index_none; lia). congruence. }
      destruct (nth_error l n); congruence. }
    destruct (getitem (m_rows M) (Z.of_nat i)) as [ row | ] eqn:E; cbn [bind]; [ | discriminate ].
    rewrite (G _ _ _ _ E). apply G.
Qed.

Lemma index_of_encode : forall x y pt, in_grid x y pt -> encode_point y pt = Z.of_nat (index_of y pt) /\ index_of y pt < x * y.
Proof.
  intros x y [ i j ] [ H1 H2 ]. unfold encode_point, index_of. cbn [fst snd] in *. split; [ lia | ].
  apply flat_lt; lia.
Qed.

(* ---------- the serial matrix ---------- *)

Lemma square_map : forall {K} (g : K -> list fnum) ks n, length ks = n -> (forall k, In k ks -> length (g k) = n) -> square n (Mat n (map g ks)).
Proof.
  intros K g ks n Hl Hg. split; [ reflexivity | split; [ rewrite <- Hl; apply map_length | ] ].
  cbn. intros row H. apply in_map_iff in H. destruct H as (k & <- & H). auto.
Qed.

Section Serial.
Context (measure : list fnum -> list fnum -> fnum) (junk : fnum).

Lemma series_array_matrix : forall X,
  exists M, matrix_of_series_array measure junk X = Ok M /\ square (length X) M /\
    forall i j a b, nth_error X i = Some a -> nth_error X j = Some b -> entry M i j = Some (measure a b).
Proof.
  intros X. set (n := length X).
  set (g := fun z => map (measure (nth (Z.to_nat z) X [])) X).
  exists (Mat n (map g (zrange 0 (Z.of_nat n)))). split; [ | split ].
  - unfold matrix_of_series_array, m_empty. fold n.
    rewrite <- (app_nil_l (repeat (repeat junk n) n)).
    rewrite (foldM_ext _ (fun M k => row <- (s <- getitem X k ;; Ok (distances_to_a_series measure s X)) ;; m_set_row M k row))
      by (intros; rewrite bind_assoc; reflexivity).
    erewrite (fill_rows _ g (fun z => z)); [ reflexivity | | | ].
    + intros i k Hk. cbn. assert (i < length (zrange 0 (Z.of_nat n))) by (apply nth_error_Some; congruence).
      rewrite zrange_length in H. rewrite zrange_nth in Hk by lia. injection Hk as <-. lia.
    + rewrite repeat_length, zrange_length. lia.
    + intros k Hk. apply in_zrange in Hk. destruct (nth_error_lt_some X (Z.to_nat k)) as [ a Ha ]; [ unfold n in Hk; lia | ].
      replace k with (Z.of_nat (Z.to_nat k)) at 1 by lia. rewrite (getitem_in _ _ _ Ha). cbn [bind].
      unfold g, distances_to_a_series. rewrite (nth_error_nth _ _ _ Ha), map_length. auto.
  - apply square_map; [ rewrite zrange_length; lia | ]. intros k _. unfold g. apply map_length.
  - intros i j a b Ha Hb. unfold entry. cbn [m_rows]. rewrite nth_error_map.
    assert (i < n) by (apply nth_error_Some; congruence).
    rewrite zrange_nth by lia. cbn [option_map]. unfold g. rewrite nth_error_map, Hb. cbn [option_map].
    replace (Z.to_nat (0 + Z.of_nat i)) with i by lia. rewrite (nth_error_nth _ _ _ Ha). reflexivity.
Qed.

Lemma plain_items : forall d : arr3 fnum, wf3 d ->
  t_items (TPlain d) = Ok (map (fun p => (p, t_ser (TPlain d) p)) (grid (a3x d) (a3y d))).
Proof.
  intros d Hw. unfold t_items. rewrite t_for_spec; [ | exact Hw | apply t_plain_consistent ].
  cbn [snd skipn]. rewrite filter_all by reflexivity. reflexivity.
Qed.
Lemma plain_as_list : forall d : arr3 fnum, wf3 d -> as_list (TPlain d) = Ok (map (t_ser (TPlain d)) (grid (a3x d) (a3y d))).
Proof. intros d Hw. unfold as_list. rewrite plain_items by exact Hw. cbn [bind]. rewrite map_map. reflexivity. Qed.

Lemma region_matrix_eq : forall d : arr3 fnum, wf3 d ->
  matrix_of_region measure junk (TPlain d) =
  Ok (Mat (a3x d * a3y d) (map (fun p => map (fun q => measure (t_ser (TPlain d) p) (t_ser (TPlain d) q)) (grid (a3x d) (a3y d))) (grid (a3x d) (a3y d)))).
Proof.
  intros d Hw. unfold matrix_of_region. rewrite plain_as_list by exact Hw. cbn [bind].
  change (t_x (TPlain d)) with (a3x d). change (t_y (TPlain d)) with (a3y d).
  set (x := a3x d). set (y := a3y d). set (S := map (t_ser (TPlain d)) (grid x y)).
  rewrite (foldM_grid (fun M p => s <- series_at (TPlain d) p ;; m_set_row M (fst p * Z.of_nat y + snd p) (distances_to_a_series measure s S))).
  rewrite (foldM_ext _ (fun M p => row <- (s <- series_at (TPlain d) p ;; Ok (distances_to_a_series measure s S)) ;; m_set_row M (fst p * Z.of_nat y + snd p) row))
    by (intros; rewrite bind_assoc; reflexivity).
  unfold m_empty. rewrite <- (app_nil_l (repeat (repeat junk (x * y)) (x * y))).
  erewrite (fill_rows _ (fun p => map (fun q => measure (t_ser (TPlain d) p) (t_ser (TPlain d) q)) (grid x y)) (fun p => (fst p * Z.of_nat y + snd p)%Z));
    [ reflexivity | | | ].
  - intros i p Hp. cbn. assert (Hi : i < x * y) by (rewrite <- grid_length; apply nth_error_Some; congruence).
    rewrite nth_error_grid in Hp by exact Hi. injection Hp as <-. unfold decode. cbn [fst snd].
    assert (y <> 0) by (intros ->; lia). pose proof (flat_recompose y i H). lia.
  - rewrite repeat_length, grid_length. reflexivity.
  - intros p Hp. apply in_grid_iff in Hp. cbn [series_at].
    assert (E : series3 d (fst p) (snd p) = Ok (t_ser (TPlain d) p)) by (apply (series3_t_ser (TPlain d)); auto).
    rewrite E. cbn [bind]. unfold distances_to_a_series, S. rewrite map_map. split; [ reflexivity | ].
    rewrite map_length, grid_length. reflexivity.
Qed.

Lemma nth_error_grid_index : forall x y p, in_grid x y p -> nth_error (grid x y) (index_of y p) = Some p.
Proof.
  intros x y p Hp. destruct (index_of_encode _ _ _ Hp) as [ _ Hl ]. rewrite nth_error_grid by exact Hl.
  destruct p as [ i j ]. destruct Hp as [ H1 H2 ]. unfold index_of, decode. cbn [fst snd] in *.
  rewrite flat_div, flat_mod by lia. rewrite !Z2Nat.id by lia. reflexivity.
Qed.

Lemma region_matrix : forall d : arr3 fnum, wf3 d ->
  exists M, matrix_of_region measure junk (TPlain d) = Ok M /\ square (a3x d * a3y d) M /\
    forall p q a b, in_grid (a3x d) (a3y d) p -> in_grid (a3x d) (a3y d) q ->
      series_at (TPlain d) p = Ok a -> series_at (TPlain d) q = Ok b ->
      entry M (index_of (a3y d) p) (index_of (a3y d) q) = Some (measure a b).
Proof.
  intros d Hw. rewrite region_matrix_eq by exact Hw. eexists. split; [ reflexivity | split ].
  - apply square_map; [ apply grid_length | ]. intros. rewrite map_length. apply grid_length.
  - intros p q a b Hp Hq Ha Hb. unfold entry. cbn [m_rows].
    rewrite nth_error_map, (nth_error_grid_index _ _ _ Hp). cbn [option_map].
    rewrite nth_error_map, (nth_error_grid_index _ _ _ Hq). cbn [option_map].
    unfold t_ser. cbn [t_data series_at] in *. rewrite Ha, Hb. reflexivity.
Qed.

Lemma region_matrix_scaled : forall r mn mx, matrix_of_region measure junk (TScaled r mn mx) = matrix_of_region measure junk r.
Proof. reflexivity. Qed.

(** a cluster that lacks a point of the grid has no matrix *)
Lemma region_matrix_cluster : forall (p : crisp) (d : arr3 fnum) x y c pt l,
  valid_partition p x y -> wf3 d -> a3x d = x -> a3y d = y ->
  in_grid x y pt -> label_at p pt l -> l <> c ->
  matrix_of_region measure junk (TCluster (TPlain d) p c) = Raise ValueError.
Proof.
  intros p d x y c pt l Hv Hd Ex Ey Hpt Hl Hne. unfold matrix_of_region.
  destruct (cluster_t_items p d x y c Hv Hd Ex Ey) as (items & E1 & E2 & E3).
  unfold as_list. rewrite E1. cbn [bind].
  change (t_x (TCluster (TPlain d) p c)) with (a3x d). change (t_y (TCluster (TPlain d) p c)) with (a3y d). rewrite Ex, Ey.
  set (S := map snd items).
  rewrite (foldM_grid (fun M q => s <- series_at (TCluster (TPlain d) p c) q ;; m_set_row M (fst q * Z.of_nat y + snd q) (distances_to_a_series measure s S))).
  assert (G : forall pts, (forall q, In q pts -> in_grid x y q) -> In pt pts -> forall M, length (m_rows M) = x * y ->
    foldM (fun M q => s <- series_at (TCluster (TPlain d) p c) q ;; m_set_row M (fst q * Z.of_nat y + snd q) (distances_to_a_series measure s S)) pts M = Raise ValueError).
  { induction pts as [ | q pts IH ]; intros Hin Hpts M HM; [ destruct Hpts | ]. cbn [foldM].
    assert (Hq : in_grid x y q) by (apply Hin; left; reflexivity).
    destruct (label_of_spec p x y q Hv Hq) as [ Hlq _ ].
    destruct (cluster_series_at p (TPlain d) c q _ Hlq) as [ C1 C2 ].
    destruct (Z.eq_dec (label_of p q) c) as [ Ec | Ec ]; [ | rewrite (C2 Ec); reflexivity ].
    rewrite (C1 Ec). cbn [series_at].
    destruct (series3_ok d (fst q) (snd q)) as (v & Ev & _); [ exact Hd | rewrite Ex; apply Hq | rewrite Ey; apply Hq | ].
    rewrite Ev. cbn [bind].
    assert (Hpt' : In pt pts).
    { destruct Hpts as [ -> | H ]; [ | exact H ]. exfalso. apply Hne. unfold label_at in Hl, Hlq. congruence. }
    unfold m_set_row at 1. destruct (index_of_encode _ _ _ Hq) as [ Ei Li ]. unfold encode_point in Ei.
    rewrite Ei, norm_index_of_nat by lia.
    assert (Hrest : forall q0, In q0 pts -> in_grid x y q0) by (intros; apply Hin; right; assumption).
    destruct (length (distances_to_a_series measure v S) =? m_cols M); cbn [bind].
    - apply IH; auto. cbn. rewrite replace_nth_length. exact HM.
    - destruct (distances_to_a_series measure v S) as [ | w [ | ] ]; cbn [bind]; try reflexivity.
      apply IH; auto. cbn. rewrite replace_nth_length. exact HM. }
  apply G.
  - intros q Hq. apply in_grid_iff. exact Hq.
  - apply in_grid_iff. exact Hpt.
  - cbn. apply repeat_length.
Qed.
End Serial.

(* ---------- the parallel matrix ---------- *)

Section Parallel.
Context (measure : list fnum -> list fnum -> fnum).

Lemma fadd_0_l : forall v, feqv (fadd (Fin 0) v) v.
Proof. intros [ | | | q ]; cbn; auto. rewrite Qplus_0_l. reflexivity. Qed.
Lemma fadd_0_r : forall v, feqv (fadd v (Fin 0)) v.
Proof. intros [ | | | q ]; cbn; auto. rewrite Qplus_0_r. reflexivity. Qed.

Lemma slot_id : forall r k, k < (t_x r * t_y r) * (t_x r * t_y r) -> inter_points_slot r k = k.
Proof.
  intros r k H. unfold inter_points_slot. cbn zeta. set (n := t_x r * t_y r) in *.
  apply flat_recompose. intros E. rewrite E in H. lia.
Qed.

Lemma tasks_nodup : forall r, NoDup (map (inter_points_slot r) (seq 0 ((t_x r * t_y r) * (t_x r * t_y r)))).
Proof.
  intros r. rewrite (map_ext_in _ (fun k => k)), map_id by (intros k Hk; apply in_seq in Hk; apply slot_id; lia).
  apply seq_NoDup.
Qed.
Lemma tasks_in_range : forall r k, In k (seq 0 ((t_x r * t_y r) * (t_x r * t_y r))) ->
  inter_points_slot r k < length (repeat (Fin 0) ((t_x r * t_y r) * (t_x r * t_y r))).
Proof. intros r k Hk. apply in_seq in Hk. rewrite slot_id, repeat_length by lia. lia. Qed.

(** what the task with a given index computes *)
Definition lower_triangle (d : arr3 fnum) (i j : nat) : fnum :=
  if i <=? j then Fin 0 else measure (t_ser (TPlain d) (decode (a3y d) i)) (t_ser (TPlain d) (decode (a3y d) j)).

Lemma task_value : forall r, wf3 (t_data r) -> forall k, k < (t_x r * t_y r) * (t_x r * t_y r) ->
  inter_points_task measure r k = Ok (lower_triangle (t_data r) (k / (t_x r * t_y r)) (k mod (t_x r * t_y r))).
Proof.
  intros r Hw k Hk. unfold inter_points_task, dtw_i_j, lower_triangle. cbn zeta. set (n := t_x r * t_y r) in *.
  assert (Hn : n <> 0) by (intros E; rewrite E in Hk; lia).
  destruct (k / n <=? k mod n); [ reflexivity | ].
  rewrite plain_as_list by exact Hw. cbn [bind].
  assert (H1 : k / n < n) by (apply flat_div_lt with (y := n); exact Hk).
  assert (H2 : k mod n < n) by (apply Nat.mod_upper_bound; exact Hn).
  change (a3x (t_data r)) with (t_x r). change (a3y (t_data r)) with (t_y r).
  assert (G : forall i, i < n -> getitem (map (t_ser (TPlain (t_data r))) (grid (t_x r) (t_y r))) (Z.of_nat i) = Ok (t_ser (TPlain (t_data r)) (decode (t_y r) i))).
  { intros i Hi. apply getitem_in. rewrite nth_error_map, nth_error_grid by exact Hi. reflexivity. }
  rewrite (G _ H1), (G _ H2). reflexivity.
Qed.

Lemma parallel_output : forall r n_proc s, wf3 (t_data r) -> 0 < n_proc ->
  inter_points_steps measure r (inter_points_start n_proc r) s -> pool_done s ->
  let n := t_x r * t_y r in
  exists out, pool_outcome s = Ok out /\ length out = n * n /\
    forall i j, i < n -> j < n -> nth_error out (i * n + j) = Some (lower_triangle (t_data r) i j).
Proof.
  intros r n_proc s Hw Hp Hr Hd n. unfold inter_points_steps, inter_points_start in Hr. fold n in Hr.
  pose proof (tasks_nodup r) as Hnd. pose proof (tasks_in_range r) as Hrange. fold n in Hnd, Hrange.
  destruct (pool_outcome s) as [ out | e ] eqn:Eo.
  - destruct (pool_result _ _ _ _ _ 50 _ _ ltac:(lia) Hnd Hrange Hr Hd Eo) as (Hlen & Hval & _).
    exists out. rewrite repeat_length in Hlen. split; [ reflexivity | split; [ exact Hlen | ] ].
    intros i j Hi Hj. assert (Hk : i * n + j < n * n) by (apply flat_lt; auto).
    destruct (Hval (i * n + j)) as (v & Hv & Hn); [ apply in_seq; lia | ].
    rewrite slot_id in Hn by exact Hk. rewrite task_value in Hv by auto. fold n in Hv.
    rewrite flat_div, flat_mod in Hv by exact Hj. congruence.
  - exfalso. destruct (pool_failure _ _ _ _ _ 50 _ ltac:(lia) Hnd Hrange Hr Hd) as [ H _ ].
    destruct (H _ Eo) as (k & Hk & He). apply in_seq in Hk. rewrite task_value in He by (auto; fold n; lia). discriminate.
Qed.

Lemma parallel_matrix : forall r n_proc s, wf3 (t_data r) -> 0 < n_proc ->
  inter_points_steps measure r (inter_points_start n_proc r) s -> pool_done s ->
  let n := t_x r * t_y r in
  exists M, matrix_parallel r s = Ok M /\ square n M /\
    forall i j, i < n -> j < n -> entry M i j = Some (fadd (lower_triangle (t_data r) i j) (lower_triangle (t_data r) j i)).
Proof.
  intros r n_proc s Hw Hp Hr Hd n.
  destruct (parallel_output r n_proc s Hw Hp Hr Hd) as (out & Eo & Hlen & Hval). fold n in Hlen, Hval.
  unfold matrix_parallel. rewrite Eo. cbn [bind]. fold n. eexists. split; [ reflexivity | ].
  unfold add_transpose. cbn [m_cols m_rows]. rewrite map_length, seq_length. split.
  - apply square_map; [ apply seq_length | ]. intros. rewrite map_length. apply seq_length.
  - intros i j Hi Hj. unfold entry. cbn [m_rows]. rewrite nth_error_map, nth_error_seq.
    replace (i <? n) with true by lia. cbn [option_map Nat.add]. rewrite nth_error_map, nth_error_seq.
    replace (j <? n) with true by lia. cbn [option_map Nat.add]. do 2 f_equal.
    + rewrite (nth_error_nth (x := firstn n (skipn (i * n) out)) _ _ []).
      * apply nth_error_nth. rewrite nth_error_firstn, nth_error_skipn. replace (j <? n) with true by lia. apply Hval; auto.
      * rewrite nth_error_map, nth_error_seq. replace (i <? n) with true by lia. reflexivity.
    + rewrite (nth_error_nth (x := firstn n (skipn (j * n) out)) _ _ []).
      * apply nth_error_nth. rewrite nth_error_firstn, nth_error_skipn. replace (i <? n) with true by lia. apply Hval; auto.
      * rewrite nth_error_map, nth_error_seq. replace (j <? n) with true by lia. reflexivity.
Qed.

(** off the diagonal: the measure with the later point first; on it: zero *)
Lemma lower_sum : forall d i j,
  feqv (fadd (lower_triangle d i j) (lower_triangle d j i))
       (if i =? j then Fin 0
        else measure (t_ser (TPlain d) (decode (a3y d) (Nat.max i j))) (t_ser (TPlain d) (decode (a3y d) (Nat.min i j)))).
Proof.
  intros d i j. unfold lower_triangle. destruct (Nat.eqb_spec i j) as [ -> | Hne ].
  - rewrite Nat.leb_refl. cbn. reflexivity.
  - destruct (Nat.leb_spec i j) as [ H | H ].
    + replace (j <=? i) with false by lia. rewrite Nat.max_r, Nat.min_l by lia. apply fadd_0_l.
    + replace (j <=? i) with true by lia. rewrite Nat.max_l, Nat.min_r by lia. apply fadd_0_r.
Qed.
End Parallel.
