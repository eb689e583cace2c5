(** Constructing partitions (C85), rectangles in the dataset (C86), flat arrays (C87), the RMSE distance (C88), names of
    region files (C89). *)
From Coq Require Import String ZifyBool ZifyNat.
From Verif Require Import Base.Py Base.PyFacts Base.Arr Base.ArrFacts Base.Str Base.StrFacts Base.Float Base.FloatFacts Model.Region Model.Models Model.Distance Model.Clustering
  Model.Arrays Model.Solver Model.FuzzyMask Spec.Grid Spec.Partition Spec.Rect Spec.Solver Spec.SolverFiles Proofs.ArraysFacts Proofs.RegionFacts Proofs.PartitionFacts Proofs.NameFacts Proofs.ErrorFacts Proofs.BasicsFacts Props.Clustering.
Local Notation length := List.length.
Local Open Scope nat_scope.

(** C85: a partition can be made from a flat list of labels exactly if the list is not empty and has one label for each
    point; it then has the label at place i * y_len + j at point (i, j) and one cluster more than the largest label. *)
Theorem C85_from_labels : forall l x y, 
  (l <> [] -> length l = x * y -> exists p m, from_membership_array l x y = Ok p /\ In m l /\ (forall v, In v l -> (v <= m)%Z) /\ pk p = (m + 1)%Z /\
     (forall i j, i < x -> j < y -> exists v, nth_error l (i * y + j) = Some v /\ label_at p (Z.of_nat i, Z.of_nat j) v) /\
     ((forall v, In v l -> (0 <= v)%Z) -> valid_partition p x y)) /\
  (l = [] \/ length l <> x * y -> from_membership_array l x y = Raise ValueError).
Proof.
  intros l x y. unfold from_membership_array. split.
  - intros Hne Hl. destruct (np_max_int l) as [m|e] eqn:Em; [|destruct l; [contradiction|discriminate]].
    destruct (np_max_int_spec l m Em) as [Hin Hmax]. cbn [bind].
    unfold reshape2. rewrite Hl, Nat.eqb_refl. cbn [bind]. unfold mk_crisp. cbn [a2d]. rewrite Em. cbn [bind]. rewrite Z.eqb_refl. cbn [py_assert bind].
    assert (Lab : forall i j, i < x -> j < y -> exists v, nth_error l (i * y + j) = Some v /\ get2 (mk2 x y l) (Z.of_nat i) (Z.of_nat j) = Ok v).
    { intros i j Hi Hj. rewrite get2_nat by auto. unfold at2. cbn [a2d a2y].
      destruct (nth_error l (i * y + j)) as [v|] eqn:E; [exists v; auto|]. apply nth_error_None in E.
      assert (i * y + j < x * y) by nia. lia. }
    exists (Crisp (mk2 x y l) (m + 1)), m. split; auto. split; auto. split; auto. split; auto. split; [exact Lab|].
    intros H0. unfold valid_partition. cbn [labels a2x a2y pk]. split; auto. split; auto. split; [exact Hl|]. split.
    + intros pt v [Hx Hy] Hv. unfold label_at in Hv. cbn [labels] in Hv.
      destruct (Lab (Z.to_nat (fst pt)) (Z.to_nat (snd pt))) as (w & En & Ew); [lia|lia|]. rewrite !Z2Nat.id in Ew by lia.
      assert (w = v) by congruence. subst w. apply nth_error_In in En. specialize (H0 v En). specialize (Hmax v En). lia.
    + apply In_nth_error in Hin. destruct Hin as [n Hn]. assert (Ln : n < x * y) by (rewrite <- Hl; apply nth_error_Some; congruence).
      exists (Z.of_nat (n / y), Z.of_nat (n mod y)). pose proof (flat_div_lt x y n Ln). pose proof (flat_mod_lt x y n Ln). split.
      * split; cbn [fst snd]; (split; [apply Nat2Z.is_nonneg | apply Nat2Z.inj_lt; assumption]).
      * unfold label_at. cbn [fst snd labels pk]. destruct (Lab (n / y) (n mod y)) as (w & En & Ew); auto. rewrite flat_recompose in En by (intros ->; lia).
        rewrite Ew. f_equal. rewrite Hn in En. assert (m = w) by congruence. lia.
  - intros [->|Hl]; [reflexivity|]. destruct (np_max_int l) as [m|e] eqn:Em; cbn [bind].
    + unfold reshape2. apply Nat.eqb_neq in Hl. rewrite Hl. reflexivity.
    + destruct l; [cbn in Em; congruence|discriminate].
Qed.
Print Assumptions C85_from_labels.

(** C85: the constructor accepts a label matrix and a number of clusters exactly if the number is one more than the
    largest label; other numbers fail with AssertionError and an empty matrix with ValueError. *)
Theorem C85_number_checked : forall mat k,
  ((exists m, In m (a2d mat) /\ (forall v, In v (a2d mat) -> (v <= m)%Z) /\ k = (m + 1)%Z) -> mk_crisp mat k = Ok (Crisp mat k)) /\
  (a2d mat <> [] -> ~ (exists m, In m (a2d mat) /\ (forall v, In v (a2d mat) -> (v <= m)%Z) /\ k = (m + 1)%Z) -> mk_crisp mat k = Raise AssertionError) /\
  (a2d mat = [] -> mk_crisp mat k = Raise ValueError).
Proof.
  intros mat k. unfold mk_crisp. split; [|split].
  - intros (m & Hin & Hmax & ->). destruct (np_max_int (a2d mat)) as [m'|] eqn:E; [|destruct (a2d mat); [contradiction|discriminate]].
    destruct (np_max_int_spec _ _ E) as [H1 H2]. specialize (H2 m Hin). specialize (Hmax m' H1). assert (m' = m) by lia. subst m'.
    cbn [bind]. rewrite Z.eqb_refl. reflexivity.
  - intros Hne Hno. destruct (np_max_int (a2d mat)) as [m'|] eqn:E; [|destruct (a2d mat); [contradiction|discriminate]].
    destruct (np_max_int_spec _ _ E) as [H1 H2]. cbn [bind]. destruct (Z.eqb_spec k (m' + 1)) as [->|]; [|reflexivity]. exfalso. apply Hno. exists m'. auto.
  - intros ->. reflexivity.
Qed.
Print Assumptions C85_number_checked.

(** C85, not true: the check does not make sure that every label from 0 to k-1 is present, so a partition can have an
    empty cluster; and it accepts negative labels, so a point can be in no cluster at all. *)
Theorem C85_all_clusters_present_refuted : exists p, from_membership_array [0; 2; 2; 0]%Z 2 2 = Ok p /\ pk p = 3%Z /\
  forall pt, in_grid 2 2 pt -> ~ label_at p pt 1.
Proof.
  eexists. split; [reflexivity|]. split; [reflexivity|]. intros [a b] [Ha Hb]. unfold label_at. cbn [fst snd labels] in *.
  assert (a = 0 \/ a = 1)%Z as [-> | ->] by lia; assert (b = 0 \/ b = 1)%Z as [-> | ->] by lia; cbn; discriminate.
Qed.
Print Assumptions C85_all_clusters_present_refuted.
Theorem C85_every_point_in_a_cluster_refuted : exists p, from_membership_array [0; -1; 1; 0]%Z 2 2 = Ok p /\ pk p = 2%Z /\
  forall c, (0 <= c < pk p)%Z -> is_member p (0, 1)%Z c = Ok false.
Proof.
  eexists. split; [reflexivity|]. split; [reflexivity|]. intros c Hc. assert (Hd : (0 <= c < 2)%Z) by exact Hc. assert (c = 0 \/ c = 1)%Z as [-> | ->] by lia; reflexivity.
Qed.
Print Assumptions C85_every_point_in_a_cluster_refuted.
Example C85_ex : exists p, from_membership_array [0; 1; 1; 2; 0; 2]%Z 2 3 = Ok p /\ pk p = 3%Z /\ valid_partition p 2 3 /\ label_at p (1, 0)%Z 2 /\
  mk_crisp (mk2 2 3 [0; 1; 1; 2; 0; 2]%Z) 4 = Raise AssertionError /\ from_membership_array [0; 1]%Z 2 3 = Raise ValueError.
Proof.
  destruct (C85_from_labels [0; 1; 1; 2; 0; 2]%Z 2 3) as [H _]. destruct (H ltac:(discriminate) eq_refl) as (p & m & E & _ & _ & _ & L & V).
  exists p. split; [exact E|]. split; [injection E as <-; reflexivity|]. split; [apply V; intros v Hv; cbn in Hv; intuition lia|].
  split; [|split; reflexivity]. destruct (L 1 0 ltac:(lia) ltac:(lia)) as (v & Ev & Lv). injection Ev as <-. exact Lv.
Qed.


(** C86: a rectangle given relative to the region, seen in the dataset: it has the same extent, and holds exactly the
    absolute positions of the points of the rectangle. *)
Theorem C86_absolute_rectangle : forall reg r, let a := absolute_coordinates_of_region reg r in
  (x2 a - x1 a = x2 r - x1 r)%Z /\ (y2 a - y1 a = y2 r - y1 r)%Z /\
  (forall pt, (x1 r <= fst pt < x2 r /\ y1 r <= snd pt < y2 r)%Z <->
     (x1 a <= fst (absolute_position_of_point reg pt) < x2 a /\ y1 a <= snd (absolute_position_of_point reg pt) < y2 a)%Z) /\
  (forall q, (x1 a <= fst q < x2 a /\ y1 a <= snd q < y2 a)%Z ->
     exists pt, (x1 r <= fst pt < x2 r /\ y1 r <= snd pt < y2 r)%Z /\ q = absolute_position_of_point reg pt) /\
  (forall x y, rect_in reg x y -> (0 <= x1 r)%Z -> (x1 r <= x2 r)%Z -> (x2 r <= x2 reg - x1 reg)%Z -> (0 <= y1 r)%Z -> (y1 r <= y2 r)%Z -> (y2 r <= y2 reg - y1 reg)%Z ->
     rect_in a x y).
Proof.
  intros reg r a. subst a. unfold absolute_coordinates_of_region, absolute_position_of_point, rect_in. cbn [fst snd x1 x2 y1 y2].
  split; [lia|]. split; [lia|]. split; [intros [px py]; cbn [fst snd]; lia|]. split.
  - intros [qx qy] H. cbn [fst snd] in *. exists (qx - x1 reg, qy - y1 reg)%Z. cbn [fst snd]. split; [lia|]. f_equal; lia.
  - intros x y H. lia.
Qed.
Print Assumptions C86_absolute_rectangle.
Example C86_example : absolute_coordinates_of_region (Rect 40 50 80 95) (Rect 1 3 2 7) = Rect 41 43 82 87.
Proof. reflexivity. Qed.

(** C87: as_array lists the values of a region in row-major order, and create_from_1d undoes it; lists of another length
    are rejected. *)
Theorem C87_flat_arrays : forall {A} (l : list A) x y,
  (length l = x * y -> exists r, create_from_1d l x y = Ok r /\ as_array r = l /\ s_x r = x /\ s_y r = y /\
     forall i j, i < x -> j < y -> exists v, nth_error l (i * y + j) = Some v /\ value_at r (Z.of_nat i, Z.of_nat j) = Ok v) /\
  (length l <> x * y -> create_from_1d l x y = Raise ValueError).
Proof.
  intros A l x y. unfold create_from_1d, reshape2. split; intros Hl.
  - rewrite Hl, Nat.eqb_refl. cbn [bind]. eexists. split; [reflexivity|]. split; [reflexivity|]. split; [reflexivity|]. split; [reflexivity|].
    intros i j Hi Hj. cbn [value_at fst snd]. rewrite get2_nat by auto. unfold at2. cbn [a2d a2y].
    destruct (nth_error l (i * y + j)) as [v|] eqn:E; [exists v; auto|]. apply nth_error_None in E. assert (i * y + j < x * y) by nia. lia.
  - apply Nat.eqb_neq in Hl. rewrite Hl. reflexivity.
Qed.
Print Assumptions C87_flat_arrays.
Theorem C87_round_trip : forall {A} (d : arr2 A), wf2 d -> create_from_1d (as_array (SPlain d)) (a2x d) (a2y d) = Ok (SPlain d).
Proof.
  intros A [x y l] Hw. unfold wf2 in Hw. cbn [a2x a2y a2d] in *. unfold create_from_1d, as_array, reshape2. cbn [s_data a2d a2x a2y]. rewrite Hw, Nat.eqb_refl. reflexivity.
Qed.
Print Assumptions C87_round_trip.
Example C87_ex : exists r, create_from_1d [1; 2; 3; 4; 5; 6]%Z 2 3 = Ok r /\ value_at r (1, 0)%Z = Ok 4%Z /\ as_array r = [1; 2; 3; 4; 5; 6]%Z /\
  create_from_1d [1; 2; 3]%Z 2 3 = Raise ValueError.
Proof. eexists. split; [reflexivity|]. repeat split. Qed.


(** C88: the RMSE distance does not depend on the order of its arguments; it is NaN exactly if a sample is (for a square
    root that keeps numbers numbers, and samples that are not infinite); a series has distance sqrt(0) to itself. *)
Theorem C88_symmetric : forall sqrt a b, rmse_measure sqrt a b = rmse_measure sqrt b a.
Proof.
  intros sqrt a b. unfold rmse_measure. rewrite (orb_comm (existsb is_nan b)). destruct (existsb is_nan a || existsb is_nan b); auto. f_equal.
  f_equal. revert b. induction a as [|u a IH]; intros [|v b]; cbn [combine map]; auto. rewrite IH. f_equal.
  destruct u as [| | |p], v as [| | |q]; try reflexivity. cbn. f_equal. destruct p as [n d], q as [n' d']. unfold QArith_base.Qminus, QArith_base.Qplus, QArith_base.Qopp, QArith_base.Qmult.
  cbn [QArith_base.Qnum QArith_base.Qden]. rewrite (Pos.mul_comm d' d). f_equal. ring.
Qed.
Print Assumptions C88_symmetric.
Theorem C88_numbers : forall sqrt (a b : list QArith_base.Q), a <> [] -> length a = length b -> exists q,
  rmse_measure sqrt (map Fin a) (map Fin b) = sqrt (Fin q) /\
  QArith_base.Qeq (QArith_base.Qmult q (QArith_base.inject_Z (Z.of_nat (length a))))
    (qsum (map (fun '(u, v) => QArith_base.Qmult (QArith_base.Qminus u v) (QArith_base.Qminus u v)) (combine a b))) /\
  QArith_base.Qle 0 q /\ (QArith_base.Qeq q 0 <-> Forall2 QArith_base.Qeq a b).
Proof. exact rmse_numbers. Qed.
Print Assumptions C88_numbers.
Theorem C88_nan : forall sqrt a b, In NaN a \/ In NaN b -> rmse_measure sqrt a b = NaN.
Proof.
  intros sqrt a b H. unfold rmse_measure. replace (existsb is_nan a || existsb is_nan b) with true; auto. symmetry. apply orb_true_iff.
  destruct H as [H|H]; [left|right]; apply existsb_exists; exists NaN; auto.
Qed.
Print Assumptions C88_nan.
Example C88_example : rmse_measure (fun v => v) [Fin 3%Q; Fin 4%Q] [Fin 0%Q; Fin 0%Q] = Fin (25 # 2).
Proof. reflexivity. Qed.

(** C89: two regions of the same dataset directory have the same dataset file exactly if they have the same name, years,
    samples per day and scaling, and the same goes for their distance files; the rectangle is not in the name. *)
Theorem C89_region_files : forall r r', rm_dataset_dir r = rm_dataset_dir r' ->
  (dataset_filename r = dataset_filename r' <-> same_region r r') /\
  (distances_filename r = distances_filename r' <-> same_region r r').
Proof.
  intros r r' Hd. unfold dataset_filename, distances_filename. rewrite Hd. split; split; intros E.
  - apply sapp_inj_l in E. apply (sapp_inj_l "/") in E. apply sapp_inj_r in E. apply rmeta_repr_inj; auto.
  - rewrite (same_region_repr _ _ E). reflexivity.
  - apply sapp_inj_l in E. apply (sapp_inj_l "/distances_") in E. apply sapp_inj_r in E. apply rmeta_repr_inj; auto.
  - rewrite (same_region_repr _ _ E). reflexivity.
Qed.
Print Assumptions C89_region_files.

(** C89: the dataset of one region and the distances of another share a file exactly if the first is named like the
    second with "distances_" in front, and they agree in years, samples per day and scaling. *)
Theorem C89_dataset_and_distances : forall r r', rm_dataset_dir r = rm_dataset_dir r' ->
  (dataset_filename r = distances_filename r' <->
   rm_name r = ("distances_" ++ rm_name r')%string /\ rm_start r = rm_start r' /\ rm_end r = rm_end r' /\ rm_spd r = rm_spd r' /\ rm_scaled r = rm_scaled r').
Proof.
  intros r r' Hd. unfold dataset_filename, distances_filename. rewrite Hd.
  pose (r'' := RMeta ("distances_" ++ rm_name r')%string (rm_region r') (rm_start r') (rm_end r') (rm_spd r') (rm_scaled r') (rm_dataset_dir r')).
  assert (R : rmeta_repr r'' = ("distances_" ++ rmeta_repr r')%string) by (unfold rmeta_repr; cbn [r'' rm_name rm_start rm_end rm_spd rm_scaled]; rewrite !sapp_assoc; reflexivity).
  assert (T : ("/distances_" ++ rmeta_repr r' ++ ".npy" = "/" ++ rmeta_repr r'' ++ ".npy")%string) by (rewrite R, sapp_assoc; reflexivity).
  rewrite T. split; intros E.
  - apply sapp_inj_l in E. apply (sapp_inj_l "/") in E. apply sapp_inj_r in E. apply rmeta_repr_inj in E. exact E.
  - rewrite (same_region_repr r r''); auto.
Qed.
Print Assumptions C89_dataset_and_distances.
Example C89_example : let r := RMeta "sp_small"%string (Rect 40 50 50 60) 2014 2014 4 true "raw"%string in
  dataset_filename r = "raw/sp_small_2014_2014_4spd_scaled.npy"%string /\ distances_filename r = "raw/distances_sp_small_2014_2014_4spd_scaled.npy"%string /\
  dataset_filename (RMeta "sp_small"%string (Rect 0 5 0 5) 2014 2014 4 true "raw"%string) = dataset_filename r.
Proof. vm_compute. auto. Qed.

(** C51: whatever the number of neighbours and the way they are selected, a k-NN forecast has the asked length; so the
    theorems on the solver (C58) apply to k-NN models, and to models of the mean. *)
Theorem C51_asked_length : forall measure argpartition, forecasts_fit (knn_kind measure argpartition).
Proof.
  intros measure argpartition [k series] len f H. cbn [knn_kind forecast_from_model] in H. unfold predict_future_values_with_knn in H. 
  destruct (sliding_window _ _ _); [|discriminate]. cbn [bind] in H. destruct (getitem _ _); [|discriminate]. cbn [bind] in H.
  destruct (find_k_nearest_neighbors _ _ _ _ _); [|discriminate]. cbn [bind] in H. destruct (take_rows _ _); [|discriminate]. cbn [bind] in H.
  assert (f = mean_axis0 len a2) by congruence. subst f. unfold mean_axis0. rewrite map_length, seq_length. reflexivity.
Qed.
Print Assumptions C51_asked_length.

(** C48: without metadata, trying to load the matrix loads nothing and changes nothing; with metadata it is the load. *)
Theorem C48_try_load : forall env o, try_load_distance_matrix env None o = (Ok None, o) /\
  forall m, try_load_distance_matrix env (Some m) o = load_distance_matrix_md env (Some m) o.
Proof. intros env o. split; reflexivity. Qed.
Print Assumptions C48_try_load.

(** C33: the clone of a mask exists and is equal to it. *)
Theorem C33_clone : forall u c t m, mk_fmask u c t = Ok m -> fmask_clone m = Ok m /\ fm_u m = u /\ fm_cluster m = c /\ fm_threshold m = t.
Proof.
  intros u c t m H. assert (E : m = FMask u c t).
  { unfold mk_fmask in H. repeat (destruct (py_assert _); [cbn [bind] in H|discriminate]). congruence. }
  subst m. unfold fmask_clone. cbn [fm_u fm_cluster fm_threshold]. auto.
Qed.
Print Assumptions C33_clone.
