(** C34, C45-C49, C76: distance matrices, the distance measure object, centroid, intra-cluster cost. *)
From Coq Require Import ZifyBool ZifyNat String QArith.
From Verif Require Import Base.Py Base.PyFacts Base.Arr Base.ArrFacts Base.Float Base.FloatFacts Model.Region Model.Pool Model.Distance
  Spec.Grid Spec.Partition Spec.Distance
  Proofs.RegionFacts Proofs.PartitionFacts Proofs.SubsetFacts Proofs.PoolFacts Proofs.DistanceFacts Proofs.DistanceObjFacts Proofs.KMedoidsFacts.
Local Notation length := List.length.
Local Close Scope Q_scope.
Local Close Scope string_scope.
Local Open Scope nat_scope.

(* ---------------------------------------------------------------- examples used below *)

(** three series of length 2, on a 1-by-3 grid *)
Definition ex_d : arr3 fnum := mk3 2 1 3 [Fin 0; Fin 1; Fin 5; Fin 0; Fin 3; Fin 5].
(** a symmetric measure: |a0 - b0| + |a1 - b1| *)
Definition ex_measure (a b : list fnum) : fnum := fsum (map (fun '(u, v) => fabs (fsub u v)) (combine a b)).
Definition ex_matrix : mat := Mat 3 [[Fin 0; Fin 4; Fin 10]; [Fin 4; Fin 0; Fin 6]; [Fin 10; Fin 6; Fin 0]].
Definition ex_other : mat := Mat 3 [[Fin 0; Fin 1; Fin 1]; [Fin 1; Fin 0; Fin 1]; [Fin 1; Fin 1; Fin 0]].
(** the norm of the examples: |dx| + |dy| *)
Definition ex_env : denv :=
  DEnv (fun f => if String.eqb f "raw"%string then Ok ex_matrix else if String.eqb f "other"%string then Ok ex_other else Raise IOError)
       ex_measure (fun dx dy => Fin (inject_Z (Z.abs dx + Z.abs dy))) NaN.
Definition ex_region : rect := Rect 7 8 20 23.
(** clusters {0, 2} and {1} *)
Definition ex_p : crisp := Crisp (mk2 1 3 [0; 1; 0]%Z) 2.

Lemma ex_wf : wf3 ex_d. Proof. reflexivity. Qed.
Lemma ex_square : square 3 ex_matrix.
Proof. split; [ reflexivity | split; [ reflexivity | ] ]. intros row [ <- | [ <- | [ <- | [] ] ] ]; reflexivity. Qed.

(* ---------------------------------------------------------------- C45 *)
Theorem C45_serial_matrix : forall measure junk (d : arr3 fnum), wf3 d ->
  exists M, matrix_of_region measure junk (TPlain d) = Ok M /\ square (a3x d * a3y d) M /\
    forall p q a b, in_grid (a3x d) (a3y d) p -> in_grid (a3x d) (a3y d) q ->
      series_at (TPlain d) p = Ok a -> series_at (TPlain d) q = Ok b ->
      entry M (index_of (a3y d) p) (index_of (a3y d) q) = Some (measure a b).
Proof. exact region_matrix. Qed.
Print Assumptions C45_serial_matrix.

Theorem C45_scaled_region : forall measure junk r mn mx,
  matrix_of_region measure junk (TScaled r mn mx) = matrix_of_region measure junk r.
Proof. exact region_matrix_scaled. Qed.
Print Assumptions C45_scaled_region.

Theorem C45_series_array : forall measure junk X,
  exists M, matrix_of_series_array measure junk X = Ok M /\ square (length X) M /\
    forall i j a b, nth_error X i = Some a -> nth_error X j = Some b -> entry M i j = Some (measure a b).
Proof. exact series_array_matrix. Qed.
Print Assumptions C45_series_array.

(** a series with a missing value is at distance NaN from everything; otherwise the distance is dtw *)
Theorem C45_missing_values : forall dtw a b,
  (In NaN a \/ In NaN b -> dtw_measure dtw a b = NaN) /\
  (~ In NaN a -> ~ In NaN b -> dtw_measure dtw a b = dtw a b).
Proof.
  assert (H : forall l, existsb is_nan l = true <-> In NaN l).
  { intros l. rewrite existsb_exists. split.
    - intros (x & Hx & E). destruct x; try discriminate. exact Hx.
    - intros Hx. exists NaN. auto. }
  intros dtw a b. unfold dtw_measure. split.
  - intros [ Ha | Hb ].
    + apply H in Ha. rewrite Ha. reflexivity.
    + apply H in Hb. rewrite Hb, orb_true_r. reflexivity.
  - intros Ha Hb. destruct (existsb is_nan a) eqn:Ea; [ elim Ha; apply H; exact Ea | ].
    destruct (existsb is_nan b) eqn:Eb; [ elim Hb; apply H; exact Eb | ]. reflexivity.
Qed.
Print Assumptions C45_missing_values.

(** the matrix of a cluster that misses a point of the grid cannot be computed *)
Theorem C45_cluster_has_no_matrix : forall measure junk (p : crisp) (d : arr3 fnum) x y c pt l,
  valid_partition p x y -> wf3 d -> a3x d = x -> a3y d = y ->
  in_grid x y pt -> label_at p pt l -> l <> c ->
  matrix_of_region measure junk (TCluster (TPlain d) p c) = Raise ValueError.
Proof. exact region_matrix_cluster. Qed.
Print Assumptions C45_cluster_has_no_matrix.

(** the matrix is kept in the object; only two- and three-dimensional data is accepted *)
Theorem C45_matrix_is_kept : forall env data o M,
  fst (compute_distance_matrix env data o) = Ok M -> d_matrix (snd (compute_distance_matrix env data o)) = Some M.
Proof.
  intros env data o M. unfold compute_distance_matrix. destruct data; cbn.
  - destruct (matrix_of_series_array _ _ X); cbn; congruence.
  - destruct (matrix_of_region _ _ r); cbn; congruence.
  - discriminate.
Qed.
Print Assumptions C45_matrix_is_kept.

Theorem C45_other_dimensions : forall env o, compute_distance_matrix env DataOther o = (Raise ValueError, o).
Proof. reflexivity. Qed.
Print Assumptions C45_other_dimensions.

Example C45_ex : wf3 ex_d /\ in_grid 1 3 (0, 2)%Z /\ series_at (TPlain ex_d) (0, 2)%Z = Ok [Fin 5; Fin 5] /\
  index_of 3 (0, 2)%Z = 2 /\
  (exists M, matrix_of_region ex_measure NaN (TPlain ex_d) = Ok M /\ mat_eqv M ex_matrix) /\
  matrix_of_region ex_measure NaN (TCluster (TPlain ex_d) ex_p 0) = Raise ValueError.
Proof.
  split; [ exact ex_wf | split; [ split; cbn; lia | split; [ reflexivity | split; [ reflexivity | split ] ] ] ].
  - eexists. split; [ vm_compute; reflexivity | ]. split; [ reflexivity | ]. cbn. repeat constructor.
  - vm_compute. reflexivity.
Qed.

(* ---------------------------------------------------------------- C46 *)

Lemma mat_eqv_entry : forall n M N, square n M -> square n N ->
  (mat_eqv M N <-> forall i j u v, entry M i j = Some u -> entry N i j = Some v -> feqv u v).
Proof.
  intros n M N (C1 & L1 & R1) (C2 & L2 & R2). unfold mat_eqv, entry. split.
  - intros [ _ H ] i j u v Hu Hv.
    destruct (nth_error (m_rows M) i) as [ r1 | ] eqn:E1; [ | discriminate ].
    destruct (nth_error (m_rows N) i) as [ r2 | ] eqn:E2; [ | discriminate ].
    apply (Forall2_nth _ _ _) in H. destruct H as [ _ H ].
    specialize (H i r1 r2 E1 E2). apply (Forall2_nth _ _ _) in H. destruct H as [ _ H ]. apply (H j); auto.
  - intros H. split; [ congruence | ]. apply Forall2_nth. split; [ congruence | ].
    intros i r1 r2 E1 E2. apply Forall2_nth. split.
    + rewrite (R1 _ (nth_error_In _ _ E1)), (R2 _ (nth_error_In _ _ E2)). reflexivity.
    + intros j u v Hu Hv. apply (H i j); [ rewrite E1 | rewrite E2 ]; assumption.
Qed.

(** whatever the schedule and the number of processes: zero on the diagonal, off it the measure with the series
    of the later point first *)
Theorem C46_parallel_matrix : forall measure r n_proc s, wf3 (t_data r) -> 0 < n_proc ->
  inter_points_steps measure r (inter_points_start n_proc r) s -> pool_done s ->
  exists M, matrix_parallel r s = Ok M /\ square (t_x r * t_y r) M /\
    forall p q a b, in_grid (t_x r) (t_y r) p -> in_grid (t_x r) (t_y r) q ->
      series_at (TPlain (t_data r)) p = Ok a -> series_at (TPlain (t_data r)) q = Ok b ->
      let i := index_of (t_y r) p in let j := index_of (t_y r) q in
      exists v, entry M i j = Some v /\
        feqv v (if i =? j then Fin 0 else if j <? i then measure a b else measure b a).
Proof.
  intros measure r n_proc s Hw Hn Hr Hd. destruct (parallel_matrix measure r n_proc s Hw Hn Hr Hd) as (M & E & Hs & H).
  exists M. split; [ exact E | split; [ exact Hs | ] ]. intros p q a b Hp Hq Ha Hb i j.
  destruct (index_of_encode _ _ _ Hp) as [ _ Li ]. destruct (index_of_encode _ _ _ Hq) as [ _ Lj ]. fold i in Li. fold j in Lj.
  eexists. split; [ apply (H i j Li Lj) | ]. rewrite lower_sum.
  assert (Dp : decode (t_y r) i = p) by (pose proof (nth_error_grid_index _ _ _ Hp) as G; fold i in G; rewrite nth_error_grid in G by exact Li; congruence).
  assert (Dq : decode (t_y r) j = q) by (pose proof (nth_error_grid_index _ _ _ Hq) as G; fold j in G; rewrite nth_error_grid in G by exact Lj; congruence).
  assert (Sp : t_ser (TPlain (t_data r)) p = a) by (unfold t_ser; cbn [t_data series_at] in *; rewrite Ha; reflexivity).
  assert (Sq : t_ser (TPlain (t_data r)) q = b) by (unfold t_ser; cbn [t_data series_at] in *; rewrite Hb; reflexivity).
  destruct (i =? j) eqn:Eij; [ reflexivity | ]. change (a3y (t_data r)) with (t_y r).
  destruct (Nat.ltb_spec j i).
  - rewrite Nat.max_l, Nat.min_r by lia. rewrite Dp, Dq, Sp, Sq. reflexivity.
  - rewrite Nat.max_r, Nat.min_l by lia. rewrite Dp, Dq, Sp, Sq. reflexivity.
Qed.
Print Assumptions C46_parallel_matrix.

(** so it is the serial matrix exactly if the measure is symmetric and zero on equal series *)
Theorem C46_equals_serial_iff : forall measure junk (d : arr3 fnum) n_proc s M_par M_ser, wf3 d -> 0 < n_proc ->
  inter_points_steps measure (TPlain d) (inter_points_start n_proc (TPlain d)) s -> pool_done s ->
  matrix_parallel (TPlain d) s = Ok M_par -> matrix_of_region measure junk (TPlain d) = Ok M_ser ->
  (mat_eqv M_par M_ser <->
   (forall p a, in_grid (a3x d) (a3y d) p -> series_at (TPlain d) p = Ok a -> feqv (measure a a) (Fin 0)) /\
   (forall p q a b, in_grid (a3x d) (a3y d) p -> in_grid (a3x d) (a3y d) q -> p <> q ->
      series_at (TPlain d) p = Ok a -> series_at (TPlain d) q = Ok b -> feqv (measure a b) (measure b a))).
Proof.
  intros measure junk d n_proc s M_par M_ser Hw Hn Hr Hd Ep Es.
  destruct (C46_parallel_matrix measure (TPlain d) n_proc s Hw Hn Hr Hd) as (M1 & E1 & Q1 & V1). rewrite Ep in E1. injection E1 as <-.
  destruct (C45_serial_matrix measure junk d Hw) as (M2 & E2 & Q2 & V2). rewrite Es in E2. injection E2 as <-.
  change (t_x (TPlain d)) with (a3x d) in *. change (t_y (TPlain d)) with (a3y d) in *. change (t_data (TPlain d)) with d in *.
  rewrite (mat_eqv_entry _ _ _ Q1 Q2).
  assert (Inj : forall p q, in_grid (a3x d) (a3y d) p -> in_grid (a3x d) (a3y d) q -> index_of (a3y d) p = index_of (a3y d) q -> p = q).
  { intros p q Hp Hq E. pose proof (nth_error_grid_index _ _ _ Hp) as G1. pose proof (nth_error_grid_index _ _ _ Hq) as G2. congruence. }
  split.
  - intros H. split.
    + intros p a Hp Ha. destruct (V1 p p a a Hp Hp Ha Ha) as (v & Ev & Hv). rewrite Nat.eqb_refl in Hv.
      rewrite <- (H _ _ _ _ Ev (V2 p p a a Hp Hp Ha Ha)). exact Hv.
    + intros p q a b Hp Hq Hne Ha Hb.
      assert (Hij : index_of (a3y d) p <> index_of (a3y d) q) by (intros E; apply Hne, Inj; auto).
      destruct (V1 p q a b Hp Hq Ha Hb) as (v & Ev & Hv). destruct (V1 q p b a Hq Hp Hb Ha) as (v' & Ev' & Hv').
      pose proof (H _ _ _ _ Ev (V2 p q a b Hp Hq Ha Hb)) as H1. pose proof (H _ _ _ _ Ev' (V2 q p b a Hq Hp Hb Ha)) as H2.
      replace (index_of (a3y d) p =? index_of (a3y d) q) with false in Hv by lia.
      replace (index_of (a3y d) q =? index_of (a3y d) p) with false in Hv' by lia.
      rewrite <- H1, <- H2, Hv, Hv'.
      destruct (Nat.ltb_spec (index_of (a3y d) q) (index_of (a3y d) p)), (Nat.ltb_spec (index_of (a3y d) p) (index_of (a3y d) q)); try lia; reflexivity.
  - intros [ Hz Hsym ] i j u v Hu Hv.
    assert (Hi : i < a3x d * a3y d).
    { destruct Q1 as (_ & L & _). rewrite <- L. unfold entry in Hu. destruct (nth_error (m_rows M_par) i) eqn:E; [ | discriminate ].
      apply nth_error_Some. congruence. }
    assert (Hj : j < a3x d * a3y d).
    { destruct Q1 as (_ & L & R). unfold entry in Hu. destruct (nth_error (m_rows M_par) i) as [ row | ] eqn:E; [ | discriminate ].
      rewrite <- (R row (nth_error_In _ _ E)). apply nth_error_Some. congruence. }
    assert (P : forall k, k < a3x d * a3y d -> exists p a, in_grid (a3x d) (a3y d) p /\ index_of (a3y d) p = k /\ series_at (TPlain d) p = Ok a).
    { intros k Hk. exists (decode (a3y d) k).
      assert (Hy : a3y d <> 0) by (intros E; rewrite E in Hk; lia).
      pose proof (decode_in_grid _ _ _ Hk) as Hg. exists (t_ser (TPlain d) (decode (a3y d) k)). split; [ exact Hg | split ].
      - unfold index_of, decode. cbn [fst snd]. rewrite !Nat2Z.id. apply flat_recompose. exact Hy.
      - apply (series3_t_ser (TPlain d)); auto. }
    destruct (P i Hi) as (p & a & Hp & <- & Ha). destruct (P j Hj) as (q & b & Hq & <- & Hb).
    destruct (V1 p q a b Hp Hq Ha Hb) as (v' & Ev & Hv'). rewrite Hu in Ev. injection Ev as <-.
    rewrite (V2 p q a b Hp Hq Ha Hb) in Hv. injection Hv as <-. rewrite Hv'.
    destruct (Nat.eqb_spec (index_of (a3y d) p) (index_of (a3y d) q)) as [ E | E ].
    + assert (p = q) as <- by (apply Inj; auto). assert (a = b) as <- by congruence. symmetry. eapply Hz; eauto.
    + destruct (Nat.ltb_spec (index_of (a3y d) q) (index_of (a3y d) p)); [ reflexivity | ].
      apply (Hsym q p b a); auto. intros ->. apply E. reflexivity.
Qed.
Print Assumptions C46_equals_serial_iff.

(** a series with a missing value: NaN on the diagonal serially, 0 in parallel, under every schedule *)
Theorem C46_missing_values_refuted : forall dtw junk (d : arr3 fnum) n_proc s M_par M_ser p a, wf3 d -> 0 < n_proc ->
  let measure := dtw_measure dtw in
  inter_points_steps measure (TPlain d) (inter_points_start n_proc (TPlain d)) s -> pool_done s ->
  matrix_parallel (TPlain d) s = Ok M_par -> matrix_of_region measure junk (TPlain d) = Ok M_ser ->
  in_grid (a3x d) (a3y d) p -> series_at (TPlain d) p = Ok a -> In NaN a ->
  entry M_ser (index_of (a3y d) p) (index_of (a3y d) p) = Some NaN /\
  (exists v, entry M_par (index_of (a3y d) p) (index_of (a3y d) p) = Some v /\ feqv v (Fin 0)) /\
  ~ mat_eqv M_par M_ser.
Proof.
  intros dtw junk d n_proc s M_par M_ser p a Hw Hn measure Hr Hd Ep Es Hp Ha Hnan.
  assert (Hself : measure a a = NaN) by (apply C45_missing_values; auto).
  split; [ | split ].
  - destruct (C45_serial_matrix measure junk d Hw) as (M2 & E2 & _ & V2). rewrite Es in E2. injection E2 as <-.
    rewrite (V2 p p a a) by auto. rewrite Hself. reflexivity.
  - destruct (C46_parallel_matrix measure (TPlain d) n_proc s Hw Hn Hr Hd) as (M1 & E1 & _ & V1). rewrite Ep in E1. injection E1 as <-.
    destruct (V1 p p a a Hp Hp Ha Ha) as (v & Ev & Hv). rewrite Nat.eqb_refl in Hv. eauto.
  - intros H. apply (C46_equals_serial_iff measure junk d n_proc s M_par M_ser Hw Hn Hr Hd Ep Es) in H. destruct H as [ Hz _ ].
    specialize (Hz p a Hp Ha). rewrite Hself in Hz. contradiction.
Qed.
Print Assumptions C46_missing_values_refuted.

(** the pool itself: for any tasks with distinct slots, every finished schedule leaves each result in its slot and
    nothing else changed; it fails exactly if a task raises *)
Theorem C46_pool_result : forall T (slot : T -> nat) (run : T -> res fnum) tasks out0 n_proc chunksize s out,
  0 < chunksize -> NoDup (map slot tasks) -> (forall t, In t tasks -> slot t < length out0) ->
  psteps slot run (pool_start n_proc chunksize tasks out0) s -> pool_done s -> pool_outcome s = Ok out ->
  length out = length out0 /\
  (forall t, In t tasks -> exists v, run t = Ok v /\ nth_error out (slot t) = Some v) /\
  (forall i, (forall t, In t tasks -> slot t <> i) -> nth_error out i = nth_error out0 i).
Proof. intros. eapply pool_result; eassumption. Qed.
Print Assumptions C46_pool_result.

Theorem C46_pool_failure : forall T (slot : T -> nat) (run : T -> res fnum) tasks out0 n_proc chunksize s,
  0 < chunksize -> NoDup (map slot tasks) -> (forall t, In t tasks -> slot t < length out0) ->
  psteps slot run (pool_start n_proc chunksize tasks out0) s -> pool_done s ->
  (forall e, pool_outcome s = Raise e -> exists t, In t tasks /\ run t = Raise e) /\
  (forall t e, In t tasks -> run t = Raise e -> exists e', pool_outcome s = Raise e').
Proof. intros. eapply pool_failure; eassumption. Qed.
Print Assumptions C46_pool_failure.

(** no deadlock, no endless schedule, and never two workers inside the lock *)
Theorem C46_pool_completes : forall T (slot : T -> nat) (run : T -> res fnum) tasks out0 n_proc chunksize s,
  0 < chunksize -> 0 < n_proc -> NoDup (map slot tasks) -> (forall t, In t tasks -> slot t < length out0) ->
  psteps slot run (pool_start n_proc chunksize tasks out0) s ->
  (pool_done s \/ exists s', pstep slot run s s') /\
  Acc (fun s2 s1 => pstep slot run s1 s2) s /\
  (exists s', psteps slot run s s' /\ pool_done s').
Proof.
  intros T slot run tasks out0 n_proc chunksize s Hc Hn Hnd Hsl Hr.
  split; [ exact (pool_progress slot run _ _ _ _ _ Hc Hn Hnd Hsl Hr) | split; [ apply pool_terminates | exact (pool_completes slot run _ _ _ _ _ Hc Hn Hnd Hsl Hr) ] ].
Qed.
Print Assumptions C46_pool_completes.

Theorem C46_pool_mutual_exclusion : forall T (slot : T -> nat) (run : T -> res fnum) tasks out0 n_proc chunksize s u w a b,
  0 < chunksize -> NoDup (map slot tasks) -> (forall t, In t tasks -> slot t < length out0) ->
  psteps slot run (pool_start n_proc chunksize tasks out0) s ->
  nth_error (p_workers s) u = Some a -> nth_error (p_workers s) w = Some b ->
  (exists t v rest, a = Holding t v rest) -> (exists t v rest, b = Holding t v rest) -> u = w.
Proof.
  intros T slot run tasks out0 n_proc chunksize s u w a b Hc Hnd Hs Hr Hu Hw (t & v & rest & ->) (t' & v' & rest' & ->).
  eapply pool_mutex; eauto.
Qed.
Print Assumptions C46_pool_mutual_exclusion.

(** the older queue gives the same results, if no task raises *)
Theorem C46_old_queue : forall T (slot : T -> nat) (run : T -> res fnum) tasks out0 n_proc s, 0 < n_proc ->
  NoDup (map slot tasks) -> (forall t, In t tasks -> slot t < length out0) ->
  (forall t, In t tasks -> exists v, run t = Ok v) ->
  qsteps slot run (queue_start n_proc tasks out0) s -> queue_done s ->
  length (q_out s) = length out0 /\
  (forall t, In t tasks -> exists v, run t = Ok v /\ nth_error (q_out s) (slot t) = Some v) /\
  (forall i, (forall t, In t tasks -> slot t <> i) -> nth_error (q_out s) i = nth_error out0 i).
Proof. intros. eapply queue_result; eassumption. Qed.
Print Assumptions C46_old_queue.

(** two workers, three tasks in chunks of two, interleaved *)
Example C46_ex : exists s, psteps (fun k => k) (fun k => Ok (Fin (inject_Z (Z.of_nat k)))) (pool_start 2 2 [0; 1; 2] [NaN; NaN; NaN]) s /\ pool_done s /\
  pool_outcome s = Ok [Fin 0; Fin 1; Fin 2].
Proof.
  set (run := fun k => Ok (Fin (inject_Z (Z.of_nat k)))).
  assert (S1 : forall s1 s2 s3 : pstate nat, pstep (fun k => k) run s1 s2 -> psteps (fun k => k) run s2 s3 -> psteps (fun k => k) run s1 s3).
  { intros s1 s2 s3 H1 H2. induction H2; econstructor; eauto. constructor. }
  exists (PState [] [Idle; Idle] None [Fin 0; Fin 1; Fin 2] None). split; [ | split; [ split; [ reflexivity | ] | ] ].
  - unfold pool_start. cbn.
    eapply S1. { apply (st_take _ _ [0; 1] [[2]] [Idle; Idle] None _ None 0). reflexivity. } cbn.
    eapply S1. { apply (st_compute _ _ _ [Todo [0; 1]; Idle] _ _ _ 0 0 (Fin 0) [1]); reflexivity. } cbn.
    eapply S1. { apply (st_take _ _ [2] [] [Computed 0 (Fin 0) [1]; Idle] None _ None 1). reflexivity. } cbn.
    eapply S1. { apply (st_compute _ _ _ [Computed 0 (Fin 0) [1]; Todo [2]] _ _ _ 1 2 (Fin 2) []); reflexivity. } cbn.
    eapply S1. { apply (st_acquire _ _ _ [Computed 0 (Fin 0) [1]; Computed 2 (Fin 2) []] _ _ 1 2 (Fin 2) []). reflexivity. } cbn.
    eapply S1. { apply (st_write _ _ _ [Computed 0 (Fin 0) [1]; Holding 2 (Fin 2) []] _ _ _ 1 2 (Fin 2) []). reflexivity. } cbn.
    eapply S1. { apply (st_release _ _ _ [Computed 0 (Fin 0) [1]; Written []] _ _ _ 1 []). reflexivity. } cbn.
    eapply S1. { apply (st_acquire _ _ _ [Computed 0 (Fin 0) [1]; Todo []] _ _ 0 0 (Fin 0) [1]). reflexivity. } cbn.
    eapply S1. { apply (st_finish _ _ _ [Holding 0 (Fin 0) [1]; Todo []] _ _ _ 1). reflexivity. } cbn.
    eapply S1. { apply (st_write _ _ _ [Holding 0 (Fin 0) [1]; Idle] _ _ _ 0 0 (Fin 0) [1]). reflexivity. } cbn.
    eapply S1. { apply (st_release _ _ _ [Written [1]; Idle] _ _ _ 0 [1]). reflexivity. } cbn.
    eapply S1. { apply (st_compute _ _ _ [Todo [1]; Idle] _ _ _ 0 1 (Fin 1) []); reflexivity. } cbn.
    eapply S1. { apply (st_acquire _ _ _ [Computed 1 (Fin 1) []; Idle] _ _ 0 1 (Fin 1) []). reflexivity. } cbn.
    eapply S1. { apply (st_write _ _ _ [Holding 1 (Fin 1) []; Idle] _ _ _ 0 1 (Fin 1) []). reflexivity. } cbn.
    eapply S1. { apply (st_release _ _ _ [Written []; Idle] _ _ _ 0 []). reflexivity. } cbn.
    eapply S1. { apply (st_finish _ _ _ [Todo []; Idle] _ _ _ 0). reflexivity. } cbn.
    constructor.
  - cbn. intros w [ <- | [ <- | [] ] ]; reflexivity.
  - reflexivity.
Qed.

(** the parallel computation of the example region can run to its end, with a symmetric measure *)
Example C46_ex_region : exists s, inter_points_steps ex_measure (TPlain ex_d) (inter_points_start 4 (TPlain ex_d)) s /\ pool_done s /\
  exists M, matrix_parallel (TPlain ex_d) s = Ok M /\ mat_eqv M ex_matrix.
Proof.
  destruct (pool_completes (inter_points_slot (TPlain ex_d)) (inter_points_task ex_measure (TPlain ex_d)) (seq 0 9) (repeat (Fin 0) 9) 4 50
              (inter_points_start 4 (TPlain ex_d))) as (s & Hs & Hd).
  - lia.
  - lia.
  - apply (tasks_nodup (TPlain ex_d)).
  - apply (tasks_in_range (TPlain ex_d)).
  - constructor.
  - exists s. split; [ exact Hs | split; [ exact Hd | ] ].
    destruct (parallel_matrix ex_measure (TPlain ex_d) 4 s ex_wf ltac:(lia) Hs Hd) as (M & E & Q & V). exists M. split; [ exact E | ].
    rewrite (mat_eqv_entry 3 M ex_matrix Q ex_square). intros i j u v Hu Hv.
    assert (Hi : i < 3).
    { unfold entry in Hv. destruct (nth_error (m_rows ex_matrix) i) eqn:Ei; [ | discriminate ].
      change 3 with (length (m_rows ex_matrix)). apply nth_error_Some. congruence. }
    assert (Hj : j < 3).
    { unfold entry in Hv. destruct (nth_error (m_rows ex_matrix) i) as [ row | ] eqn:Ei; [ | discriminate ].
      rewrite <- (proj2 (proj2 ex_square) row (nth_error_In _ _ Ei)). apply nth_error_Some. congruence. }
    rewrite (V i j Hi Hj) in Hu. injection Hu as <-.
    destruct i as [ | [ | [ | ] ] ]; try lia; destruct j as [ | [ | [ | ] ] ]; try lia; vm_compute in Hv; injection Hv as <-; vm_compute; reflexivity.
Qed.

(* ---------------------------------------------------------------- C47 *)
(** the row of the point, at the requested indices, in their order; the object is not changed *)
Theorem C47_distances_are_the_row : forall env r md x pt indices pre o M,
  d_matrix o = Some M -> in_grid x (t_y r) pt -> square (x * t_y r) M -> (forall j, In j indices -> j < x * t_y r) ->
  exists l, distances_to_point env r md pt indices true pre o = (Ok l, o) /\ row_at M (index_of (t_y r) pt) indices l.
Proof.
  intros env r md x pt indices pre o M Ho Hp Hs Hj. unfold distances_to_point. cbn [negb]. rewrite Ho.
  destruct (with_matrix_row o M _ x (t_y r) pt indices Ho Hs Hp (le_n _) Hj) as (l & E & H). rewrite E. eauto.
Qed.
Print Assumptions C47_distances_are_the_row.

Theorem C47_index_out_of_range : forall env r md x pt indices pre o M j,
  d_matrix o = Some M -> in_grid x (t_y r) pt -> square (x * t_y r) M -> In j indices -> x * t_y r <= j ->
  distances_to_point env r md pt indices true pre o = (Raise IndexError, o).
Proof.
  intros env r md x pt indices pre o M j Ho Hp Hs Hin Hj. unfold distances_to_point. cbn [negb]. rewrite Ho.
  rewrite (with_matrix_index_error o M _ x (t_y r) pt indices j Ho Hs Hp Hin Hj). reflexivity.
Qed.
Print Assumptions C47_index_out_of_range.

Theorem C47_without_matrix_unsupported : forall env r md pt indices pre o,
  distances_to_point env r md pt indices false pre o = (Raise NotImplementedError, o).
Proof. reflexivity. Qed.
Print Assumptions C47_without_matrix_unsupported.

Example C47_ex : square (1 * t_y (TPlain ex_d)) ex_matrix /\ in_grid 1 (t_y (TPlain ex_d)) (0, 1)%Z /\
  fst (distances_to_point ex_env (TPlain ex_d) None (0, 1)%Z [2; 0] true true (DObj PlainDTW (Some ex_matrix) false)) = Ok [Fin 6; Fin 4].
Proof. split; [ exact ex_square | split; [ split; cbn; lia | reflexivity ] ]. Qed.

(* ---------------------------------------------------------------- C48 *)
(** Documented: a matrix that cannot be loaded gives ValueError, or is computed when that is accepted.  If the file is
    missing, plain DTW gives AssertionError in both cases. *)
Theorem C48_missing_file_refuted : forall env f g r pt indices pre b, np_load env f = Raise IOError ->
  distances_to_point env r (Some (DMeta f g)) pt indices true pre (DObj PlainDTW None b) = (Raise AssertionError, DObj PlainDTW None b).
Proof. intros env f g r pt indices pre b H. unfold distances_to_point. cbn. unfold base_load. rewrite H. reflexivity. Qed.
Print Assumptions C48_missing_file_refuted.

(** when loading raises, the documented behaviour holds *)
Theorem C48_load_raises : forall env md (d : arr3 fnum) pt indices o o' e,
  d_matrix o = None -> load_distance_matrix_md env md o = (Raise e, o') ->
  distances_to_point env (TPlain d) md pt indices true true o = (Raise ValueError, o') /\
  (wf3 d -> in_grid (a3x d) (a3y d) pt -> (forall j, In j indices -> j < a3x d * a3y d) ->
   exists M l, matrix_of_region (env_measure env) (env_junk env) (TPlain d) = Ok M /\
     distances_to_point env (TPlain d) md pt indices true false o = (Ok l, DObj (d_kind o') (Some M) (d_weighted o')) /\
     row_at M (index_of (a3y d) pt) indices l).
Proof.
  intros env md d pt indices o o' e Ho El. unfold distances_to_point. cbn [negb]. rewrite Ho, El. split; [ reflexivity | ].
  intros Hw Hp Hj. destruct (region_matrix (env_measure env) (env_junk env) d Hw) as (M & E & Hs & _).
  unfold compute_distance_matrix. rewrite E. exists M.
  destruct (with_matrix_row (DObj (d_kind o') (Some M) (d_weighted o')) M _ _ _ pt indices eq_refl Hs Hp (le_n _) Hj) as (l & El' & Hl).
  exists l. change (t_y (TPlain d)) with (a3y d). rewrite El'. auto.
Qed.
Print Assumptions C48_load_raises.

(** loading raises if there is no metadata, if the file has another shape, and for the spatial measure also if the file
    is missing *)
Theorem C48_when_loading_raises : forall env o, d_matrix o = None ->
  (load_distance_matrix_md env None o = (Raise AttributeError, o)) /\
  (forall f g x y M, spans g x y -> np_load env f = Ok M -> (length (m_rows M) <> x * y \/ m_cols M <> x * y) ->
     load_distance_matrix_md env (Some (DMeta f g)) o = (Raise ValueError, o)) /\
  (forall f g w, d_kind o = SpatialDTW w -> np_load env f = Raise IOError ->
     load_distance_matrix_md env (Some (DMeta f g)) o = (Raise ValueError, o)).
Proof.
  intros env o Ho. split; [ reflexivity | split ].
  - intros f g x y M [ Hx Hy ] Hl Hne. unfold load_distance_matrix_md, load_distance_matrix_2d. cbn.
    assert (base_load env f g o = (Raise ValueError, o)) as ->.
    { unfold base_load. rewrite Hl. unfold r_points. rewrite Hx, Hy.
      replace ((Z.of_nat (length (m_rows M)) =? Z.of_nat x * Z.of_nat y)%Z && (Z.of_nat (m_cols M) =? Z.of_nat x * Z.of_nat y)%Z) with false by lia.
      reflexivity. }
    destruct (d_kind o); reflexivity.
  - intros f g w Hk Hl. unfold load_distance_matrix_md, load_distance_matrix_2d. cbn. rewrite Hk. unfold base_load. rewrite Hl.
    unfold weight_distance_matrix. rewrite Hk, Ho. reflexivity.
Qed.
Print Assumptions C48_when_loading_raises.

(** a file of the right shape is used *)
Theorem C48_file_is_used : forall env f g x y b M, spans g x y -> np_load env f = Ok M -> square (x * y) M ->
  provides env (Some (DMeta f g)) (DObj PlainDTW None b) M.
Proof.
  intros env f g x y b M Hsp Hl Hs. right. split; [ reflexivity | ]. eexists _, _. split.
  - cbn. rewrite (base_load_ok env f g x y _ M Hsp Hl Hs). reflexivity.
  - reflexivity.
Qed.
Print Assumptions C48_file_is_used.

Example C48_ex : np_load ex_env "missing"%string = Raise IOError /\ np_load ex_env "raw"%string = Ok ex_matrix /\ spans ex_region 1 3 /\
  load_distance_matrix_md ex_env (Some (DMeta "raw"%string (Rect 0 2 0 3))) (fresh PlainDTW) = (Raise ValueError, fresh PlainDTW) /\
  fst (distances_to_point ex_env (TPlain ex_d) (Some (DMeta "raw"%string ex_region)) (0, 1)%Z [2; 0] true true (fresh PlainDTW)) = Ok [Fin 6; Fin 4].
Proof. repeat split. Qed.

(* ---------------------------------------------------------------- C49 *)
(** the first load of a matrix file adds weight * euclidean distance once to every entry *)
Theorem C49_first_load_is_weighted : forall env f g x y w M0 o, spans g x y -> np_load env f = Ok M0 -> square (x * y) M0 ->
  d_kind o = SpatialDTW w -> d_weighted o = false ->
  exists M, load_distance_matrix_2d env f g o = (Ok (Some M), DObj (SpatialDTW w) (Some M) true) /\
    weighted_once (norm2 env) w x y M0 M.
Proof.
  intros env f g x y w M0 o Hsp Hl Hs Hk Hb. unfold load_distance_matrix_2d. rewrite Hk.
  rewrite (base_load_ok env f g x y o M0 Hsp Hl Hs), Hk, Hb.
  destruct (weight_raw env g x y w M0 Hsp Hs) as (M & E & H). rewrite E. eauto.
Qed.
Print Assumptions C49_first_load_is_weighted.

(** weighting again changes nothing *)
Theorem C49_weighting_is_idempotent : forall env g g' o M o', weight_distance_matrix env g o = (Ok M, o') ->
  weight_distance_matrix env g' o' = (Ok M, o').
Proof.
  intros env g g' [ k m b ] M o'. unfold weight_distance_matrix. cbn [d_kind d_matrix d_weighted].
  destruct k as [ | w ]; [ discriminate | ]. destruct m as [ M0 | ]; [ | discriminate ]. destruct b.
  - intros H. injection H as <- <-. reflexivity.
  - cbn zeta. destruct (weight_rows _ _ _ _ _ _) as [ M' [ e | ] ]; intros H; [ discriminate | ]. injection H as <- <-. reflexivity.
Qed.
Print Assumptions C49_weighting_is_idempotent.

(** in any history of loading, computing, weighting and querying for one region, the matrix in use is an unweighted
    one, or an unweighted one with the weights added exactly once *)
Theorem C49_never_weighted_twice : forall env g x y w ops M, spans g x y ->
  (forall f M, np_load env f = Ok M -> forall row, In row (m_rows M) -> length row = m_cols M) ->
  Forall (op_region x y) ops ->
  d_matrix (run_ops env g ops (fresh (SpatialDTW w))) = Some M ->
  source env x y M \/ exists M0, source env x y M0 /\ weighted_once (norm2 env) w x y M0 M.
Proof.
  intros env g x y w ops M Hsp Hrect Hops HM.
  assert (H0 : winv env w x y (fresh (SpatialDTW w))) by (split; reflexivity).
  pose proof (winv_run env g w x y Hsp Hrect ops _ Hops H0) as [ _ H ]. rewrite HM in H.
  destruct H as [ H | [ _ H ] ]; auto.
Qed.
Print Assumptions C49_never_weighted_twice.

(** but once the object has weighted a matrix, every matrix loaded later is used without weights *)
Theorem C49_later_loads_unweighted_refuted : forall env f g x y w M0 o, spans g x y -> np_load env f = Ok M0 -> square (x * y) M0 ->
  d_kind o = SpatialDTW w -> d_weighted o = true ->
  load_distance_matrix_2d env f g o = (Ok (Some M0), DObj (SpatialDTW w) (Some M0) true).
Proof.
  intros env f g x y w M0 o Hsp Hl Hs Hk Hb. unfold load_distance_matrix_2d. rewrite Hk.
  rewrite (base_load_ok env f g x y o M0 Hsp Hl Hs), Hk, Hb. reflexivity.
Qed.
Print Assumptions C49_later_loads_unweighted_refuted.

(** and a missing file goes unnoticed if the object holds an unweighted matrix: that one is weighted and returned *)
Theorem C49_missing_file_weights_old_matrix_refuted : forall env f g x y w M0, spans g x y -> np_load env f = Raise IOError -> square (x * y) M0 ->
  exists M, load_distance_matrix_2d env f g (DObj (SpatialDTW w) (Some M0) false) = (Ok (Some M), DObj (SpatialDTW w) (Some M) true) /\
    weighted_once (norm2 env) w x y M0 M.
Proof.
  intros env f g x y w M0 Hsp Hl Hs. unfold load_distance_matrix_2d. cbn [d_kind]. unfold base_load. rewrite Hl.
  destruct (weight_raw env g x y w M0 Hsp Hs) as (M & E & H). rewrite E. eauto.
Qed.
Print Assumptions C49_missing_file_weights_old_matrix_refuted.

(** weight 0 is plain DTW *)
Theorem C49_weight_zero : forall norm x y M0 M, square (x * y) M0 -> (forall dx dy, is_fin (norm dx dy) = true) ->
  weighted_once norm (Fin 0) x y M0 M -> mat_eqv M M0.
Proof.
  intros norm x y M0 M Hs Hn [ Hs' H ]. rewrite (mat_eqv_entry (x * y) M M0 Hs' Hs). intros i j u v Hu Hv.
  specialize (H i j v Hv). rewrite Hu in H. injection H as ->.
  rewrite (is_fin_qof _ (Hn _ _)). cbn [fmul]. destruct v; cbn; auto. rewrite Qmult_0_r, Qplus_0_r. reflexivity.
Qed.
Print Assumptions C49_weight_zero.

(** two loads: the first is weighted, the second is not *)
Example C49_ex :
  let o1 := snd (load_distance_matrix_2d ex_env "raw"%string ex_region (fresh (SpatialDTW (Fin 10)))) in
  let o2 := snd (load_distance_matrix_2d ex_env "other"%string ex_region o1) in
  spans ex_region 1 3 /\ d_weighted o1 = true /\
  option_map m_rows (d_matrix o1) = Some [[Fin 0; Fin 14; Fin 30]; [Fin 14; Fin 0; Fin 16]; [Fin 30; Fin 16; Fin 0]] /\
  d_matrix o2 = Some ex_other /\
  Forall (op_region 1 3) [OpLoad "raw"%string; OpCompute (TPlain ex_d); OpWeight] /\
  run_ops ex_env ex_region [OpLoad "raw"%string; OpLoad "other"%string] (fresh (SpatialDTW (Fin 10))) = o2.
Proof.
  cbv zeta. split; [ split; reflexivity | ]. do 3 (split; [ vm_compute; reflexivity | ]). split.
  - repeat constructor. exists ex_d. repeat split.
  - vm_compute. reflexivity.
Qed.

(* ---------------------------------------------------------------- C34 *)
Lemma centroid_first_least : forall ds pts best dists, centroid_of ds pts best dists -> first_least (fun p => fsum (ds p)) pts best.
Proof. intros ds pts [ c | ] dists H; cbn in *; tauto. Qed.

(** for a region: over all points of the grid *)
Theorem C34_centroid_of_region : forall env md o M (d : arr3 fnum), wf3 d ->
  square (a3x d * a3y d) M -> provides env md o M ->
  exists rows best dists, find_centroid_and_distances env (TPlain d) md true o = Ok (best, dists) /\
    (forall p, In p (grid (a3x d) (a3y d)) -> row_at M (index_of (a3y d) p) (seq 0 (a3x d * a3y d)) (rows p)) /\
    first_least (fun p => fsum (rows p)) (grid (a3x d) (a3y d)) best /\
    (forall c, best = Some c -> dists = Some (rows c)).
Proof.
  intros env md o M d Hw Hs Hp.
  pose proof (plain_items d Hw) as Hit.
  assert (Hpts : map fst (map (fun p => (p, t_ser (TPlain d) p)) (grid (a3x d) (a3y d))) = grid (a3x d) (a3y d)) by (rewrite map_map; apply map_id).
  destruct (centroid_spec env (TPlain d) md o M (a3x d * a3y d) (a3x d) (a3y d) _ (seq 0 (a3x d * a3y d)) Hit eq_refl eq_refl) as (Hr & best & dists & E & Hc); auto.
  - rewrite Hpts. intros p Hin. apply in_grid_iff. exact Hin.
  - intros j Hj. apply in_seq in Hj. lia.
  - rewrite Hpts in Hr, Hc.
    eexists _, best, dists. split; [ exact E | split; [ exact Hr | split; [ apply (centroid_first_least _ _ _ _ Hc) | ] ] ].
    intros c ->. cbn in Hc. apply Hc.
Qed.
Print Assumptions C34_centroid_of_region.

(** for a cluster: over its members, with the distances to its members only *)
Theorem C34_centroid_of_cluster : forall env md o M (p : crisp) (d : arr3 fnum) x y k, wf3 d ->
  valid_partition p x y -> a3x d = x -> a3y d = y -> square (x * y) M -> provides env md o M ->
  exists members rows best dists, find_centroid_and_distances env (TCluster (TPlain d) p k) md true o = Ok (best, dists) /\
    (forall pt, In pt members <-> in_grid x y pt /\ label_at p pt k) /\
    (forall pt, In pt members -> row_at M (index_of y pt) (map (index_of y) members) (rows pt)) /\
    first_least (fun pt => fsum (rows pt)) members best /\
    (forall c, best = Some c -> dists = Some (rows c)).
Proof.
  intros env md o M p d x y k Hw Hv Ex Ey Hs Hp.
  destruct (cluster_t_items p d x y k Hv Hw Ex Ey) as (items & E1 & E2 & _).
  destruct (all_point_indices_cluster p (TPlain d) x y k Hv Ex Ey) as (ns & E3 & _ & E4).
  set (members := filter (fun pt => (label_of p pt =? k)%Z) (grid x y)) in *.
  assert (Hm : forall pt, In pt members -> in_grid x y pt) by (intros pt H; apply filter_In in H; apply in_grid_iff, H).
  assert (En : ns = map (index_of y) members).
  { rewrite E4. apply map_ext_in. intros pt H. destruct (index_of_encode _ _ _ (Hm pt H)) as [ Ee _ ]. rewrite Ee. apply Nat2Z.id. }
  destruct (centroid_spec env (TCluster (TPlain d) p k) md o M (x * y) x y items ns E1 E3 Ey) as (Hr & best & dists & E & Hc); auto.
  - rewrite E2. exact Hm.
  - rewrite En. intros j Hj. apply in_map_iff in Hj. destruct Hj as (pt & <- & H). apply (index_of_encode _ _ _ (Hm pt H)).
  - rewrite E2 in Hr, Hc. rewrite En in Hr, Hc.
    eexists members, _, best, dists. split; [ exact E | split; [ | split; [ exact Hr | split; [ apply (centroid_first_least _ _ _ _ Hc) | ] ] ] ].
    + intros pt. unfold members. rewrite filter_In, in_grid_iff. split.
      * intros [ Hg Hl ]. split; [ exact Hg | ]. destruct (label_of_spec p x y pt Hv Hg) as [ Hla _ ]. 
        replace k with (label_of p pt) by lia. exact Hla.
      * intros [ Hg Hl ]. split; [ exact Hg | ]. destruct (label_of_spec p x y pt Hv Hg) as [ Hla _ ]. unfold label_at in *.
        rewrite Hla in Hl. injection Hl as ->. apply Z.eqb_refl.
    + intros c ->. cbn in Hc. apply Hc.
Qed.
Print Assumptions C34_centroid_of_cluster.

(** with finite distances and at least one point there is a centroid, of least sum *)
Theorem C34_least_exists : forall (rows : point -> list fnum) pts best, pts <> [] ->
  (forall p v, In p pts -> In v (rows p) -> is_fin v = true) ->
  first_least (fun p => fsum (rows p)) pts best ->
  exists c, best = Some c /\ In c pts /\ forall p, In p pts -> fle (fsum (rows c)) (fsum (rows p)) = true.
Proof.
  intros rows pts best Hne Hfin H.
  assert (F : forall p, In p pts -> exists q, feqv (fsum (rows p)) (Fin q)).
  { intros p Hp. destruct (fin_list (rows p) (fun v Hv => Hfin p v Hp Hv)) as (qs & ->). exists (qsum qs). apply fsum_fin. }
  assert (F' : forall p, In p pts -> exists q, fsum (rows p) = Fin q).
  { intros p Hp. destruct (F p Hp) as (q & Hq). destruct (fsum (rows p)); try contradiction. eauto. }
  destruct best as [ c | ]; cbn in H.
  - destruct H as (_ & before & after & -> & Hb & Ha). exists c. split; [ reflexivity | ].
    assert (Hc : In c (before ++ c :: after)) by (apply in_or_app; right; left; reflexivity). split; [ exact Hc | ].
    destruct (F' c Hc) as (qc & Ec). rewrite Ec in *. intros p Hp. destruct (F' p Hp) as (qp & Ep). apply in_app_or in Hp. rewrite Ep.
    apply fle_Fin. destruct Hp as [ Hp | [ <- | Hp ] ].
    + specialize (Hb p Hp). rewrite Ep in Hb. destruct (Qlt_le_dec qp qc) as [ Hlt | ]; [ | assumption ].
      apply Qlt_le_weak in Hlt. apply fle_Fin in Hlt. congruence.
    + assert (qc = qp) as -> by congruence. apply Qle_refl.
    + specialize (Ha p Hp). rewrite Ep in Ha. destruct (Qlt_le_dec qp qc) as [ Hlt | ]; [ | assumption ].
      apply flt_Fin in Hlt. congruence.
  - exfalso. destruct pts as [ | p pts ]; [ congruence | ]. destruct (F' p (or_introl eq_refl)) as (q & E).
    specialize (H p (or_introl eq_refl)). rewrite E in H. discriminate.
Qed.
Print Assumptions C34_least_exists.

(** without a matrix, a region with at least one point has no centroid but ValueError *)
Theorem C34_no_matrix : forall env md o e o' (d : arr3 fnum), wf3 d -> 0 < a3x d * a3y d ->
  d_matrix o = None -> load_distance_matrix_md env md o = (Raise e, o') ->
  find_centroid_and_distances env (TPlain d) md true o = Raise ValueError.
Proof.
  intros env md o e o' d Hw Hn Ho Hl. unfold find_centroid_and_distances. cbn [all_point_indices bind]. rewrite plain_items by exact Hw. cbn [bind].
  rewrite map_map. destruct (grid (a3x d) (a3y d)) as [ | p pts ] eqn:Eg.
  - exfalso. pose proof (grid_length (a3x d) (a3y d)) as L. rewrite Eg in L. cbn [length] in L. lia.
  - cbn [map foldM]. unfold centroid_step at 1. unfold distances_to_point. cbn [negb]. rewrite Ho, Hl. reflexivity.
Qed.
Print Assumptions C34_no_matrix.

Example C34_ex : provides ex_env (Some (DMeta "raw"%string ex_region)) (fresh PlainDTW) ex_matrix /\ square (a3x ex_d * a3y ex_d) ex_matrix /\
  (exists ds, find_centroid_and_distances ex_env (TPlain ex_d) (Some (DMeta "raw"%string ex_region)) true (fresh PlainDTW) = Ok (Some (0, 0 + 1)%Z, Some ds)) /\
  valid_partition ex_p 1 3 /\
  (exists ds, find_centroid_and_distances ex_env (TCluster (TPlain ex_d) ex_p 0) (Some (DMeta "raw"%string ex_region)) true (fresh PlainDTW) = Ok (Some (0, 0)%Z, Some ds)).
Proof.
  split; [ apply (C48_file_is_used ex_env "raw"%string ex_region 1 3 false ex_matrix); [ split; reflexivity | reflexivity | exact ex_square ] | ].
  split; [ exact ex_square | split; [ eexists; vm_compute; reflexivity | split; [ | eexists; vm_compute; reflexivity ] ] ].
  split; [ reflexivity | split; [ reflexivity | split; [ reflexivity | split ] ] ].
  - intros [ i j ] l [ H1 H2 ] Hl. cbn in H1, H2. unfold label_at in Hl. cbn [fst snd] in Hl.
    assert (i = 0)%Z as -> by lia. assert (j = 0 \/ j = 1 \/ j = 2)%Z as [ -> | [ -> | -> ] ] by lia; vm_compute in Hl; injection Hl as <-; cbn; lia.
  - exists (0, 1)%Z. split; [ split; cbn; lia | reflexivity ].
Qed.

(* ---------------------------------------------------------------- C76 *)
(** the sum, over all points of the region, of the squared distance to the medoid of the point's own cluster *)
Theorem C76_intra_cluster_cost : forall env (p : crisp) (d : arr3 fnum) x y medoids md o M (dist : point -> point -> Q) (lab : point -> nat) medoid,
  valid_partition p x y -> wf3 d -> a3x d = x -> a3y d = y -> square (x * y) M -> provides env md o M ->
  (forall q pt, in_grid x y q -> in_grid x y pt -> entry M (index_of y q) (index_of y pt) = Some (Fin (dist q pt))) ->
  (forall pt, in_grid x y pt -> label_at p pt (Z.of_nat (lab pt))) ->
  (forall c, c < Z.to_nat (pk p) -> nth_error medoids c = Some (medoid c)) -> (forall m, In m medoids -> in_grid x y m) ->
  exists cost, intra_cluster_cost env p medoids (TPlain d) md o = Ok cost /\
    feqv cost (Fin (qsum (map (fun pt => (dist (medoid (lab pt)) pt * dist (medoid (lab pt)) pt)%Q) (grid x y)))).
Proof.
  intros env p d x y medoids md o M dist lab medoid Hv Hw Ex Ey Hs Hp Hdist Hlab Hmed Hin.
  assert (Hlen : (pk p <= Z.of_nat (length medoids))%Z).
  { destruct (Z.leb_spec (pk p) (Z.of_nat (length medoids))) as [ H | H ]; [ exact H | ]. exfalso.
    assert (Hx : length medoids < Z.to_nat (pk p)) by lia. specialize (Hmed _ Hx).
    assert (length medoids < length medoids) by (apply nth_error_Some; congruence). lia. }
  destruct (cost_spec env p d x y medoids md o M Hv Hw Ex Ey Hlen Hin Hs) as (c & E & H).
  - intros i j v Ev.
    assert (Hi : i < x * y).
    { destruct Hs as (_ & L & _). rewrite <- L. unfold entry in Ev. destruct (nth_error (m_rows M) i) eqn:E; [ | discriminate ].
      apply nth_error_Some. congruence. }
    assert (Hj : j < x * y).
    { destruct Hs as (_ & L & R). unfold entry in Ev. destruct (nth_error (m_rows M) i) as [ row | ] eqn:E; [ | discriminate ].
      rewrite <- (R row (nth_error_In _ _ E)). apply nth_error_Some. congruence. }
    assert (I : forall k, k < x * y -> index_of y (decode y k) = k).
    { intros k Hk. unfold index_of, decode. cbn [fst snd]. rewrite !Nat2Z.id. apply flat_recompose. intros ->. lia. }
    pose proof (Hdist _ _ (decode_in_grid _ _ _ Hi) (decode_in_grid _ _ _ Hj)) as D. rewrite (I i Hi), (I j Hj), Ev in D.
    injection D as ->. reflexivity.
  - exact Hp.
  - exists c. split; [ exact E | ]. rewrite H. cbn. apply qsum_ext. intros pt Hpt. apply in_grid_iff in Hpt. cbn zeta.
    destruct (label_of_spec p x y pt Hv Hpt) as [ Hla Hb ]. pose proof (Hlab pt Hpt) as Hl. unfold label_at in *. rewrite Hla in Hl. injection Hl as Hl.
    rewrite Hl, Nat2Z.id. assert (Hc : lab pt < Z.to_nat (pk p)) by lia. specialize (Hmed _ Hc).
    rewrite (nth_error_nth _ _ _ Hmed). unfold entry_or. rewrite (Hdist _ _ (Hin _ (nth_error_In _ _ Hmed)) Hpt). reflexivity.
Qed.
Print Assumptions C76_intra_cluster_cost.

(** too few medoids: IndexError *)
Theorem C76_missing_medoid : forall env (p : crisp) (d : arr3 fnum) x y md o, valid_partition p x y -> wf3 d -> a3x d = x -> a3y d = y ->
  intra_cluster_cost env p [] (TPlain d) md o = Raise IndexError.
Proof.
  intros env p d x y md o Hv Hw Ex Ey. unfold intra_cluster_cost. rewrite (create_all_spt_clusters_ok p d x y Hv Ex Ey). cbn [bind].
  assert (0 < pk p)%Z.
  { destruct Hv as (_ & _ & _ & Hl & pt & Hg & Hp). specialize (Hl pt _ Hg Hp). lia. }
  unfold zrange. replace (Z.to_nat (pk p - 0)) with (S (Z.to_nat (pk p - 1))) by lia. reflexivity.
Qed.
Print Assumptions C76_missing_medoid.

Example C76_ex : exists c, intra_cluster_cost ex_env ex_p [(0, 2); (0, 1)]%Z (TPlain ex_d) (Some (DMeta "raw"%string ex_region)) (fresh PlainDTW) = Ok c /\
  feqv c (Fin 100).
Proof. eexists. split; vm_compute; reflexivity. Qed.
