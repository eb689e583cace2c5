(** C138: the DBSCAN clustering of a region. *)
From Coq Require Import Ascii String Lia.
From Verif Require Import Base.Py Base.PyFacts Base.Str Base.StrFacts Base.Arr Base.ArrFacts Base.Float Base.FloatFacts Model.Region Model.Distance Model.Clustering Model.SolverFiles
  Model.PartitionAnalysis Model.Dbscan Spec.Grid Spec.Partition Spec.Distance Spec.Dbscan Proofs.RegionFacts Proofs.PartitionFacts Proofs.DistanceFacts Proofs.VarianceFacts
  Proofs.ClusteringFacts Proofs.DbscanFacts Props.Basics.
From Coq Require Import ZifyBool ZifyNat.
Local Notation length := List.length.
Local Open Scope nat_scope.

(** The partition: cluster 0 holds the noise, each other cluster one group of density-connected points, whether medoids are
    asked for or not.  The printed number of noise points is the size of cluster 0. *)
Theorem C138_partition : forall dbscan g M r md x y labels,
  d_matrix g = Some M -> dbscan M = Ok labels -> t_x r = x -> t_y r = y -> 0 < x * y -> dbscan_labels (x * y) M labels ->
  exists p printed, density_partition x y M p /\ n_noise printed = cluster_len p 0 /\
    forall with_medoids, dbscan_partition_impl dbscan (Some g) (TSpt r md) with_medoids = Ok (p, printed).
Proof.
  intros dbscan g M r md x y labels HM HD <- <- Hpos HL. destruct (from_density_labels _ _ _ _ Hpos HL) as (p & Ep & HP & _ & Hn & _).
  exists p, (Counts (length (distinct labels)) (length (filter (Z.eqb (-1)) labels))). split; [ exact HP | ]. split; [ exact Hn | ].
  intros wm. unfold dbscan_partition_impl. rewrite HM. cbn [bind]. rewrite HD. cbn [bind]. rewrite Ep. reflexivity.
Qed.
Print Assumptions C138_partition.

(** The printed number of clusters is the number of clusters of the partition exactly when there is noise.  Without noise the
    partition has one more: cluster 0, which is empty. *)
Theorem C138_number_of_clusters_refuted : forall dbscan g M r md x y labels p printed wm,
  d_matrix g = Some M -> dbscan M = Ok labels -> t_x r = x -> t_y r = y -> 0 < x * y -> dbscan_labels (x * y) M labels ->
  dbscan_partition_impl dbscan (Some g) (TSpt r md) wm = Ok (p, printed) ->
  let noise := exists pt, in_grid x y pt /\ label_at p pt 0 in
  (noise -> Z.of_nat (n_clusters printed) = pk p) /\
  (~ noise -> (Z.of_nat (n_clusters printed) = pk p - 1)%Z /\ n_noise printed = 0 /\ cluster_len p 0 = 0).
Proof.
  intros dbscan g M r md x y labels p printed wm HM HD <- <- Hpos HL E noise. destruct (from_density_labels _ _ _ _ Hpos HL) as (p' & Ep & (HV & _) & Hat & Hn & Hc).
  unfold dbscan_partition_impl in E. rewrite HM in E. cbn [bind] in E. rewrite HD in E. cbn [bind] in E. rewrite Ep in E. cbn [bind] in E. injection E as -> <-.
  cbn [n_clusters n_noise]. rewrite Hn, Hc.
  assert (Hlen : cluster_len p 0 = 0 <-> ~ noise).
  { rewrite (cluster_len_spec p _ _ 0 HV). split.
    - intros H (pt & Hg & L). assert (A : In pt (filter (fun q => (label_of p q =? 0)%Z) (grid (t_x r) (t_y r)))).
      { apply filter_In. split; [ apply in_grid_iff, Hg | ]. destruct (label_of_spec p _ _ pt HV Hg) as [ L' _ ]. unfold label_at in *. rewrite L in L'. injection L' as <-. reflexivity. }
      apply length_zero_iff_nil in H. rewrite H in A. exact A.
    - intros H. destruct (filter _ (grid _ _)) as [ | pt l ] eqn:E; [ reflexivity | exfalso ]. apply H. exists pt.
      assert (A : In pt (filter (fun q => (label_of p q =? 0)%Z) (grid (t_x r) (t_y r)))) by (rewrite E; left; reflexivity).
      apply filter_In in A. destruct A as [ A B ]. apply in_grid_iff in A. split; [ exact A | ]. destruct (label_of_spec p _ _ pt HV A) as [ L _ ].
      apply Z.eqb_eq in B. rewrite B in L. exact L. }
  split.
  - intros H. destruct (Nat.eqb_spec (cluster_len p 0) 0) as [ E | _ ]; [ exfalso; apply Hlen in E; contradiction | lia ].
  - intros H. apply Hlen in H. rewrite H, Nat.eqb_refl. lia.
Qed.
Print Assumptions C138_number_of_clusters_refuted.

(** Imported from another module the algorithm never makes a partition: whatever the region, the matrix of its distance measure
    and the arguments, it can only return a partition that was saved before. *)
Theorem C138_imported_refuted : forall {F} dbscan env fc k o dist_repr (fs : @files F) r md wm save_csv_at pickle_home,
  (forall m, md = Some m -> pickle_home <> None -> f_pickles fs (dbscan_pickle_path k m dist_repr) = None) ->
  let '(fs', _, result) := dbscan_partition dbscan env fc None false k o dist_repr fs (TSpt r md) wm save_csv_at pickle_home in
  fs' = fs /\
  result = match try_load_distance_matrix env (option_map dmeta_of md) o with (Ok _, _) => Raise NameError | (Raise e, _) => Raise e end.
Proof.
  intros F dbscan env fc k o dist_repr fs r md wm save home H. unfold dbscan_partition.
  assert ((match home, md with
           | Some _, Some m => match load_file (f_pickles fs) (dbscan_pickle_path k m dist_repr) as_partition with Ok p => Some p | Raise _ => None end
           | _, _ => None
           end) = None) as ->.
  { destruct home, md as [ m | ]; try reflexivity. unfold load_file. rewrite (H m eq_refl) by discriminate. reflexivity. }
  destruct (try_load_distance_matrix env (option_map dmeta_of md) o) as [ [ m | e ] o' ]; split; reflexivity.
Qed.
Print Assumptions C138_imported_refuted.

(** partition_2d fails for every spatial region *)
Theorem C138_spatial_refuted : forall {F} dbscan env fc global shared k o dist_repr (fs : @files F) s,
  dbscan_partition_2d dbscan env fc global shared k o dist_repr fs s = (fs, o, Raise AttributeError).
Proof. reflexivity. Qed.
Print Assumptions C138_spatial_refuted.

(** A partition made with a pickle directory is the one that every later call for the same region, k and distance measure
    returns, whatever has become of the distances, and without writing it again. *)
Theorem C138_saved : forall {F} dbscan env fc global shared k o dist_repr (fs fs1 : @files F) o1 r m wm home p c,
  dbscan_partition dbscan env fc global shared k o dist_repr fs (TSpt r (Some m)) wm None (Some home) = (fs1, o1, Ok (p, c)) ->
  f_pickles fs1 (dbscan_pickle_path k m dist_repr) = Some (FPartition p) /\
  (forall q, q <> dbscan_pickle_path k m dist_repr -> f_pickles fs1 q = f_pickles fs q) /\
  forall dbscan' env' global' shared' o' wm' home' fs2, f_pickles fs2 (dbscan_pickle_path k m dist_repr) = f_pickles fs1 (dbscan_pickle_path k m dist_repr) ->
    dbscan_partition dbscan' env' fc global' shared' k o' dist_repr fs2 (TSpt r (Some m)) wm' None (Some home') = (fs2, o', Ok (p, None)).
Proof.
  intros F dbscan env fc global shared k o dist_repr fs fs1 o1 r m wm home p c E.
  assert (A : f_pickles fs1 (dbscan_pickle_path k m dist_repr) = Some (FPartition p) /\ (forall q, q <> dbscan_pickle_path k m dist_repr -> f_pickles fs1 q = f_pickles fs q)).
  { unfold dbscan_partition in E. cbn [option_map] in E. unfold load_file in E. destruct (f_pickles fs (dbscan_pickle_path k m dist_repr)) as [ [ q | ? | ? | ] | ] eqn:Ef; cbn [as_partition] in E.
    1: { injection E as <- <- <- <-. auto. }
    all: destruct (try_load_distance_matrix _ _ _) as [ [ x | e ] o' ]; [ | discriminate ];
      destruct (dbscan_partition_impl _ _ _ _) as [ [ q cc ] | e ]; [ | discriminate ]; injection E as <- <- <- <-; cbn [f_pickles]; unfold fs_put;
      (split; [ rewrite String.eqb_refl; reflexivity | intros q' Hq; rewrite (proj2 (String.eqb_neq _ _) Hq); reflexivity ]). }
  destruct A as [ A B ]. split; [ exact A | ]. split; [ exact B | ]. intros dbscan' env' global' shared' o' wm' home' fs2 E2. rewrite A in E2.
  unfold dbscan_partition. unfold load_file. rewrite E2. reflexivity.
Qed.
Print Assumptions C138_saved.

(** The report has one row for each of the k clusters of the metadata, not of the partition: with the metadata that is made
    without a k it is the header alone, however many clusters there are. *)
Theorem C138_report_refuted : forall {F} dbscan env fc global shared o dist_repr (fs fs1 : @files F) o1 r m wm home pickle_home p c,
  dbscan_partition dbscan env fc global shared dbscan_default_k o dist_repr fs (TSpt r (Some m)) wm (Some home) pickle_home = (fs1, o1, Ok (p, c)) ->
  f_texts fs1 (dbscan_report_path dbscan_default_k m dist_repr home) = Some [csv_line ["cluster"; "points"; "coverage"]]%string /\
  forall q, q <> dbscan_report_path dbscan_default_k m dist_repr home -> f_texts fs1 q = f_texts fs q.
Proof.
  intros F dbscan env fc global shared o dist_repr fs fs1 o1 r m wm home pickle_home p c E.
  assert (W : forall p0, dbscan_save_to_csv fc fs dbscan_default_k m dist_repr p0 home =
            (Files (f_pickles fs) (fun q => if (q =? dbscan_report_path dbscan_default_k m dist_repr home)%string then Some [csv_line ["cluster"; "points"; "coverage"]]%string else f_texts fs q), Ok tt)) by reflexivity.
  assert (T : f_texts fs1 = f_texts (fst (dbscan_save_to_csv fc fs dbscan_default_k m dist_repr (fst p) home))).
  { unfold dbscan_partition in E. destruct pickle_home as [ h | ].
    - cbn [option_map] in E. destruct (load_file _ _ _) as [ q | e ].
      + rewrite W in E. injection E as <- <- <- <-. reflexivity.
      + destruct (try_load_distance_matrix _ _ _) as [ [ x | e' ] o' ]; [ | discriminate ]. destruct (dbscan_partition_impl _ _ _ _) as [ [ q cc ] | e' ]; [ | discriminate ].
        rewrite W in E. injection E as <- <- <- <-. reflexivity.
    - cbn [option_map] in E. destruct (try_load_distance_matrix _ _ _) as [ [ x | e' ] o' ]; [ | discriminate ]. destruct (dbscan_partition_impl _ _ _ _) as [ [ q cc ] | e' ]; [ | discriminate ].
      rewrite W in E. injection E as <- <- <- <-. reflexivity. }
  rewrite T, W. cbn [fst f_texts]. split; [ rewrite String.eqb_refl; reflexivity | ]. intros q Hq. rewrite (proj2 (String.eqb_neq _ _) Hq). reflexivity.
Qed.
Print Assumptions C138_report_refuted.

(** The name of a metadata gives the metadata back, different numbers have different names, and the factory of the other
    clusterings knows neither the name nor the type: a suite of DBSCAN clusterings cannot be made. *)
Theorem C138_names : forall k,
  dbscan_from_repr (dbscan_repr k) = Ok k /\ (forall k', dbscan_repr k' = dbscan_repr k -> k' = k) /\
  factory_from_repr (dbscan_repr k) = Raise ValueError /\
  (forall c, c_repr c <> dbscan_repr k) /\
  forall ks ps, dbscan_suite (k :: ks) ps = Raise ValueError.
Proof.
  intros k. split; [ apply dbscan_round_trip | ]. split.
  { intros k' E. pose proof (dbscan_round_trip k') as A. rewrite E, dbscan_round_trip in A. congruence. }
  split. { unfold factory_from_repr. rewrite dbscan_split. reflexivity. }
  split; [ | reflexivity ]. intros [ k' | m ] E.
  - apply (f_equal (String.get 0)) in E. change (Some "r"%char = Some "d"%char) in E. discriminate E.
  - unfold c_repr, kmeta_repr in E. apply (f_equal (String.get 0)) in E. destruct (km_init m); change (Some "k"%char = Some "d"%char) in E; discriminate E.
Qed.
Print Assumptions C138_names.

(** The program: with the matrix of the 80-by-80 region it makes the partition of C138_partition; when the file is missing, or
    has another shape, it stops with ValueError. *)
Theorem C138_program : forall {F} dbscan env fc create_instance (fs : @files F) spt,
  create_instance dbscan_region = Ok spt ->
  let file := np_load env "raw/distances_whole_brazil_2015_2015_1spd_scaled.npy" in
  let result := dbscan_program dbscan env fc create_instance fs in
  fst result = fs /\
  (file = Raise IOError -> snd result = Raise ValueError) /\
  (forall M, file = Ok M -> ~ (length (m_rows M) = 80 * 80 /\ m_cols M = 80 * 80) -> snd result = Raise ValueError) /\
  (forall M labels, file = Ok M -> square (80 * 80) M -> t_x spt = 80 -> t_y spt = 80 -> dbscan M = Ok labels -> dbscan_labels (80 * 80) M labels ->
     exists p printed, density_partition 80 80 M p /\ n_noise printed = cluster_len p 0 /\ snd result = Ok ((p, None), Some printed)).
Proof.
  intros F dbscan env fc create_instance fs spt Hc file result.
  assert (Hf : distances_filename dbscan_region = "raw/distances_whole_brazil_2015_2015_1spd_scaled.npy"%string) by reflexivity.
  assert (Hrun : forall M, file = Ok M -> length (m_rows M) = 80 * 80 /\ m_cols M = 80 * 80 ->
            result = (fs, '(p, printed) <- dbscan_partition_impl dbscan (Some (DObj PlainDTW (Some M) false)) (TSpt spt (Some dbscan_region)) true ;; Ok ((p, None), Some printed))).
  { intros M HM [ H1 H2 ]. unfold result, dbscan_program. rewrite Hc. unfold load_distance_matrix_2d, base_load. cbn [d_kind]. rewrite Hf. fold file. rewrite HM.
    assert (Hsz : ((Z.of_nat (length (m_rows M)) =? r_points (rm_region dbscan_region))%Z && (Z.of_nat (m_cols M) =? r_points (rm_region dbscan_region))%Z) = true).
    { change (r_points (rm_region dbscan_region)) with 6400%Z. rewrite H1, H2. apply Bool.andb_true_iff. split; apply Z.eqb_eq; lia. }
    rewrite Hsz. cbn [d_weighted]. unfold dbscan_partition, try_load_distance_matrix, load_distance_matrix_md. cbn [option_map dmeta_of md_filename md_region].
    unfold load_distance_matrix_2d, base_load. cbn [d_kind]. rewrite Hf. fold file. rewrite HM, Hsz. cbn [d_weighted].
    destruct (dbscan_partition_impl _ _ _ _) as [ [ p c ] | e ]; reflexivity. }
  assert (Hbad : forall M, file = Ok M -> ~ (length (m_rows M) = 80 * 80 /\ m_cols M = 80 * 80) -> result = (fs, Raise ValueError)).
  { intros M HM Hn. unfold result, dbscan_program. rewrite Hc. unfold load_distance_matrix_2d, base_load. cbn [d_kind]. rewrite Hf. fold file. rewrite HM.
    assert (Hsz : ((Z.of_nat (length (m_rows M)) =? r_points (rm_region dbscan_region))%Z && (Z.of_nat (m_cols M) =? r_points (rm_region dbscan_region))%Z) = false).
    { change (r_points (rm_region dbscan_region)) with 6400%Z. apply Bool.not_true_iff_false. rewrite Bool.andb_true_iff. intros [ A B ]. apply Hn. lia. }
    rewrite Hsz. reflexivity. }
  assert (Hmiss : file = Raise IOError -> result = (fs, Raise ValueError)).
  { intros HM. unfold result, dbscan_program. rewrite Hc. unfold load_distance_matrix_2d, base_load. cbn [d_kind]. rewrite Hf. fold file. rewrite HM.
    unfold dbscan_partition, try_load_distance_matrix, load_distance_matrix_md. cbn [option_map dmeta_of md_filename md_region].
    unfold load_distance_matrix_2d, base_load. cbn [d_kind]. rewrite Hf. fold file. rewrite HM. reflexivity. }
  split; [ | split; [ | split ] ].
  - destruct file as [ M | e ] eqn:Ef; [ assert (Hdec : {length (m_rows M) = 80 * 80 /\ m_cols M = 80 * 80} + {~ (length (m_rows M) = 80 * 80 /\ m_cols M = 80 * 80)}) | ].
    + destruct (Nat.eq_dec (length (m_rows M)) (80 * 80)); [ destruct (Nat.eq_dec (m_cols M) (80 * 80)) | ]; [ left; tauto | right; tauto | right; tauto ].
    + destruct Hdec as [ H | H ]; [ rewrite (Hrun M eq_refl H) | rewrite (Hbad M eq_refl H) ]; reflexivity.
    + assert (Hdec : {e = IOError} + {e <> IOError}) by decide equality. destruct Hdec as [ -> | Hn ]; [ rewrite (Hmiss eq_refl); reflexivity | ].
      unfold result, dbscan_program. rewrite Hc. unfold load_distance_matrix_2d, base_load. cbn [d_kind]. rewrite Hf. fold file. rewrite Ef. destruct e; try contradiction; reflexivity.
  - intros H. rewrite (Hmiss H). reflexivity.
  - intros M HM H. rewrite (Hbad M HM H). reflexivity.
  - intros M labels HM (Hc1 & Hr & _) Hx Hy HD HL.
    destruct (C138_partition dbscan (DObj PlainDTW (Some M) false) M spt (Some dbscan_region) 80 80 labels eq_refl HD Hx Hy ltac:(lia) HL) as (p & printed & HP & Hn & E).
    exists p, printed. split; [ exact HP | ]. split; [ exact Hn | ]. rewrite (Hrun M HM (conj Hr Hc1)), E. reflexivity.
Qed.
Print Assumptions C138_program.

(** Six points of a 2-by-3 region: five near each other, and one far away, which is noise.  Without the far point there is no
    noise, one cluster is printed and the partition has two, of which cluster 0 is empty. *)
Definition ex138_matrix (n : nat) : mat := Mat n (map (fun i => map (fun j => if (i / 5 =? j / 5)%nat then Fin 0 else Fin 9) (seq 0 n)) (seq 0 n)).
Definition ex138_labels (n : nat) : list Z := map (fun i => if (i <? 5)%nat then 0%Z else (-1)%Z) (seq 0 n).
Definition ex138_region (x y : nat) : stregion fnum := TPlain (mk3 1 x y (repeat (Fin 1) (x * y))).
Lemma ex138_is_dbscan : forall n, n = 5 \/ n = 6 -> dbscan_labels n (ex138_matrix n) (ex138_labels n).
Proof.
  intros n Hn. assert (Hcore : forall i, i < n -> (core n (ex138_matrix n) i <-> i < 5)).
  { intros i Hi. rewrite core_count. destruct Hn as [ -> | -> ]; do 5 (destruct i as [ | i ]; [ vm_compute; split; intros; lia | ]); [ lia | ]. destruct i; [ vm_compute; lia | lia ]. }
  assert (Hlab : forall i, i < n -> nth_error (ex138_labels n) i = Some (if (i <? 5)%nat then 0%Z else (-1)%Z)).
  { intros i Hi. unfold ex138_labels. rewrite nth_error_map. replace (nth_error (seq 0 n) i) with (Some i); [ reflexivity | ].
    destruct Hn as [ -> | -> ]; do 6 (destruct i as [ | i ]; [ try reflexivity; lia | ]); lia. }
  assert (Hnear : forall i j, i < n -> j < n -> (near n (ex138_matrix n) i j <-> i / 5 = j / 5)).
  { intros i j Hi Hj. rewrite nearb_spec. destruct Hn as [ -> | -> ].
    - do 5 (destruct i as [ | i ]; [ do 5 (destruct j as [ | j ]; [ vm_compute; split; [ reflexivity | split; [ lia | reflexivity ] ] | ]); lia | ]). lia.
    - assert (Hd : forall a, a < 6 -> a / 5 = if (a <? 5)%nat then 0 else 1) by (intros a Ha; do 6 (destruct a as [ | a ]; [ reflexivity | ]); lia).
      rewrite !Hd by assumption. clear Hd. do 6 (destruct i as [ | i ]; [ do 6 (destruct j as [ | j ]; [ vm_compute; split; [ intros [ _ E ]; first [ reflexivity | discriminate E ] | intros E; first [ discriminate E | split; [ lia | reflexivity ] ] ] | ]); lia | ]). lia. }
  split; [ | split; [ | split; [ | split; [ | split; [ | split ] ] ] ] ].
  - unfold ex138_labels. rewrite map_length. apply seq_length.
  - intros l Hl. apply in_map_iff in Hl. destruct Hl as (i & <- & _). destruct (_ <? _)%nat; lia.
  - intros l c Hl Hc. apply in_map_iff in Hl. destruct Hl as (i & <- & Hi). destruct (Nat.ltb_spec i 5); [ | lia ]. replace c with 0%Z by lia.
    apply in_map_iff. exists i. split; [ | exact Hi ]. rewrite (proj2 (Nat.ltb_lt _ _) H). reflexivity.
  - intros i Hi Hc. apply (Hcore i Hi) in Hc. exists 0%Z. rewrite (Hlab i Hi), (proj2 (Nat.ltb_lt _ _) Hc). split; [ reflexivity | lia ].
  - intros i j Hi Hj Hci Hcj. pose proof Hci as Hi5. pose proof Hcj as Hj5. apply (Hcore i Hi) in Hi5. apply (Hcore j Hj) in Hj5.
    rewrite (Hlab i Hi), (Hlab j Hj), (proj2 (Nat.ltb_lt _ _) Hi5), (proj2 (Nat.ltb_lt _ _) Hj5). split; [ intros _ | reflexivity ].
    apply connected_step with i; [ apply connected_self | exact Hcj | ]. apply Hnear; auto. rewrite !Nat.div_small by assumption. reflexivity.
  - intros i Hi Hnc (j & Hj & Hcj & Hne). exfalso. apply (Hnear j i Hj Hi) in Hne. apply (Hcore j Hj) in Hcj. rewrite (Hcore i Hi) in Hnc.
    rewrite (Nat.div_small j) in Hne by assumption. assert (i = 5) as -> by lia. discriminate Hne.
  - intros i Hi Hnc _. rewrite (Hcore i Hi) in Hnc. rewrite (Hlab i Hi). destruct (Nat.ltb_spec i 5); [ lia | reflexivity ].
Qed.
Example C138_ex :
  let run x y := dbscan_partition_impl (fun M => Ok (ex138_labels (m_cols M))) (Some (DObj PlainDTW (Some (ex138_matrix (x * y))) false)) (TSpt (ex138_region x y) None) true in
  dbscan_labels (2 * 3) (ex138_matrix (2 * 3)) (ex138_labels 6) /\ dbscan_labels (1 * 5) (ex138_matrix (1 * 5)) (ex138_labels 5) /\
  run 2 3 = Ok (Crisp (mk2 2 3 [1; 1; 1; 1; 1; 0]%Z) 2, Counts 2 1) /\
  run 1 5 = Ok (Crisp (mk2 1 5 [1; 1; 1; 1; 1]%Z) 2, Counts 1 0).
Proof.
  cbv zeta. split; [ apply (ex138_is_dbscan 6); auto | ]. split; [ apply (ex138_is_dbscan 5); auto | ]. split; reflexivity.
Qed.

(** A call that makes, reports and saves a partition, and the same call for a module that imports the algorithm. *)
Definition ex138_meta : rmeta := RMeta "tiny" (Rect 0 2 0 3) 2015 2015 1 false "raw".
Definition ex138_env : denv := DEnv (fun _ => Ok (ex138_matrix 6)) (fun _ _ => NaN) (fun _ _ => NaN) NaN.
Example C138_ex_saved :
  let call shared := dbscan_partition (M := unit) (fun M => Ok (ex138_labels (m_cols M))) ex138_env (fun _ => "x"%string) None shared 0 (DObj PlainDTW None false) "dtw"
                 (Files (fun _ => None) (fun _ => None)) (TSpt (ex138_region 2 3) (Some ex138_meta)) true (Some "outputs"%string) (Some "pickle"%string) in
  snd (call true) = Ok ((Crisp (mk2 2 3 [1; 1; 1; 1; 1; 0]%Z) 2, None), Some (Counts 2 1)) /\
  f_texts (fst (fst (call true))) "outputs/tiny_2015_2015_1spd/dtw/dbscan_k0/clustering__dbscan_k0.csv" = Some ["cluster points coverage"]%string /\
  f_pickles (fst (fst (call true))) "pickle/tiny_2015_2015_1spd/dtw/dbscan_k0/partition_dbscan_k0.pkl"%string = Some (FPartition (Crisp (mk2 2 3 [1; 1; 1; 1; 1; 0]%Z) 2, None)) /\
  snd (call false) = Raise NameError.
Proof. vm_compute. repeat split. Qed.
