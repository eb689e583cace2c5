(** Properties C60, C66, C79, C80: the files of solvers and partitions. *)
From Coq Require Import ZifyBool ZifyNat QArith Lqa Field Qfield.
From Verif Require Import Base.Py Base.PyFacts Base.Arr Base.ArrFacts Base.Str Base.StrFacts Base.Float Model.Region Model.Scaling Model.Series
  Model.Errors Model.Models Model.Clustering Model.Solver Model.SolverFiles Spec.Grid Spec.Partition Spec.SolverFiles
  Proofs.RegionFacts Proofs.PartitionFacts Proofs.ClusteringFacts Props.Clustering Props.Solver Spec.Solver Proofs.NameFacts Proofs.FilesFacts.
Local Close Scope Q_scope.
Local Open Scope nat_scope.
Local Notation length := List.length.

(* ---------------------------------------------------------------- C60 *)
(** The name of a CSV file of a solver with clustering determines everything that it is about: the kind of file, the
    clustering, the prediction region, the number of test samples, the number of forecast samples (0 or less stands
    for an in-sample query) and the type of error. *)
Theorem C60_csv_names : forall m m' c c' d d' p p' g g' f f',
  sm_kind m = SClustering c d -> sm_kind m' = SClustering c' d' ->
  has_char "_" (mode_name c) = false -> has_char "_" (mode_name c') = false ->
  known_prefix p -> known_prefix p' ->
  csv_filename m p g f = csv_filename m' p' g' f' ->
  p = p' /\ same_clustering c c' /\ g = g' /\ sm_test_len m = sm_test_len m' /\ (f = f' \/ (f <= 0 /\ f' <= 0)%Z) /\
  sm_error m = sm_error m'.
Proof.
  intros m m' c c' d d' p p' g g' f f' Hk Hk' Hm Hm' Hp Hp'. unfold csv_filename. rewrite Hk, Hk'. intros E.
  apply prefix_clustering in E; auto. destruct E as [-> E]. apply c_repr_prefix in E; auto. destruct E as [Ec E].
  apply (region_prefix g g') in E. destruct E as [-> E].
  apply (sapp_inj_l "tp") in E. apply str_int_prefix in E; try reflexivity. destruct E as [Et E].
  apply (sapp_inj_l "__tf") in E. apply (forecast_prefix f f') in E. destruct E as [Ef E].
  apply sapp_inj_r in E. auto 10.
Qed.
Print Assumptions C60_csv_names.

(** The same for solvers without clustering, and for those of a clustering suite. *)
Theorem C60_basic_csv_names : forall m m' p p' g g' f f',
  (forall c d, sm_kind m <> SClustering c d) -> (forall c d, sm_kind m' <> SClustering c d) ->
  known_prefix p -> known_prefix p' ->
  csv_filename m p g f = csv_filename m' p' g' f' ->
  p = p' /\ g = g' /\ sm_test_len m = sm_test_len m' /\ f = f' /\ sm_error m = sm_error m'.
Proof.
  intros m m' p p' g g' f f' Hk Hk' Hp Hp' E.
  assert (E' : (p ++ "__" ++ prediction_region_as_str g ++ "__" ++ "tp" ++ str_int (sm_test_len m) ++ "__tf" ++ str_int f ++ "__" ++ sm_error m ++ ".csv" =
    p' ++ "__" ++ prediction_region_as_str g' ++ "__" ++ "tp" ++ str_int (sm_test_len m') ++ "__tf" ++ str_int f' ++ "__" ++ sm_error m' ++ ".csv")%string).
  { unfold csv_filename in E. destruct (sm_kind m) as [|c d|s]; [|exfalso; eapply Hk; eauto|];
      (destruct (sm_kind m') as [|c' d'|s']; [|exfalso; eapply Hk'; eauto|]); exact E. }
  clear E. apply prefix_basic in E'; auto. destruct E' as [-> E]. apply region_prefix in E. destruct E as [-> E].
  apply (sapp_inj_l "tp") in E. apply str_int_prefix in E; try reflexivity. destruct E as [Et E].
  apply (sapp_inj_l "__tf") in E. apply str_int_prefix in E; try reflexivity. destruct E as [Ef E].
  apply (sapp_inj_l "__") in E. apply sapp_inj_r in E. auto.
Qed.
Print Assumptions C60_basic_csv_names.

(** The complete path, below any output directory, also determines the region (up to its coordinates), the distance
    measure and the model parameters (up to the distance measure of k-NN): two queries that differ in anything else
    write to different files. *)
Theorem C60_csv_files : forall m m' c c' d d' home p p' g g' f f',
  sm_kind m = SClustering c d -> sm_kind m' = SClustering c' d' ->
  clean_place c (sm_region m) d -> clean_place c' (sm_region m') d' ->
  has_char "/" (sm_error m) = false -> has_char "/" (sm_error m') = false ->
  known_prefix p -> known_prefix p' ->
  csv_path m home p g f = csv_path m' home p' g' f' ->
  same_region (sm_region m) (sm_region m') /\ d = d' /\ same_clustering c c' /\ same_params (sm_params m) (sm_params m') /\
  p = p' /\ g = g' /\ sm_test_len m = sm_test_len m' /\ (f = f' \/ (f <= 0 /\ f' <= 0)%Z) /\ sm_error m = sm_error m'.
Proof.
  intros m m' c c' d d' home p p' g g' f f' Hk Hk' Hc Hc' He He' Hp Hp'.
  destruct (path_join_dir home) as [pre Hpre].
  assert (P : forall m c d p g f, sm_kind m = SClustering c d -> clean_place c (sm_region m) d -> has_char "/" (sm_error m) = false -> known_prefix p ->
    let l := [rmeta_repr (sm_region m); d; c_repr c; params_repr (sm_params m); prediction_region_as_str g; csv_filename m p g f] in
    csv_path m home p g f = (pre ++ join "/" l)%string /\ forall s, In s l -> has_char "/" s = false).
  { clear - Hpre. intros m c d p g f Hk ((Cs & Cu) & Rs & Ds & Dn) He Hp.
    pose proof (c_repr_no_slash c Cs). pose proof (c_repr_nonempty c). pose proof (rmeta_repr_no_slash _ Rs). pose proof (rmeta_repr_nonempty (sm_region m)).
    pose proof (params_no_slash (sm_params m)). pose proof (params_nonempty (sm_params m)). pose proof (region_str_no_slash g).
    assert (N : forall n, has_char "/" (str_int n) = false) by (intros; apply str_int_no_char; auto; discriminate).
    assert (F : has_char "/" (csv_filename m p g f) = false /\ csv_filename m p g f <> ""%string).
    { unfold csv_filename. rewrite Hk. split.
      - rewrite !has_char_app, H, H5, !N, He. destruct Hp as [<-|[<-|[<-|[]]]]; destruct (0 <? f)%Z; rewrite ?N; reflexivity.
      - destruct Hp as [<-|[<-|[<-|[]]]]; discriminate. }
    destruct F as [F1 F2].
    intros l. split; [|intros s [<-|[<-|[<-|[<-|[<-|[<-|[]]]]]]]; auto].
    unfold csv_path, csv_dir, solver_output_dir. rewrite Hk. unfold clustering_output_dir, region_output_dir, clustering_subdir.
    rewrite Hpre by auto using no_slash_start. change (rmeta_repr (sm_region m)) with (join "/" [rmeta_repr (sm_region m)]) at 1.
    rewrite path_join_names2; auto; [|discriminate|intros s [<-|[]]; auto]. cbn [app].
    rewrite path_join_names; auto; [|discriminate|intros s [<-|[<-|[<-|[]]]]; auto]. cbn [app].
    rewrite path_join_names; auto; [|discriminate|intros s [<-|[<-|[<-|[<-|[]]]]]; auto|discriminate]. cbn [app].
    rewrite path_join_names; auto; [discriminate|intros s [<-|[<-|[<-|[<-|[<-|[]]]]]]; auto]. split; auto. discriminate. }
  destruct (P m c d p g f Hk Hc He Hp) as [P1 P2]. destruct (P m' c' d' p' g' f' Hk' Hc' He' Hp') as [P1' P2'].
  rewrite P1, P1'. intros E. apply names_inj in E; auto; try discriminate. injection E as E1 E2 E3 E4 E5 E6.
  destruct (C60_csv_names m m' c c' d d' p p' g g' f f') as (F1 & F2 & F3 & F4 & F5 & F6); auto; try apply Hc; try apply Hc'.
  split; [apply rmeta_repr_inj; auto|]. split; auto. split; auto. split; [apply params_repr_inj; auto|]. auto 10.
Qed.
Print Assumptions C60_csv_files.

(** What the files do not distinguish: the distance measure of a k-NN model and the coordinates of a region. *)
Theorem C60_all_parameters_refuted : exists k k', k_params k <> k_params k' /\ rm_region (k_region k) <> rm_region (k_region k') /\
  clean_key k /\ clean_key k' /\
  model_training_pickle_path k = model_training_pickle_path k' /\ model_whole_pickle_path k = model_whole_pickle_path k' /\
  generalization_errors_pickle_path k = generalization_errors_pickle_path k' /\ partition_pickle_path k = partition_pickle_path k' /\
  forall home p g f, csv_path (meta_of k) home p g f = csv_path (meta_of k') home p g f.
Proof.
  exists (SKey (RMeta "nordeste" (Rect 40 50 80 90) 2015 2015 1 true "raw") (CRegular 4) "dtw" (PKnn 3 "dtw") 8 "MASE"),
    (SKey (RMeta "nordeste" (Rect 0 10 20 30) 2015 2015 1 true "raw") (CRegular 4) "dtw" (PKnn 3 "rmse") 8 "MASE").
  split; [discriminate|]. split; [discriminate|]. repeat split; discriminate.
Qed.
Print Assumptions C60_all_parameters_refuted.

(** The representation of a solver does not contain the number of test samples. *)
Theorem C60_repr_distinguishes_refuted : exists m m' c d, sm_kind m = SClustering c d /\ sm_kind m' = SClustering c d /\
  sm_test_len m <> sm_test_len m' /\ clustering_solver_repr m c d = clustering_solver_repr m' c d.
Proof.
  exists (SMeta (RMeta "nordeste" (Rect 40 50 80 90) 2015 2015 1 true "raw") (PMean 3) 8 "MASE" (SClustering (CRegular 4) "dtw")),
    (SMeta (RMeta "nordeste" (Rect 40 50 80 90) 2015 2015 1 true "raw") (PMean 3) 16 "MASE" (SClustering (CRegular 4) "dtw")), (CRegular 4), "dtw"%string.
  repeat split. discriminate.
Qed.
Print Assumptions C60_repr_distinguishes_refuted.

(** ... but it shows each of the other parts: solvers that differ in one of them only have different representations. *)
Theorem C60_repr_shows_parts : forall m m' c c' d d',
  clustering_solver_repr m c d = clustering_solver_repr m' c' d' ->
  (sm_region m = sm_region m' -> c = c' -> sm_params m = sm_params m' -> sm_error m = sm_error m' -> d = d') /\
  (sm_region m = sm_region m' -> c = c' -> d = d' -> sm_params m = sm_params m' -> sm_error m = sm_error m') /\
  (sm_region m = sm_region m' -> c = c' -> d = d' -> sm_error m = sm_error m' -> params_repr (sm_params m) = params_repr (sm_params m')) /\
  (sm_region m = sm_region m' -> d = d' -> sm_params m = sm_params m' -> sm_error m = sm_error m' -> c_repr c = c_repr c') /\
  (c = c' -> d = d' -> sm_params m = sm_params m' -> sm_error m = sm_error m' -> rmeta_repr (sm_region m) = rmeta_repr (sm_region m')).
Proof.
  intros m m' c c' d d' E. unfold clustering_solver_repr in E. repeat split.
  - intros E1 E2 E3 E4. rewrite E1, E2, E3, E4 in E. repeat apply sapp_inj_l in E. eapply sapp_inj_r; eauto.
  - intros E1 E2 E3 E4. rewrite E1, E2, E3, E4 in E. repeat apply sapp_inj_l in E. exact E.
  - intros E1 E2 E3 E4. rewrite E1, E2, E3, E4 in E. repeat apply sapp_inj_l in E. eapply sapp_inj_r; eauto.
  - intros E1 E2 E3 E4. rewrite E1, E2, E3, E4 in E. repeat apply sapp_inj_l in E. eapply sapp_inj_r; eauto.
  - intros E1 E2 E3 E4. rewrite E1, E2, E3, E4 in E. eapply sapp_inj_r; eauto.
Qed.
Print Assumptions C60_repr_shows_parts.

(** and this for every solver *)
Theorem C60_repr_ignores_test_len : forall m c d tp,
  clustering_solver_repr (SMeta (sm_region m) (sm_params m) tp (sm_error m) (sm_kind m)) c d = clustering_solver_repr m c d.
Proof. reflexivity. Qed.
Print Assumptions C60_repr_ignores_test_len.

(** The suite of ARIMA parameters is the product of the three lists, in the order of three nested loops. *)
Theorem C60_arima_suite : forall ps ds qs p d q,
  (In (p, d, q) (arima_params_gen ps ds qs) <-> In p ps /\ In d ds /\ In q qs) /\
  length (arima_params_gen ps ds qs) = length ps * length ds * length qs /\
  (forall i j l, i < length ps -> j < length ds -> l < length qs ->
     nth (i * (length ds * length qs) + j * length qs + l) (arima_params_gen ps ds qs) (0, 0, 0)%Z = (nth i ps 0%Z, nth j ds 0%Z, nth l qs 0%Z)).
Proof.
  assert (L : forall {A B} (f : A -> list B) l n, (forall a, In a l -> length (f a) = n) -> length (flat_map f l) = length l * n).
  { intros A B f l n H. induction l as [|a l IH]; auto. cbn [flat_map List.length]. rewrite app_length, IH, (H a); [auto|left; auto|]. intros; apply H; right; auto. }
  assert (N : forall {A B} (f : A -> list B) l n d0 e, 0 < n -> (forall a, In a l -> length (f a) = n) -> forall i j, i < length l -> j < n ->
    nth (i * n + j) (flat_map f l) e = nth j (f (nth i l d0)) e).
  { intros A B f l n d0 e Hn H. induction l as [|a l IH]; intros i j Hi Hj; cbn in Hi; [lia|]. cbn [flat_map].
    destruct i as [|i].
    - cbn. apply app_nth1. rewrite (H a); cbn; auto.
    - rewrite app_nth2; rewrite (H a) by (cbn; auto); [|nia]. cbn [nth].
      replace (S i * n + j - n) with (i * n + j) by nia. apply IH; [intros; apply H; cbn; auto|lia|auto]. }
  assert (L2 : forall p ds qs, length (flat_map (fun d => map (fun q => (p : Z, d : Z, q : Z)) qs) ds) = length ds * length qs).
  { intros p ds qs. apply L. intros. apply map_length. }
  intros ps ds qs p d q. split; [|split].
  - unfold arima_params_gen. rewrite in_flat_map. split.
    + intros (p' & Hp & H). rewrite in_flat_map in H. destruct H as (d' & Hd & H). apply in_map_iff in H. destruct H as (q' & E & Hq).
      injection E as -> -> ->. auto.
    + intros (Hp & Hd & Hq). exists p. split; auto. apply in_flat_map. exists d. split; auto. apply in_map_iff. eauto.
  - unfold arima_params_gen. rewrite (L _ _ _ _ (length ds * length qs)); [lia|auto].
  - intros i j l Hi Hj Hl. unfold arima_params_gen.
    replace (i * (length ds * length qs) + j * length qs + l) with (i * (length ds * length qs) + (j * length qs + l)) by lia.
    assert (j * length qs + l < length ds * length qs) by nia.
    rewrite (N _ _ _ _ (length ds * length qs) 0%Z); auto; [|lia].
    rewrite (N _ _ _ _ (length qs) 0%Z); auto; [|lia|intros; apply map_length].
    rewrite (nth_indep _ _ (nth i ps 0%Z, nth j ds 0%Z, 0%Z)) by (rewrite map_length; auto).
    rewrite (map_nth (fun q => (nth i ps 0%Z, nth j ds 0%Z, q))). auto.
Qed.
Print Assumptions C60_arima_suite.

Example C60_examples :
  let m := SMeta (RMeta "nordeste_small" (Rect 40 50 80 90) 2015 2016 1 true "raw") (PAutoArima 1 1 3 3 None true) 8 "MASE"
             (SClustering (CKmedoids (kmeta_default 4 1 "lite")) "dtw") in
  csv_path m "outputs" "query-result-future" (Rect 0 2 3 5) 12 =
    "outputs/nordeste_small_2015_2016_1spd_scaled/dtw/kmedoids_k4_seed1_lite/auto-arima-start_p1-start_q1-max_p3-max_q3-dNone-stepwiseTrue/region-0-2-3-5/query-result-future-kmedoids_k4_seed1_lite__region-0-2-3-5__tp8__tf12__MASE.csv"%string /\
  csv_filename m "query-summary" (Rect 0 2 3 5) 0 = "query-summary-kmedoids_k4_seed1_lite__region-0-2-3-5__tp8__tf_is__MASE.csv"%string /\
  clean_place (CKmedoids (kmeta_default 4 1 "lite")) (sm_region m) "dtw" /\ known_prefix "query-summary" /\ known_prefix "query-result-future" /\
  arima_params_gen [1; 2]%Z [0; 2]%Z [0; 1]%Z = [(1,0,0); (1,0,1); (1,2,0); (1,2,1); (2,0,0); (2,0,1); (2,2,0); (2,2,1)]%Z.
Proof. cbv zeta. unfold known_prefix. cbn [In]. repeat split; try (vm_compute; auto; fail); auto; discriminate. Qed.

(* ---------------------------------------------------------------- C66 *)
(** Once a call of partition with a pickle home has succeeded, every later call for the same region, distance and
    clustering returns the partition of the first one and does not compute anything, whatever happens in between
    (partitions and solvers saved and loaded, also with other keys, also with crashes; other files removed or damaged)
    as long as the file of this partition is not removed or damaged. *)
Theorem C66_cached_partition_is_returned : forall M (fs fs1 : fsys M) c d r impl wm home p b ops c' r' impl' wm' home',
  clean_place c r d -> same_clustering c c' -> same_region r r' ->
  partition_call fs c d (Some r) impl wm (Some home) = (fs1, Ok (p, b)) ->
  Forall (harmless (pickle_full_path c r d)) ops ->
  partition_call (exec_all fs1 ops) c' d (Some r') impl' wm' (Some home') = (exec_all fs1 ops, Ok (p, false)).
Proof.
  intros M fs fs1 c d r impl wm home p b ops c' r' impl' wm' home' Hc Hs Hr Hcall Hops. apply partition_call_hit.
  rewrite <- (partition_path_same c r d c' r' d) by auto. apply exec_all_keeps_partition; auto. eapply partition_call_saved; eauto.
Qed.
Print Assumptions C66_cached_partition_is_returned.

(** A missing or damaged file, or one holding something else, leads to recomputation; the new partition is saved if
    the computation succeeds, and otherwise nothing is written. *)
Theorem C66_recomputed : forall M (fs : fsys M) c d r impl wm home,
  (forall p, fs (pickle_full_path c r d) <> Some (FPartition p)) ->
  partition_call fs c d (Some r) impl wm (Some home) =
  match impl wm with
  | Ok p => (fs_put fs (pickle_full_path c r d) (FPartition p), Ok (p, true))
  | Raise e => (fs, Raise e)
  end.
Proof.
  intros M fs c d r impl wm home H. unfold partition_call.
  destruct (try_load_previous_partition fs c d r home) as [p|] eqn:E.
  - exfalso. eapply H. eapply try_load_inv; eauto.
  - destruct (impl wm); auto.
Qed.
Print Assumptions C66_recomputed.

(** Without a pickle home no file is read or written. *)
Theorem C66_without_pickle : forall M (fs : fsys M) c d r impl wm,
  partition_call fs c d r impl wm None = (fs, p <- impl wm ;; Ok (p, true)).
Proof. intros M fs c d r impl wm. unfold partition_call. destruct r, (impl wm); auto. Qed.
Print Assumptions C66_without_pickle.

(** A region without metadata cannot be cached: the partition is computed and the call fails when saving it. *)
Theorem C66_without_metadata : forall M (fs : fsys M) c d impl wm home,
  partition_call fs c d None impl wm (Some home) = (fs, match impl wm with Ok _ => Raise AttributeError | Raise e => Raise e end).
Proof. intros M fs c d impl wm home. unfold partition_call. destruct (impl wm); auto. Qed.
Print Assumptions C66_without_metadata.

(** The pickle home is ignored: all homes share their files, so that a call for a new home returns the partition
    saved for another one. *)
Theorem C66_pickle_home_ignored : forall M (fs : fsys M) c d r impl wm home home',
  partition_call fs c d r impl wm (Some home) = partition_call fs c d r impl wm (Some home').
Proof. reflexivity. Qed.
Print Assumptions C66_pickle_home_ignored.

Definition ex_region := RMeta "nordeste" (Rect 40 42 80 81) 2015 2015 1 true "raw".
Definition ex_part (l : list Z) (ms : option (list point)) : part := (Crisp (mk2 2 1 l) 2, ms).

Theorem C66_homes_separate_refuted : exists (fs : fsys nat) c d r home home' impl impl' p p',
  clean_place c r d /\ home <> home' /\ (forall path, fs path = None) /\ impl true = Ok p /\ impl' true = Ok p' /\ p <> p' /\
  let '(fs1, r1) := partition_call fs c d (Some r) impl true (Some home) in
  r1 = Ok (p, true) /\ snd (partition_call fs1 c d (Some r) impl' true (Some home')) = Ok (p, false).
Proof.
  exists (fun _ => None), (CRegular 2), "dtw"%string, ex_region, "pickle"%string, "elsewhere"%string, (fun _ => Ok (ex_part [0; 1]%Z None)),
    (fun _ => Ok (ex_part [1; 0]%Z None)), (ex_part [0; 1]%Z None), (ex_part [1; 0]%Z None).
  vm_compute. repeat split; discriminate.
Qed.
Print Assumptions C66_homes_separate_refuted.

(** A partition saved by a call that did not ask for medoids is returned to calls that do, without medoids, although
    computing it would have given them. *)
Theorem C66_medoids_on_demand_refuted : exists (fs : fsys nat) c d r home impl,
  clean_place c r d /\ (forall path, fs path = None) /\
  (exists q ms, impl true = Ok (q, Some ms)) /\
  let '(fs1, r1) := partition_call fs c d (Some r) impl false (Some home) in
  (exists q b, r1 = Ok (q, b)) /\ exists q, snd (partition_call fs1 c d (Some r) impl true (Some home)) = Ok ((q, None), false).
Proof.
  exists (fun _ => None), (CRegular 2), "dtw"%string, ex_region, "pickle"%string,
    (fun wm : bool => Ok (ex_part [0; 1]%Z (if wm then Some [(0, 0); (1, 0)]%Z else None))).
  split; [repeat split; discriminate|]. split; [auto|]. split; [eexists; eexists; reflexivity|].
  vm_compute. split; eexists; [eexists|]; reflexivity.
Qed.
Print Assumptions C66_medoids_on_demand_refuted.
Example C66_ex : clean_place (CRegular 2) ex_region "dtw" /\
  let '(fs1, r1) := partition_call (M := nat) (fun _ => None) (CRegular 2) "dtw" (Some ex_region) (fun _ => Ok (ex_part [0; 1]%Z None)) true (Some "pickle"%string) in
  let h := [OPartition (CRegular 3) "dtw" (Some ex_region) (fun _ => Ok (ex_part [1; 1]%Z None)) true (Some "pickle"%string); ORemove "x"] in
  r1 = Ok (ex_part [0; 1]%Z None, true) /\ Forall (harmless (pickle_full_path (CRegular 2) ex_region "dtw")) h /\
  snd (partition_call (exec_all fs1 h) (CRegular 2) "dtw" (Some ex_region) (fun _ => Raise ValueError) true (Some "pickle"%string)) = Ok (ex_part [0; 1]%Z None, false).
Proof.
  split; [repeat split; discriminate|]. split; [reflexivity|]. split; [repeat constructor; discriminate|]. vm_compute. reflexivity.
Qed.

(* ---------------------------------------------------------------- C79 *)
(** The four files of a solver have different names, and two solvers share a file exactly if they agree in: region,
    distance, clustering and parameters (models of the whole data); also the number of test samples (models of the
    training data); also the type of error (errors). *)
Theorem C79_files_are_distinct : forall k k', clean_key k -> clean_key k' ->
  (model_training_pickle_path k = model_training_pickle_path k' <-> same_models k k' /\ k_test_len k = k_test_len k') /\
  (model_whole_pickle_path k = model_whole_pickle_path k' <-> same_models k k') /\
  (generalization_errors_pickle_path k = generalization_errors_pickle_path k' <->
     same_models k k' /\ k_test_len k = k_test_len k' /\ k_error k = k_error k') /\
  (partition_pickle_path k = partition_pickle_path k' <->
     same_region (k_region k) (k_region k') /\ k_dist k = k_dist k' /\ same_clustering (k_clustering k) (k_clustering k')) /\
  model_training_pickle_path k <> model_whole_pickle_path k' /\ model_training_pickle_path k <> generalization_errors_pickle_path k' /\
  model_whole_pickle_path k <> generalization_errors_pickle_path k' /\ partition_pickle_path k <> model_training_pickle_path k' /\
  partition_pickle_path k <> model_whole_pickle_path k' /\ partition_pickle_path k <> generalization_errors_pickle_path k'.
Proof.
  intros k k' H H'. pose proof (proj1 H) as P. pose proof (proj1 H') as P'.
  split; [apply training_iff; auto|]. split; [apply whole_iff; auto|]. split; [apply errors_iff; auto|]. split; [apply partition_iff; auto|].
  split; [apply training_whole; auto|]. split; [apply training_errors; auto|]. split; [apply whole_errors; auto|].
  split; [apply partition_training; auto|]. split; [apply partition_whole; auto|apply partition_errors; auto].
Qed.
Print Assumptions C79_files_are_distinct.

Lemma load_solver_ok {M} (fs : fsys M) k impl p mt mw e : fs (partition_pickle_path k) = Some (FPartition p) ->
  fs (model_training_pickle_path k) = Some (FModels mt) -> fs (model_whole_pickle_path k) = Some (FModels mw) ->
  fs (generalization_errors_pickle_path k) = Some (FErrors e) -> load_solver fs k impl = (fs, Ok (LSolver p mt mw e)).
Proof.
  intros Hp Ht Hw He. unfold load_solver. rewrite (load_partition_hit _ _ _ _ Hp). cbn [bind].
  rewrite (load_here fs _ as_models (FModels mt) mt), (load_here fs _ as_models (FModels mw) mw), (load_here fs _ as_errors (FErrors e) e);
    auto; discriminate.
Qed.
Lemma saved_training {M} (fs : fsys M) k s : clean_key k -> save_solver fs k s (model_training_pickle_path k) = Some (FModels (so_training s)).
Proof. intros H. unfold save_solver. rewrite put_other by (apply training_errors; auto). rewrite put_other by (apply training_whole; auto). apply put_same. Qed.
Lemma saved_whole {M} (fs : fsys M) k s : clean_key k -> save_solver fs k s (model_whole_pickle_path k) = Some (FModels (so_whole s)).
Proof. intros H. unfold save_solver. rewrite put_other by (apply whole_errors; auto). apply put_same. Qed.
Lemma saved_errors {M} (fs : fsys M) k s : save_solver fs k s (generalization_errors_pickle_path k) = Some (FErrors (so_errors s)).
Proof. unfold save_solver. apply put_same. Qed.
Lemma saved_other {M} (fs : fsys M) k s path : path <> model_training_pickle_path k -> path <> model_whole_pickle_path k ->
  path <> generalization_errors_pickle_path k -> save_solver fs k s path = fs path.
Proof. intros H1 H2 H3. unfold save_solver. rewrite !put_other; auto. Qed.

(** The solver object made of what was loaded *)
Definition of_loaded {M} (l : loaded_solver M) : solver M :=
  Solver (fst (ls_partition l)) (match snd (ls_partition l) with Some ms => ms | None => [] end) (ls_training l) (ls_whole l) (ls_errors l).

(** A solver that has been saved is loaded unchanged, with the saved partition, and answers every query as before. *)
Theorem C79_save_then_load : forall M (fs : fsys M) k s impl, clean_key k ->
  fs (partition_pickle_path k) = Some (FPartition (so_partition s, Some (so_medoids s))) ->
  exists l, load_solver (save_solver fs k s) k impl = (save_solver fs k s, Ok l) /\ of_loaded l = s /\
    forall P (kind : model_kind P M) scaled region test_len g forecast_len,
      solver_predict kind (of_loaded l) scaled region test_len g forecast_len = solver_predict kind s scaled region test_len g forecast_len.
Proof.
  intros M fs k s impl H Hp. eexists. split; [apply load_solver_ok|].
  - rewrite saved_other; [exact Hp|apply partition_training|apply partition_whole|apply partition_errors]; auto; apply H.
  - apply saved_training; auto.
  - apply saved_whole; auto.
  - apply saved_errors.
  - assert (E : of_loaded (LSolver (so_partition s, Some (so_medoids s)) (so_training s) (so_whole s) (so_errors s)) = s) by (destruct s; reflexivity).
    split; [exact E|]. intros. rewrite E. reflexivity.
Qed.
Print Assumptions C79_save_then_load.

(** a file written by the last of several saves *)
Lemma file_after {M} (path : skey -> string) (content : solver M -> file M) ops fs k k1 s1 (P : skey -> Prop) :
  (forall fs k s, clean_key k -> save_solver fs k s (path k) = Some (content s)) ->
  (forall k', clean_key k' -> path k' = path k <-> P k') ->
  Forall (fun o => harmless (path k) o /\ (saves P o \/ untouched (path k) o)) ops ->
  last_with (saves P) ops (OSave k1 s1) -> exec_all fs ops (path k) = Some (content s1).
Proof.
  intros Hsave Hpath Hops (before & after & -> & HP & Hafter). rewrite Forall_app in Hops. destruct Hops as [_ Hops].
  inversion Hops as [|o l (Hc & _) Hl]; subst. cbn [harmless saves] in *.
  replace (before ++ OSave k1 s1 :: after) with ((before ++ [OSave k1 s1]) ++ after) by (rewrite <- app_assoc; auto).
  rewrite exec_all_app, exec_all_untouched.
  - rewrite exec_all_app. cbn. rewrite <- (proj2 (Hpath k1 Hc) HP). apply Hsave. auto.
  - rewrite Forall_forall in *. intros o Ho. destruct (Hl o Ho) as (_ & [Hs|Hu]); auto. exfalso. apply (Hafter o Ho Hs).
Qed.

(** After any history of saves (complete or crashed), partitions and loads, with any keys, loading a solver gives the saved partition,
    the training models of the last save with the same number of test samples, the errors of the last save with
    also the same type of error, but the whole-data models of the last save with any number of test samples. *)
Theorem C79_history : forall M (fs : fsys M) ops k impl p k1 s1 k2 s2 k3 s3, clean_key k ->
  fs (partition_pickle_path k) = Some (FPartition p) ->
  Forall (fun o => harmless (partition_pickle_path k) o /\ harmless (model_training_pickle_path k) o /\ harmless (model_whole_pickle_path k) o /\
                   harmless (generalization_errors_pickle_path k) o) ops ->
  last_with (saves (fun k' => same_models k k' /\ k_test_len k = k_test_len k')) ops (OSave k1 s1) ->
  last_with (saves (fun k' => same_models k k')) ops (OSave k2 s2) ->
  last_with (saves (fun k' => same_models k k' /\ k_test_len k = k_test_len k' /\ k_error k = k_error k')) ops (OSave k3 s3) ->
  load_solver (exec_all fs ops) k impl = (exec_all fs ops, Ok (LSolver p (so_training s1) (so_whole s2) (so_errors s3))).
Proof.
  intros M fs ops k impl p k1 s1 k2 s2 k3 s3 Hk Hp Hops H1 H2 H3.
  assert (Pc : clean_place (k_clustering k) (k_region k) (k_dist k)) by apply Hk.
  apply load_solver_ok.
  - apply exec_all_keeps_partition; auto. eapply Forall_impl; [|exact Hops]. cbn. tauto.
  - apply (file_after model_training_pickle_path (fun s => FModels (so_training s)) ops fs k k1 s1
      (fun k' => same_models k k' /\ k_test_len k = k_test_len k')); auto.
    + intros. apply saved_training; auto.
    + intros k' Hk'. rewrite <- (training_iff k k') by auto. split; auto.
    + eapply Forall_impl; [|exact Hops]. cbn beta. intros o (_ & Ho & _ & _). split; auto.
      destruct o as [k' s|k' s n|c d r i wm home|k' i|q|q]; cbn [saves untouched harmless] in *.
      * destruct (string_dec (model_training_pickle_path k) (model_training_pickle_path k')) as [E|E].
        -- left. apply (training_iff k k') in E; auto.
        -- right. repeat split; auto; intros E'; symmetry in E'; revert E'; [apply training_whole|apply training_errors]; auto.
      * destruct (string_dec (model_training_pickle_path k) (model_training_pickle_path k')) as [E|E].
        -- left. apply (training_iff k k') in E; auto.
        -- right. repeat split; auto; intros E'; symmetry in E'; revert E'; [apply training_whole|apply training_errors]; auto.
      * right. destruct r; auto. apply partition_training; auto.
      * right. apply partition_training; auto. apply Ho.
      * auto.
      * auto.
  - apply (file_after model_whole_pickle_path (fun s => FModels (so_whole s)) ops fs k k2 s2 (fun k' => same_models k k')); auto.
    + intros. apply saved_whole; auto.
    + intros k' Hk'. rewrite <- (whole_iff k k') by auto. split; auto.
    + eapply Forall_impl; [|exact Hops]. cbn beta. intros o (_ & _ & Ho & _). split; auto.
      destruct o as [k' s|k' s n|c d r i wm home|k' i|q|q]; cbn [saves untouched harmless] in *.
      * destruct (string_dec (model_whole_pickle_path k) (model_whole_pickle_path k')) as [E|E].
        -- left. apply (whole_iff k k') in E; auto.
        -- right. repeat split; auto; [apply training_whole; auto|]. intros E'; symmetry in E'; revert E'; apply whole_errors; auto.
      * destruct (string_dec (model_whole_pickle_path k) (model_whole_pickle_path k')) as [E|E].
        -- left. apply (whole_iff k k') in E; auto.
        -- right. repeat split; auto; [apply training_whole; auto|]. intros E'; symmetry in E'; revert E'; apply whole_errors; auto.
      * right. destruct r; auto. apply partition_whole; auto.
      * right. apply partition_whole; auto. apply Ho.
      * auto.
      * auto.
  - apply (file_after generalization_errors_pickle_path (fun s => FErrors (so_errors s)) ops fs k k3 s3
      (fun k' => same_models k k' /\ k_test_len k = k_test_len k' /\ k_error k = k_error k')); auto.
    + intros. apply saved_errors; auto.
    + intros k' Hk'. rewrite <- (errors_iff k k') by auto. split; auto.
    + eapply Forall_impl; [|exact Hops]. cbn beta. intros o (_ & _ & _ & Ho). split; auto.
      destruct o as [k' s|k' s n|c d r i wm home|k' i|q|q]; cbn [saves untouched harmless] in *.
      * destruct (string_dec (generalization_errors_pickle_path k) (generalization_errors_pickle_path k')) as [E|E].
        -- left. apply (errors_iff k k') in E; auto.
        -- right. repeat split; auto; [apply training_errors; auto|apply whole_errors; auto].
      * destruct (string_dec (generalization_errors_pickle_path k) (generalization_errors_pickle_path k')) as [E|E].
        -- left. apply (errors_iff k k') in E; auto.
        -- right. repeat split; auto; [apply training_errors; auto|apply whole_errors; auto].
      * right. destruct r; auto. apply partition_errors; auto.
      * right. apply partition_errors; auto. apply Ho.
      * auto.
      * auto.
Qed.
Print Assumptions C79_history.

(** Loading never invents a solver: if one of its model or error files is missing, it fails. *)
Theorem C79_missing_file : forall M (fs : fsys M) k impl l, clean_key k ->
  fs (model_training_pickle_path k) = None \/ fs (model_whole_pickle_path k) = None \/ fs (generalization_errors_pickle_path k) = None ->
  snd (load_solver fs k impl) <> Ok l.
Proof.
  intros M fs k impl l Hk Hm E. assert (Pc : clean_place (k_clustering k) (k_region k) (k_dist k)) by apply Hk.
  unfold load_solver in E. pose proof (load_partition_fs fs k impl) as F. destruct (load_partition fs k impl) as [fs' [p|e]]; cbn [fst snd bind] in *; [|discriminate].
  assert (Hm' : fs' (model_training_pickle_path k) = None \/ fs' (model_whole_pickle_path k) = None \/ fs' (generalization_errors_pickle_path k) = None).
  { destruct F as [->|(q & _ & ->)]; auto. destruct Hm as [Hm|[Hm|Hm]]; [left|right; left|right; right]; rewrite put_other; auto;
      intros X; symmetry in X; revert X; [apply partition_training|apply partition_whole|apply partition_errors]; auto. }
  assert (N : forall T path (expect : file M -> option T), fs' path = None -> load_file fs' path expect = Raise IOError) by (intros T path ex X; unfold load_file; rewrite X; auto).
  destruct (load_file fs' (model_training_pickle_path k) as_models) eqn:E1; [|discriminate E].
  destruct (load_file fs' (model_whole_pickle_path k) as_models) eqn:E2; [|discriminate E].
  destruct (load_file fs' (generalization_errors_pickle_path k) as_errors) eqn:E3; [|discriminate E].
  destruct Hm' as [Hm'|[Hm'|Hm']]; [rewrite N in E1 by auto|rewrite N in E2 by auto|rewrite N in E3 by auto]; discriminate.
Qed.
Print Assumptions C79_missing_file.

(** A damaged file is not read as if it were good: the first damaged file of a solver gives UnpicklingError, and no file is changed. *)
Theorem C79_damaged_file : forall M (fs : fsys M) k impl p, clean_key k -> fs (partition_pickle_path k) = Some (FPartition p) ->
  (fs (model_training_pickle_path k) = Some FCorrupt \/
   (exists m, fs (model_training_pickle_path k) = Some (FModels m) /\ fs (model_whole_pickle_path k) = Some FCorrupt) \/
   (exists m m', fs (model_training_pickle_path k) = Some (FModels m) /\ fs (model_whole_pickle_path k) = Some (FModels m') /\
                 fs (generalization_errors_pickle_path k) = Some FCorrupt)) ->
  load_solver fs k impl = (fs, Raise UnpicklingError).
Proof.
  intros M fs k impl p Hk Hp H. unfold load_solver. rewrite (load_partition_hit _ _ _ _ Hp). cbn [bind]. unfold load_file.
  destruct H as [ H | [ (m & H1 & H2) | (m & m' & H1 & H2 & H3) ] ].
  - rewrite H. reflexivity.
  - rewrite H1. cbn [as_models bind]. rewrite H2. reflexivity.
  - rewrite H1. cbn [as_models bind]. rewrite H2. cbn [as_models bind]. rewrite H3. reflexivity.
Qed.
Print Assumptions C79_damaged_file.

(** If the first save of a solver stops before its third file, loading it raises IOError instead of returning a
    solver that is partly there. *)
Theorem C79_crash_during_save : forall M (fs : fsys M) k s n impl p, clean_key k -> n < 3 ->
  fs (partition_pickle_path k) = Some (FPartition p) ->
  fs (model_training_pickle_path k) = None -> fs (model_whole_pickle_path k) = None -> fs (generalization_errors_pickle_path k) = None ->
  load_solver (save_solver_crash fs k s n) k impl = (save_solver_crash fs k s n, Raise IOError).
Proof.
  intros M fs k s n impl p Hk Hn Hp Ht Hw He. assert (Pc : clean_place (k_clustering k) (k_region k) (k_dist k)) by apply Hk.
  set (fs' := save_solver_crash fs k s n).
  assert (Hp' : fs' (partition_pickle_path k) = Some (FPartition p)).
  { unfold fs', save_solver_crash. destruct n as [|[|[|n]]]; [auto| | |lia];
      rewrite ?put_other; auto; try (apply partition_training; auto); apply partition_whole; auto. }
  unfold load_solver. rewrite (load_partition_hit _ _ _ _ Hp'). cbn [bind]. f_equal. unfold fs', save_solver_crash, load_file.
  destruct n as [|[|[|n]]]; [| | |lia].
  - rewrite Ht. reflexivity.
  - rewrite put_same. cbn [as_models bind]. rewrite put_other by (intros E; symmetry in E; revert E; apply training_whole; auto). rewrite Hw. reflexivity.
  - rewrite put_other by (apply training_whole; auto). rewrite put_same. cbn [as_models bind]. rewrite put_same. cbn [as_models bind].
    rewrite !put_other by (intros E; symmetry in E; revert E; (apply training_errors || apply whole_errors); auto). rewrite He. reflexivity.
Qed.
Print Assumptions C79_crash_during_save.

(** If the partition file is gone or damaged, loading computes the partition again, with medoids, and saves it. *)
Theorem C79_partition_recomputed : forall M (fs : fsys M) k s impl q, clean_key k ->
  (forall p, fs (partition_pickle_path k) <> Some (FPartition p)) -> impl true = Ok q ->
  load_solver (save_solver fs k s) k impl =
  (fs_put (save_solver fs k s) (partition_pickle_path k) (FPartition q), Ok (LSolver q (so_training s) (so_whole s) (so_errors s))).
Proof.
  intros M fs k s impl q Hk Hp Hi. assert (Pc : clean_place (k_clustering k) (k_region k) (k_dist k)) by apply Hk.
  set (fs1 := save_solver fs k s). set (fs2 := fs_put fs1 (partition_pickle_path k) (FPartition q)).
  assert (L : load_partition fs1 k impl = (fs2, Ok q)).
  { assert (N : forall p, fs1 (pickle_full_path (k_clustering k) (k_region k) (k_dist k)) <> Some (FPartition p)).
    { intros p. unfold fs1. rewrite saved_other; [apply Hp|apply partition_training|apply partition_whole|apply partition_errors]; auto. }
    unfold load_partition. destruct (try_load_previous_partition fs1 (k_clustering k) (k_dist k) (k_region k) "pickle") as [p|] eqn:E.
    - exfalso. apply try_load_inv in E. eapply N; eauto.
    - rewrite C66_recomputed by auto. rewrite Hi. auto. }
  unfold load_solver. rewrite L. cbn [bind].
  assert (K : forall path, path <> partition_pickle_path k -> fs2 path = fs1 path) by (intros path E; unfold fs2; apply put_other; auto).
  rewrite (load_here fs2 _ as_models (FModels (so_training s)) (so_training s)), (load_here fs2 _ as_models (FModels (so_whole s)) (so_whole s)),
    (load_here fs2 _ as_errors (FErrors (so_errors s)) (so_errors s)); auto; try discriminate.
  - rewrite K by (intros E; symmetry in E; revert E; apply partition_errors; auto). apply saved_errors.
  - rewrite K by (intros E; symmetry in E; revert E; apply partition_whole; auto). apply saved_whole; auto.
  - rewrite K by (intros E; symmetry in E; revert E; apply partition_training; auto). apply saved_training; auto.
Qed.
Print Assumptions C79_partition_recomputed.

(** Models of the whole data that are trained again from scratch (the default) do not depend on the number of test
    samples nor on the type of error, *)
Theorem C79_whole_models_of_default_trainer : forall P M (kind : model_kind P M) params cluster region tl et tl' et' s s',
  solver_train kind params (default_refitter kind params) cluster region tl et = Ok s ->
  solver_train kind params (default_refitter kind params) cluster region tl' et' = Ok s' ->
  so_whole s = so_whole s' /\ so_partition s = so_partition s' /\ so_medoids s = so_medoids s'.
Proof.
  intros P M kind params cluster region tl et tl' et' s s'. unfold solver_train, default_refitter.
  destruct (split_training_and_test_last tl region) as [tr te]. destruct (split_training_and_test_last tl' region) as [tr' te'].
  destruct (cluster region) as [[p medoids]|e]; cbn [bind]; [|discriminate].
  destruct (train_at_representatives kind params medoids tr) as [m|e]; cbn [bind]; [|discriminate].
  destruct (train_at_representatives kind params medoids tr') as [m'|e]; cbn [bind]; [|discriminate].
  destruct (replicate_representative_models (fst m) p medoids) as [a|e]; cbn [bind]; [|discriminate].
  destruct (replicate_representative_models (fst m') p medoids) as [a'|e]; cbn [bind]; [|discriminate].
  destruct (calculate_errors kind a tr te et) as [er|e]; cbn [bind]; [|discriminate].
  destruct (calculate_errors kind a' tr' te' et') as [er'|e]; cbn [bind]; [|discriminate].
  destruct (train kind params region) as [w|e]; cbn [bind]; [|discriminate].
  destruct (replicate_representative_models (fst w) p medoids) as [a''|e]; cbn [bind]; [|discriminate].
  intros [= <-] [= <-]. auto.
Qed.
Print Assumptions C79_whole_models_of_default_trainer.

Lemma last_with_exists {A} (P : A -> Prop) l : (forall x, In x l -> P x \/ ~ P x) -> Exists P l -> exists x, last_with P l x.
Proof.
  intros dec H. assert (G : (exists x, last_with P l x) \/ Forall (fun y => ~ P y) l).
  { clear H. induction l as [|a l IH]; auto. destruct IH as [(x & before & after & -> & Hx & Ha)|F].
    - intros y Hy. apply dec. right. auto.
    - left. exists x, (a :: before), after. auto.
    - destruct (dec a (or_introl eq_refl)) as [Ha|Ha]; [left; exists a, [], l; auto|right; auto]. }
  destruct G as [G|G]; auto. exfalso. rewrite Forall_forall in G. rewrite Exists_exists in H. destruct H as (x & Hx & HP). apply (G x Hx HP).
Qed.
Lemma last_save {M} (Q : skey -> Prop) (ops : list (op M)) :
  (forall k s, In (OSave k s) ops -> Q k \/ ~ Q k) -> (forall k s n, In (OSaveCrash k s n) ops -> ~ Q k) ->
  (exists k s, In (OSave k s) ops /\ Q k) -> exists k s, last_with (saves Q) ops (OSave k s) /\ In (OSave k s) ops /\ Q k.
Proof.
  intros dec Hc (k & s & Hin & HQ). destruct (last_with_exists (saves Q) ops) as (x & Hx).
  - intros [k' s'|k' s' n|c d r i wm home|k' i|q|q] H; cbn [saves]; auto; [eapply dec; eauto|right; eapply Hc; eauto].
  - apply Exists_exists. exists (OSave k s). auto.
  - pose proof Hx as (before & after & E & HP & _). assert (Hi : In x ops) by (rewrite E; apply in_or_app; right; left; auto).
    destruct x as [k' s'|k' s' n|c d r i wm home|k' i|q|q]; cbn [saves] in HP; try tauto.
    + eauto 6.
    + exfalso. eapply Hc; eauto.
Qed.

(** so that, with such a trainer, solvers for any numbers of test samples and error types can be trained, saved and
    loaded in any order: every load gives the solver that training gives (for some save of that key, and no save of
    the same models interrupted). *)
Theorem C79_default_trainers_safe : forall P M (kind : model_kind P M) params cluster region (fs : fsys M) ops k impl p medoids,
  clean_key k -> cluster region = Ok (p, medoids) -> fs (partition_pickle_path k) = Some (FPartition (p, Some medoids)) ->
  Forall (fun o => harmless (partition_pickle_path k) o /\ harmless (model_training_pickle_path k) o /\ harmless (model_whole_pickle_path k) o /\
                   harmless (generalization_errors_pickle_path k) o) ops ->
  (forall k' s, In (OSave k' s) ops -> same_models k k' ->
     solver_train kind params (default_refitter kind params) cluster region (k_test_len k') (k_error k') = Ok s) ->
  (forall k' s n, In (OSaveCrash k' s n) ops -> ~ same_models k k') ->
  (exists k' s, In (OSave k' s) ops /\ same_models k k' /\ k_test_len k = k_test_len k' /\ k_error k = k_error k') ->
  exists s l, solver_train kind params (default_refitter kind params) cluster region (k_test_len k) (k_error k) = Ok s /\
    load_solver (exec_all fs ops) k impl = (exec_all fs ops, Ok l) /\ of_loaded l = s.
Proof.
  intros P M kind params cluster region fs ops k impl p medoids Hk Hcl Hp Hops Htr Hcr (k0 & s0 & Hin0 & Hm0 & Ht0 & He0).
  assert (Hc : forall k' s, In (OSave k' s) ops -> clean_key k').
  { intros k' s Hin. rewrite Forall_forall in Hops. specialize (Hops _ Hin). cbn [harmless] in Hops. tauto. }
  destruct (last_save (fun k' => same_models k k' /\ k_test_len k = k_test_len k') ops) as (k1 & s1 & L1 & I1 & M1 & T1).
  { intros k' s Hin. destruct (string_dec (model_training_pickle_path k) (model_training_pickle_path k')) as [E|E];
      rewrite (training_iff k k') in E by eauto; auto. }
  { intros k' s n Hin (? & _). eapply Hcr; eauto. }
  { eauto 6. }
  destruct (last_save (fun k' => same_models k k') ops) as (k2 & s2 & L2 & I2 & M2).
  { intros k' s Hin. destruct (string_dec (model_whole_pickle_path k) (model_whole_pickle_path k')) as [E|E];
      rewrite (whole_iff k k') in E by eauto; auto. }
  { auto. }
  { eauto 6. }
  destruct (last_save (fun k' => same_models k k' /\ k_test_len k = k_test_len k' /\ k_error k = k_error k') ops) as (k3 & s3 & L3 & I3 & M3 & T3 & E3).
  { intros k' s Hin. destruct (string_dec (generalization_errors_pickle_path k) (generalization_errors_pickle_path k')) as [E|E];
      rewrite (errors_iff k k') in E by eauto; auto. }
  { intros k' s n Hin (? & _). eapply Hcr; eauto. }
  { eauto 8. }
  pose proof (Htr _ _ I1 M1) as S1. pose proof (Htr _ _ I2 M2) as S2. pose proof (Htr _ _ I3 M3) as S3.
  destruct (C79_whole_models_of_default_trainer _ _ _ _ _ _ _ _ _ _ _ _ S2 S3) as (W & P1 & P2).
  assert (Tr : so_training s1 = so_training s3).
  { rewrite <- T1 in S1. rewrite <- T3 in S3. clear - S1 S3. revert S1 S3. unfold solver_train, default_refitter.
    destruct (split_training_and_test_last (k_test_len k) region) as [tr te].
    destruct (cluster region) as [[p medoids]|e]; cbn [bind]; [|discriminate].
    destruct (train_at_representatives kind params medoids tr) as [m|e]; cbn [bind]; [|discriminate].
    destruct (replicate_representative_models (fst m) p medoids) as [a|e]; cbn [bind]; [|discriminate].
    destruct (calculate_errors kind a tr te (k_error k1)) as [er|e]; cbn [bind]; [|discriminate].
    destruct (calculate_errors kind a tr te (k_error k3)) as [er'|e]; cbn [bind]; [|discriminate].
    destruct (train kind params region) as [w|e]; cbn [bind]; [|discriminate].
    destruct (replicate_representative_models (fst w) p medoids) as [a''|e]; cbn [bind]; [|discriminate].
    intros [= <-] [= <-]. auto. }
  assert (Pm : so_partition s3 = p /\ so_medoids s3 = medoids).
  { clear - S3 Hcl. revert S3. unfold solver_train, default_refitter. destruct (split_training_and_test_last (k_test_len k3) region) as [tr te].
    rewrite Hcl. cbn [bind].
    destruct (train_at_representatives kind params medoids tr) as [m|e]; cbn [bind]; [|discriminate].
    destruct (replicate_representative_models (fst m) p medoids) as [a|e]; cbn [bind]; [|discriminate].
    destruct (calculate_errors kind a tr te (k_error k3)) as [er|e]; cbn [bind]; [|discriminate].
    destruct (train kind params region) as [w|e]; cbn [bind]; [|discriminate].
    destruct (replicate_representative_models (fst w) p medoids) as [a''|e]; cbn [bind]; [|discriminate].
    intros [= <-]. auto. }
  destruct Pm as [<- <-].
  exists s3. eexists. split; [rewrite T3, E3; auto|]. split; [eapply C79_history; eauto|].
  unfold of_loaded. cbn [ls_partition ls_training ls_whole ls_errors fst snd]. rewrite Tr, W. destruct s3; auto.
Qed.
Print Assumptions C79_default_trainers_safe.

(* a solver that is trained, saved, and loaded again after another one has been trained and saved *)
Definition ex_key (tl : Z) : skey :=
  SKey (RMeta "nordeste" (Rect 40 41 80 82) 2015 2015 1 false "raw") (CKmedoids (kmeta_default 1 1 "lite")) "dtw" (PAutoArima 1 1 3 3 None true) tl "MSE".
Definition ex_fs {M} : fsys M := fs_put (fun _ => None) (partition_pickle_path (ex_key 1)) (FPartition (ex_p, Some [(0, 0)%Z])).

(** Not so for auto ARIMA, whose whole-data models depend on the training data: two solvers of the same data, region
    and parameters are trained with 1 and 4 test samples and saved.  The first one, loaded again, does not answer an
    out-of-sample query as before (here: no forecast any more). *)
Theorem C79_test_lengths_independent_refuted : exists A M (fit : pdq -> list fnum -> res M) order_of forecast (search : A -> list fnum -> res pdq)
    params cluster region (fs : fsys M) k k' s s' g fl f v,
  let kind := auto_arima_kind fit forecast search in
  (forall m len f, forecast m len = Ok f -> length f = len) /\
  (forall order series m, fit order series = Ok m -> order_of m = order) /\
  clean_key k /\ clean_key k' /\ same_models k k' /\
  (exists p medoids, cluster region = Ok (p, medoids) /\ fs (partition_pickle_path k) = Some (FPartition (p, Some medoids))) /\
  solver_train kind params (arima_refitter fit order_of forecast) cluster region (k_test_len k) (k_error k) = Ok s /\
  solver_train kind params (arima_refitter fit order_of forecast) cluster region (k_test_len k') (k_error k') = Ok s' /\
  (q <- solver_predict kind s false region (k_test_len k) g fl ;; series_at (pr_forecast q) (0, 0)%Z) = Ok f /\
  (forall impl, (l <- snd (load_solver (save_solver (save_solver fs k s) k' s') k impl) ;;
     q <- solver_predict kind (of_loaded l) false region (k_test_len k) g fl ;; series_at (pr_forecast q) (0, 0)%Z) = Ok v) /\
  (exists q, nth 0 f NaN = Fin q) /\ nth 0 v (Fin 0) = NaN.
Proof.
  destruct (solver_train (auto_arima_kind ex_fit ex_forecast ex_search) (full2 1 2 (Some 0%Z)) (arima_refitter ex_fit fst ex_forecast) ex_cluster (qregion ex_d None) 1 "MSE") as [s|] eqn:E1;
    [|vm_compute in E1; discriminate].
  destruct (solver_train (auto_arima_kind ex_fit ex_forecast ex_search) (full2 1 2 (Some 0%Z)) (arima_refitter ex_fit fst ex_forecast) ex_cluster (qregion ex_d None) 4 "MSE") as [s'|] eqn:E2;
    [|vm_compute in E2; discriminate].
  exists Z, (pdq * list fnum)%type, ex_fit, fst, ex_forecast, ex_search, (full2 1 2 (Some 0%Z)), ex_cluster, (qregion ex_d None), ex_fs, (ex_key 1), (ex_key 4), s, s',
    (Rect 0 1 1 2), 2%Z, [Fin 7; Fin 7], [NaN; NaN].
  split; [apply C58_example_arima_hypotheses|]. split; [apply C58_example_arima_hypotheses|].
  assert (C : forall tl, clean_key (ex_key tl)) by (intros; repeat split; discriminate).
  split; [apply C|]. split; [apply C|]. split; [repeat split|]. split; [do 2 eexists; split; reflexivity|].
  split; [exact E1|]. split; [exact E2|].
  vm_compute in E1, E2. injection E1 as <-. injection E2 as <-.
  split; [vm_compute; reflexivity|]. split; [|split; [eexists; reflexivity|reflexivity]].
  intros impl. vm_compute. reflexivity.
Qed.
Print Assumptions C79_test_lengths_independent_refuted.

(** a history with saves for other keys, a crash, a damaged foreign file, and loads in between *)
Example C79_example_history :
  exists s s', solver_train mean_kind (full2 1 2 (Some 2%Z)) (default_refitter mean_kind (full2 1 2 (Some 2%Z))) ex_cluster (qregion ex_d None) 1 "MSE" = Ok s /\
    solver_train mean_kind (full2 1 2 (Some 2%Z)) (default_refitter mean_kind (full2 1 2 (Some 2%Z))) ex_cluster (qregion ex_d None) 2 "MSE" = Ok s' /\
    let other := SKey (k_region (ex_key 1)) (CRegular 4) "dtw" (PMean 2) 1 "MSE" in
    let h := [OSave (ex_key 1) s; OSaveCrash other s' 2; OSave (ex_key 2) s'; OLoad other (fun _ => Ok (ex_p, None)); OCorrupt "elsewhere.pkl"] in
    Forall (fun o => harmless (partition_pickle_path (ex_key 1)) o /\ harmless (model_training_pickle_path (ex_key 1)) o /\
                     harmless (model_whole_pickle_path (ex_key 1)) o /\ harmless (generalization_errors_pickle_path (ex_key 1)) o) h /\
    clean_key (ex_key 1) /\ same_models (ex_key 1) (ex_key 2) /\ ~ same_models (ex_key 1) other /\
    last_with (saves (fun k' => same_models (ex_key 1) k')) h (OSave (ex_key 2) s').
Proof.
  do 2 eexists. split; [vm_compute; reflexivity|]. split; [vm_compute; reflexivity|]. cbv zeta.
  assert (C : forall tl, clean_key (ex_key tl)) by (intros; repeat split; discriminate).
  assert (C' : clean_key (SKey (k_region (ex_key 1)) (CRegular 4) "dtw" (PMean 2) 1 "MSE")) by (repeat split; discriminate).
  split; [repeat constructor; try apply C; try apply C'; discriminate|].
  split; [apply C|]. split; [repeat split|]. split; [intros (_ & _ & H & _); exact H|].
  eexists [_; _], [_; _]. split; [reflexivity|]. split; [repeat split|]. repeat constructor; cbn; tauto.
Qed.

(* ---------------------------------------------------------------- C80 *)
(** The clustering report has one row for each of the k clusters, in order: the index, the number of points of the
    region with that label, and their share in percent.  The points add up to the size of the region and the shares
    to 100. *)
Theorem C80_report_rows : forall k p x y, valid_partition p x y -> (pk p <= k)%Z ->
  exists rows, clustering_report_rows k p = Ok rows /\ length rows = Z.to_nat k /\
    (forall i row, nth_error rows i = Some row ->
       exists members : list point, NoDup members /\ (forall pt, In pt members <-> in_grid x y pt /\ label_at p pt (Z.of_nat i)) /\
         fst (fst row) = Z.of_nat i /\ snd (fst row) = Z.of_nat (length members) /\
         (snd row * inject_Z (Z.of_nat (x * y)) == inject_Z (Z.of_nat (length members)) * 100)%Q) /\
    fold_right Z.add 0%Z (map (fun row => snd (fst row)) rows) = Z.of_nat (x * y) /\
    (fold_right Qplus 0 (map snd rows) == 100)%Q.
Proof.
  intros k p x y Hv Hk. pose proof Hv as (Hx & Hy & Hw & Hl & pt0 & (Hg1 & Hg2) & _).
  assert (Hxy : 0 < x * y) by nia.
  set (row := fun i => (i, Z.of_nat (cluster_len p i), (inject_Z (Z.of_nat (cluster_len p i)) * 100 / inject_Z (Z.of_nat (x * y)))%Q)).
  assert (Hr : clustering_report_rows k p = Ok (map row (zrange 0 k))).
  { unfold clustering_report_rows. apply mapM_ok. intros i _. unfold report_row. rewrite Hx, Hy, <- Nat2Z.inj_mul.
    destruct (Z.eqb_spec (Z.of_nat (x * y)) 0); [lia|]. reflexivity. }
  assert (Hz : ~ (inject_Z (Z.of_nat (x * y)) == 0)%Q) by (unfold Qeq; cbn; lia).
  assert (Hs : fold_right plus 0 (map (cluster_len p) (zrange 0 k)) = x * y).
  { pose proof (valid_k_pos p x y Hv) as Hp. rewrite <- (cluster_lengths_sum p x y Hv). unfold zrange.
    replace (Z.to_nat (k - 0)) with (Z.to_nat (pk p - 0) + Z.to_nat (k - pk p)) by lia. rewrite seq_app, map_app, map_app.
    assert (S0 : forall l l', fold_right plus 0 (l ++ l') = fold_right plus 0 l + fold_right plus 0 l') by (intros l l'; induction l; cbn; lia).
    assert (S1 : forall l, (forall n, In n l -> n = 0) -> fold_right plus 0 l = 0).
    { induction l as [|a l IH]; intros H; auto. cbn [fold_right]. rewrite (H a), IH; [auto|intros; apply H; right; auto|left; auto]. }
    rewrite S0, (S1 (map _ (map _ (seq (0 + _) _)))); [lia|]. intros n Hn. rewrite map_map, in_map_iff in Hn. destruct Hn as (j & <- & Hj).
    apply in_seq in Hj. rewrite (cluster_len_spec p x y _ Hv).
    destruct (filter _ (grid x y)) as [|pt l] eqn:E; auto. exfalso.
    assert (Hin : In pt (filter (fun pt => (label_of p pt =? 0 + Z.of_nat j)%Z) (grid x y))) by (rewrite E; left; auto).
    apply filter_In in Hin. destruct Hin as [Hg He]. apply in_grid_iff in Hg. destruct (label_of_spec p x y pt Hv Hg) as [_ Hb]. lia. }
  exists (map row (zrange 0 k)). split; auto. split; [rewrite map_length, zrange_length; f_equal; lia|]. split; [|split].
  - intros i r Hi. rewrite nth_error_map in Hi. destruct (nth_error (zrange 0 k) i) as [z|] eqn:Ez; cbn in Hi; [|discriminate].
    assert (i < length (zrange 0 k)) by (apply nth_error_Some; congruence). rewrite zrange_length in *. rewrite zrange_nth in Ez by lia.
    rewrite Z.add_0_l in Ez. injection Ez as <-. injection Hi as <-.
    exists (filter (fun pt => (label_of p pt =? Z.of_nat i)%Z) (grid x y)). split; [apply NoDup_filter, grid_nodup|]. split.
    + intros pt. rewrite filter_In, in_grid_iff. split.
      * intros [Hg He]. split; auto. destruct (label_of_spec p x y pt Hv Hg) as [Hla _]. apply Z.eqb_eq in He. rewrite <- He. auto.
      * intros [Hg He]. split; auto. destruct (label_of_spec p x y pt Hv Hg) as [Hla _]. unfold label_at in *. apply Z.eqb_eq. congruence.
    + cbn [row fst snd]. rewrite <- (cluster_len_spec p x y _ Hv). split; auto. split; auto. field. auto.
  - rewrite map_map. cbn [row fst snd]. rewrite <- Hs. generalize (zrange 0 k). clear. intros l. induction l as [|a l IH]; auto. cbn. rewrite IH. lia.
  - rewrite map_map. cbn [row snd].
    assert (Q1 : forall l, (fold_right Qplus 0 (map (fun i => inject_Z (Z.of_nat (cluster_len p i)) * 100 / inject_Z (Z.of_nat (x * y))) l) ==
                       inject_Z (Z.of_nat (fold_right plus 0%nat (map (cluster_len p) l))) * 100 / inject_Z (Z.of_nat (x * y)))%Q).
    { induction l as [|a l IH]; cbn [map fold_right].
      - field. auto.
      - rewrite IH, Nat2Z.inj_add, inject_Z_plus. field. auto. }
    rewrite Q1, Hs. field. auto.
Qed.
Print Assumptions C80_report_rows.

(** The file read back with the same delimiter and quotes: the header, then three columns per cluster that start with
    the index and the number of points as integers, whatever the format of the shares. *)
Theorem C80_report_reads_back : forall fmt k p x y, valid_partition p x y -> (pk p <= k)%Z ->
  exists lines rows, clustering_report fmt k p = Ok lines /\ clustering_report_rows k p = Ok rows /\
    map csv_parse lines = ["cluster"; "points"; "coverage"]%string :: map (fun row => [str_int (fst (fst row)); str_int (snd (fst row)); fmt (snd row)]) rows.
Proof.
  intros fmt k p x y Hv Hk. destruct (C80_report_rows k p x y Hv Hk) as (rows & Hr & _). unfold clustering_report. rewrite Hr. cbn [bind].
  eexists. exists rows. split; [reflexivity|]. split; auto. cbn [map]. f_equal.
  rewrite map_map. apply map_ext. intros [[i n] v]. cbn [fst snd]. apply csv_roundtrip. discriminate.
Qed.
Print Assumptions C80_report_reads_back.

Example C80_example : valid_partition ex_p 1 2 /\ clustering_report (fun _ => "v"%string) 2 ex_p = Ok ["cluster points coverage"; "0 2 v"; "1 0 v"]%string.
Proof. split; [apply C58_example_hypotheses|vm_compute; reflexivity]. Qed.
