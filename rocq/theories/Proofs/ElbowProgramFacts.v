(** Facts about the program that finds the elbows of a suite. *)
From Coq Require Import String Lia.
From Verif Require Import Base.Py Base.PyFacts Base.Dict Base.Str Base.StrFacts Base.Arr Base.ArrFacts Base.Float Base.FloatFacts Model.Region Model.Distance
  Model.KMedoids Model.Clustering Model.SolverFiles Model.Algorithms Model.Programs Model.PartitionAnalysis Model.Elbows
  Spec.Grid Spec.Regions Spec.Partition Spec.Distance Spec.Solver Spec.SolverFiles Spec.Clustering Spec.Algorithms Spec.PartitionAnalysis Spec.Elbows
  Proofs.RegionFacts Proofs.PartitionFacts Proofs.ProperFacts Proofs.SolverFacts Proofs.DistanceFacts Proofs.DistanceObjFacts
  Proofs.ClusteringFacts Proofs.ElbowFacts Proofs.NameFacts Proofs.ProgramFacts Proofs.FilesFacts Proofs.AnalysisFacts Props.Distance Props.Clustering Props.SolverFiles.
From Coq Require Import ZifyBool ZifyNat.
Local Notation length := List.length.
Local Open Scope nat_scope.

(* ---------- the cost does not depend on the scaling ---------- *)
Lemma clusters_scaled (p : crisp) d sc x y : valid_partition p x y -> a3x d = x -> a3y d = y ->
  create_all_spt_clusters p (qregion d sc) = Ok (map (fun i => TCluster (qregion d sc) p i) (zrange 0 (pk p))).
Proof.
  intros (Hx & Hy & _) Ex Ey. unfold create_all_spt_clusters. apply mapM_ok. intros i _. unfold create_spt_cluster.
  rewrite Hx, Hy, q_x, q_y, Ex, Ey, !Nat.eqb_refl. reflexivity.
Qed.
Lemma items_scaled (p : crisp) d sc x y i : valid_partition p x y -> qwf d sc -> a3x d = x -> a3y d = y ->
  t_items (TCluster (qregion d sc) p i) = t_items (TCluster (TPlain d) p i).
Proof.
  intros (Hx & Hy & W & _) Hq Ex Ey. destruct sc as [ [ mn mx ] | ]; [ | reflexivity ].
  assert (P : proper_st (TCluster (qregion d (Some (mn, mx))) p i)).
  { constructor; [ apply q_proper, Hq | reflexivity | ]. rewrite q_x, q_y. repeat split; auto; congruence. }
  assert (P' : proper_st (TCluster (TPlain d) p i)).
  { constructor; [ constructor; apply Hq | reflexivity | ]. repeat split; auto; cbn; unfold t_x, t_y; cbn; congruence. }
  rewrite (proper_items _ P), (proper_items _ P'). reflexivity.
Qed.
Lemma cost_scaled env (p : crisp) ms d sc x y md o : valid_partition p x y -> qwf d sc -> a3x d = x -> a3y d = y ->
  intra_cluster_cost env p ms (qregion d sc) md o = intra_cluster_cost env p ms (TPlain d) md o.
Proof.
  intros V Hq Ex Ey. unfold intra_cluster_cost. rewrite (clusters_scaled p d sc x y V Ex Ey), (create_all_spt_clusters_ok p d x y V Ex Ey). cbn [bind].
  assert (E : forall f : Z -> stregion fnum, forall l, enumerate (map f l) = map (fun ij => (fst ij, f (snd ij))) (enumerate l)).
  { intros f l. apply list_ext. intros i. rewrite nth_error_enumerate, !nth_error_map, nth_error_enumerate.
    destruct (nth_error l i); reflexivity. }
  rewrite !E, !foldM_map. f_equal. apply foldM_ext. intros [ cost o0 ] [ i j ] _. cbn [fst snd].
  rewrite (items_scaled p d sc x y j V Hq Ex Ey). rewrite q_y. change (t_y (TPlain d)) with (a3y d).
  destruct (getitem ms (Z.of_nat i)) as [ m | ]; cbn [bind]; [ | reflexivity ].
  destruct (t_items _) as [ items | ]; cbn [bind]; [ | reflexivity ].
  assert (Ed : forall ns, distances_to_point env (qregion d sc) md m ns true true o0 = distances_to_point env (TPlain d) md m ns true true o0).
  { intros ns. unfold distances_to_point. rewrite q_y. reflexivity. }
  rewrite Ed. reflexivity.
Qed.

(* ---------- partitions ---------- *)
Lemma dict_values {V} (val : cmeta -> V) suite : forall d : list (cmeta * cmeta),
  fold_left (fun d m => dict_set c_eqb m (val m) d) suite (map (fun ab => (fst ab, val (snd ab))) d) =
  map (fun ab => (fst ab, val (snd ab))) (fold_left (fun d m => dict_set c_eqb m m d) suite d).
Proof.
  induction suite as [ | m suite IH ]; intros d; [ reflexivity | ]. cbn [fold_left]. rewrite <- IH. f_equal.
  clear. induction d as [ | [ a b ] d IH ]; [ reflexivity | ]. cbn [map dict_set fst snd]. destruct (c_eqb a m); cbn [map fst snd]; [ reflexivity | ].
  f_equal. exact IH.
Qed.

Section Run.
Context {M : Type} (choice : Z -> nat -> Z -> res (list Z)) (env : denv) (create_instance : rmeta -> res (stregion fnum)).
Context (r : rmeta) (d : arr3 fnum) (sc : option (arr2 fnum * arr2 fnum)) (D : mat).
Local Notation x := (a3x d).
Local Notation y := (a3y d).
Local Notation spt := (qregion d sc).
Local Notation loaded := (DObj PlainDTW (Some D) false).
Context (Hname : has_char "/" (rm_name r) = false) (Hspan : spans (rm_region r) x y)
        (Hload : np_load env (distances_filename r) = Ok D) (HD : square (x * y) D).
Context (result : cmeta -> crisp * list point).
Definition val (m : cmeta) : part := (fst (result m), Some (snd (result m))).
Local Notation Used fs := (used choice env fs r (dmeta_of r) spt loaded).

Lemma computed fs c : clustering_impl choice env c (Some (dmeta_of r)) spt true loaded = (algorithm_partition_impl choice env c (Some (dmeta_of r)) spt true loaded, loaded) /\ fs = fs :> fsys M.
Proof. split; [ | reflexivity ]. exact (load_again (M := M) choice env r d sc D Hspan Hload HD (World fs (fun _ => None) loaded) eq_refl c). Qed.

Lemma saved_step (fs : fsys M) c p ms : has_char "/" (mode_of c) = false -> Used fs c p ms ->
  exists fs', partition_saved choice env (fs, loaded) c r spt = ((fs', loaded), Ok (p, Some ms)) /\
    forall q, fs' q = if (q =? saved_at (rmeta_repr r) c)%string then Some (FPartition (p, Some ms)) else fs q.
Proof.
  intros Hmode HU. unfold used in HU. unfold partition_saved, try_load_previous_partition, load_previous_partition, load_file.
  rewrite (saved_at_path c r Hname Hmode).
  destruct (fs (saved_at (rmeta_repr r) c)) as [ [ q | ms0 | e0 | ] | ] eqn:Ef; cbn [as_partition].
  { subst q. exists fs. split; [ reflexivity | ]. intros q. destruct (String.eqb_spec q (saved_at (rmeta_repr r) c)) as [ -> | ]; [ exact Ef | reflexivity ]. }
  all: rewrite (proj1 (computed fs c)), HU; eexists; split; [ reflexivity | ]; intros q; reflexivity.
Qed.

Lemma saved_step_fails (fs : fsys M) c e : has_char "/" (mode_of c) = false ->
  (forall q, fs (saved_at (rmeta_repr r) c) <> Some (FPartition q)) ->
  algorithm_partition_impl choice env c (Some (dmeta_of r)) spt true loaded = Raise e ->
  partition_saved choice env (fs, loaded) c r spt = ((fs, loaded), Raise e).
Proof.
  intros Hmode Hn Ea. unfold partition_saved, try_load_previous_partition, load_previous_partition, load_file. rewrite (saved_at_path c r Hname Hmode).
  destruct (fs (saved_at (rmeta_repr r) c)) as [ [ q | ms0 | e0 | ] | ] eqn:Ef; cbn [as_partition]; [ exfalso; apply (Hn q); reflexivity | | | | ].
  all: rewrite (proj1 (computed fs c)), Ea; reflexivity.
Qed.

Lemma saved_inj c c' : has_char "/" (mode_of c) = false -> has_char "/" (mode_of c') = false ->
  saved_at (rmeta_repr r) c = saved_at (rmeta_repr r) c' -> c_repr c = c_repr c'.
Proof. intros H H'. rewrite <- !saved_at_path by assumption. apply pickle_path_inj; assumption. Qed.

Lemma all_partitions : forall suite (fs : fsys M) d0 rest, NoDup (map c_repr suite) -> (forall c, In c suite -> has_char "/" (mode_of c) = false) ->
  has_results choice env fs r d sc D suite result ->
  exists fs', get_all_partitions choice env (fs, loaded) r spt (suite ++ rest) d0 =
      get_all_partitions choice env (fs', loaded) r spt rest (fold_left (fun dd m => dict_set c_eqb m (val m) dd) suite d0) /\
    saved_all fs fs' (rmeta_repr r) suite result.
Proof.
  induction suite as [ | c suite IH ]; intros fs d0 rest Hnd Hm HR.
  - exists fs. split; [ reflexivity | ]. split; [ intros c [] | reflexivity ].
  - destruct (HR c (or_introl eq_refl)) as [ HU _ ]. destruct (saved_step fs c _ _ (Hm c (or_introl eq_refl)) HU) as (fs1 & E1 & P1).
    cbn [map] in Hnd. inversion_clear Hnd as [ | ? ? Hni Hnd' ]. cbn [app get_all_partitions fold_left]. rewrite E1.
    assert (Other : forall c', In c' suite -> saved_at (rmeta_repr r) c' <> saved_at (rmeta_repr r) c).
    { intros c' Hin E. apply saved_inj in E; [ | apply Hm; right; exact Hin | apply Hm; left; reflexivity ]. apply Hni. rewrite <- E. apply in_map, Hin. }
    destruct (IH fs1 (dict_set c_eqb c (val c) d0) rest Hnd') as (fs' & E' & S1 & S2).
    + intros c' Hin. apply Hm. right. exact Hin.
    + intros c' Hin. destruct (HR c' (or_intror Hin)) as [ HU' HW' ]. split; [ | exact HW' ]. unfold used in *. rewrite P1.
      rewrite (proj2 (String.eqb_neq _ _) (Other c' Hin)). exact HU'.
    + exists fs'. split; [ exact E' | ]. split.
      * intros c' [ <- | Hin ]; [ | apply S1, Hin ]. rewrite S2.
        { rewrite P1, String.eqb_refl. reflexivity. }
        intros c' Hin E. apply (Other c' Hin). symmetry. exact E.
      * intros q Hq. rewrite S2 by (intros c' Hin; apply Hq; right; exact Hin). rewrite P1.
        rewrite (proj2 (String.eqb_neq _ _) (Hq c (or_introl eq_refl))). reflexivity.
Qed.

Definition cost (m : cmeta) : res fnum := intra_cluster_cost env (fst (result m)) (snd (result m)) spt (Some (dmeta_of r)) loaded.
Lemma all_costs_ok suite : get_all_intra_cluster_costs env loaded r spt (fold_left (fun dd m => dict_set c_eqb m (val m) dd) suite []) = all_costs cost suite.
Proof.
  change (@nil (cmeta * part)) with (map (fun ab : cmeta * cmeta => (fst ab, val (snd ab))) []). rewrite dict_values.
  unfold get_all_intra_cluster_costs, all_costs. rewrite foldM_map. apply foldM_ext. intros s [ a b ] _. reflexivity.
Qed.

(** what follows the partitions *)
Definition ending (suite : list cmeta) : res (list string) :=
  elbows <- calculate_elbows cost suite ;;
  by_seed <- organize_kmedoids_suite suite ;;
  lines <- mapM (fun '(seed, elbow) => elbow_lines by_seed seed elbow) elbows ;;
  Ok (List.concat lines).

Lemma run (fs : fsys M) region suite sid : region_by_name region = Ok r -> create_instance r = Ok spt -> get_suite "kmedoids" sid = Ok suite ->
  NoDup (map c_repr suite) -> (forall c, In c suite -> has_char "/" (mode_of c) = false) -> has_results choice env fs r d sc D suite result ->
  exists fs', find_elbows choice env create_instance fs region sid = ((fs', loaded), ending suite) /\ saved_all fs fs' (rmeta_repr r) suite result.
Proof.
  intros Hr Hi Hs Hnd Hm HR. destruct (all_partitions suite fs [] [] Hnd Hm HR) as (fs' & E & S). exists fs'. split; [ | exact S ].
  unfold find_elbows. rewrite Hr. cbn [bind]. rewrite Hs. cbn [bind]. rewrite Hi. cbn [bind].
  unfold load_distance_matrix_2d. cbn [d_kind]. rewrite (base_load_ok env _ _ x y _ D Hspan Hload HD). cbn [d_weighted d_kind].
  rewrite app_nil_r in E. rewrite E. cbn [get_all_partitions snd]. rewrite all_costs_ok. unfold ending, calculate_elbows.
  destruct (all_costs cost suite); reflexivity.
Qed.

Lemma run_fails (fs : fsys M) region before c rest sid e : region_by_name region = Ok r -> create_instance r = Ok spt -> get_suite "kmedoids" sid = Ok (before ++ c :: rest) ->
  NoDup (map c_repr (before ++ c :: rest)) -> (forall c', In c' (before ++ c :: rest) -> has_char "/" (mode_of c') = false) -> has_results choice env fs r d sc D before result ->
  (forall q, fs (saved_at (rmeta_repr r) c) <> Some (FPartition q)) ->
  algorithm_partition_impl choice env c (Some (dmeta_of r)) spt true loaded = Raise e ->
  exists fs', find_elbows choice env create_instance fs region sid = ((fs', loaded), Raise e) /\ saved_all fs fs' (rmeta_repr r) before result.
Proof.
  intros Hr Hi Hs Hnd Hm HR Hn Ea. rewrite map_app in Hnd.
  assert (Hnb : NoDup (map c_repr before)).
  { clear - Hnd. induction before as [ | b l IH ]; cbn [map app] in *; [ constructor | ]. inversion_clear Hnd as [ | ? ? H1 H2 ]. constructor; auto.
    intros Hin. apply H1. apply in_or_app. left. exact Hin. }
  destruct (all_partitions before fs [] (c :: rest) Hnb) as (fs' & E & S); auto.
  { intros c' Hin. apply Hm. apply in_or_app. left. exact Hin. }
  exists fs'. split; [ | exact S ].
  unfold find_elbows. rewrite Hr. cbn [bind]. rewrite Hs. cbn [bind]. rewrite Hi. cbn [bind].
  unfold load_distance_matrix_2d. cbn [d_kind]. rewrite (base_load_ok env _ _ x y _ D Hspan Hload HD). cbn [d_weighted d_kind].
  rewrite E. cbn [get_all_partitions]. rewrite (saved_step_fails fs' c e).
  - reflexivity.
  - apply Hm, in_or_app. right. left. reflexivity.
  - destruct S as [ _ S ]. intros q. rewrite S; [ apply Hn | ]. intros c' Hin E'. apply saved_inj in E'.
    + apply NoDup_remove_2 in Hnd. apply Hnd. apply in_or_app. left. rewrite E'. apply in_map, Hin.
    + apply Hm, in_or_app. right. left. reflexivity.
    + apply Hm, in_or_app. left. exact Hin.
  - exact Ea.
Qed.
End Run.

(* ---------- the lines ---------- *)
Lemma ending_lines env r d sc D result (ps := KParams "lite" None 1000 (Fin (1 # 1000)) true) ks seeds (v : Z -> Q) :
  increasing ks -> 3 <= length ks -> NoDup seeds -> seeds <> [] ->
  (forall k, In k ks -> cost env r d sc D result (kmk ps k (last seeds 0%Z)) = Ok (Fin (v k))) ->
  exists i k, elbow_index ks (map v ks) i /\ nth_error ks i = Some k /\
    ending env r d sc D result (flat_map (fun k => map (kmk ps k) seeds) ks) = Ok (flat_map (seed_lines ks k) seeds).
Proof.
  intros Hinc H3 Hs Hne Hc. destruct (calculate_elbows_spec ps ks seeds (cost env r d sc D result) v Hinc H3 Hs Hne Hc) as (i & k & E1 & E2 & E3).
  exists i, k. split; [ exact E1 | ]. split; [ exact E2 | ]. unfold ending. rewrite E3. cbn [bind].
  set (suite := flat_map (fun k => map (kmk ps k) seeds) ks).
  rewrite organize_spec.
  2:{ unfold suite. clear. induction ks as [ | a l IH ]; auto. cbn [flat_map]. rewrite forallb_app, IH, andb_true_r. clear. induction seeds; auto. }
  cbn [bind]. unfold suite. rewrite suite_seeds; auto; [ | destruct ks; cbn in *; [ lia | congruence ] ]. fold suite.
  rewrite mapM_map. rewrite (mapM_ok _ (seed_lines ks k)).
  { cbn [bind]. rewrite flat_map_concat_map. reflexivity. }
  intros s Hin. unfold elbow_lines.
  assert (G : forall l, In s l -> dict_get Z.eqb s (map (fun s => (s, sorted_by_k (filter (has_seed s) suite))) l) = Ok (sorted_by_k (filter (has_seed s) suite))).
  { induction l as [ | a l IH ]; [ intros [] | ]. cbn [map dict_get]. destruct (Z.eqb_spec a s) as [ -> | ]; [ reflexivity | ]. intros [ ? | ? ]; [ congruence | auto ]. }
  rewrite G by exact Hin. cbn [bind]. unfold suite. rewrite suite_seed by auto. rewrite sorted_by_k_id.
  2:{ rewrite map_map. cbn. rewrite map_id. apply increasing_nondecreasing. exact Hinc. }
  rewrite map_map. cbn [kmk c_k km_k]. rewrite map_id. reflexivity.
Qed.
