(** Facts about the analysis of a clustering suite. *)
From Coq Require Import String Lia.
From Verif Require Import Base.Py Base.PyFacts Base.Str Base.StrFacts Base.Arr Base.ArrFacts Base.Float Base.FloatFacts Model.Region Model.Arrays Model.Distance
  Model.KMedoids Model.Clustering Model.Variance Model.SolverFiles Model.Algorithms Model.Programs Model.Dnn Model.PartitionAnalysis
  Spec.Grid Spec.Partition Spec.Distance Spec.Solver Spec.SolverFiles Spec.Algorithms Spec.PartitionAnalysis
  Proofs.RegionFacts Proofs.PartitionFacts Proofs.ProperFacts Proofs.SolverFacts Proofs.DistanceFacts Proofs.DistanceObjFacts Proofs.VarianceFacts
  Proofs.ReportFacts Proofs.ClusteringFacts Proofs.NameFacts Proofs.ProgramFacts Proofs.FilesFacts Props.Clustering Props.SolverFiles.
From Coq Require Import ZifyBool ZifyNat.
Local Notation length := List.length.
Local Open Scope nat_scope.

Lemma firstn_snoc {A} (l : list A) : forall n v, nth_error l n = Some v -> firstn (S n) l = (firstn n l ++ [v])%list.
Proof. induction l as [ | a l IH ]; intros [ | n ] v E; try discriminate; cbn in *; [ congruence | ]. f_equal. apply IH, E. Qed.

(* ---------- paths ---------- *)
Lemma report_path_names c r : has_char "/" (rm_name r) = false -> has_char "/" (mode_of c) = false ->
  report_path c r "dtw" "outputs" = join "/" ["outputs"; rmeta_repr r; "dtw"; c_repr c; "clustering__" ++ c_repr c ++ ".csv"]%string.
Proof.
  intros Hr Hc. pose proof (c_repr_no_slash c Hc) as Cs. pose proof (rmeta_repr_no_slash r Hr) as Rs.
  pose proof (c_repr_nonempty c) as Cn. pose proof (rmeta_repr_nonempty r) as Rn.
  unfold report_path, clustering_output_dir, region_output_dir, clustering_subdir.
  change (path_join "outputs" (rmeta_repr r)) with (path_join ("" ++ join "/" ["outputs"%string]) (rmeta_repr r)).
  rewrite path_join_names; auto; try discriminate. 2:{ intros s [ <- | [] ]. split; [ reflexivity | discriminate ]. }
  rewrite path_join_names2; auto; try discriminate. 2:{ cbn [app]. intros s [ <- | [ <- | [] ] ]; split; auto; try reflexivity; discriminate. }
  cbn [app]. rewrite path_join_names; auto; try discriminate.
  - intros s [ <- | [ <- | [ <- | [ <- | [] ] ] ] ]; split; auto; try reflexivity; discriminate.
  - rewrite !has_char_app, Cs. reflexivity.
Qed.
Lemma analysis_path_names suite r :
  analysis_csv_filepath suite "dtw" "outputs" r = (path_join "outputs" (rmeta_repr r) ++ "/" ++ "dtw" ++ "/" ++ "clustering__" ++ suite ++ ".csv")%string.
Proof. unfold analysis_csv_filepath, suite_csv_dir, analysis_csv_filename, region_output_dir. rewrite !sapp_assoc. reflexivity. Qed.
Lemma report_not_analysis c r suite : has_char "/" (rm_name r) = false -> has_char "/" (mode_of c) = false -> has_char "/" suite = false ->
  report_path c r "dtw" "outputs" <> analysis_csv_filepath suite "dtw" "outputs" r.
Proof.
  intros Hr Hc Hs E. rewrite report_path_names, analysis_path_names in E by assumption.
  pose proof (c_repr_no_slash c Hc) as Cs. pose proof (rmeta_repr_no_slash r Hr) as Rs. pose proof (rmeta_repr_nonempty r) as Rn.
  change (path_join "outputs" (rmeta_repr r)) with (path_join ("" ++ join "/" ["outputs"%string]) (rmeta_repr r)) in E.
  rewrite path_join_names in E; auto; try discriminate. 2:{ intros s [ <- | [] ]. split; [ reflexivity | discriminate ]. }
  assert (F : (("" ++ join "/" (["outputs"] ++ [rmeta_repr r])) ++ "/" ++ "dtw" ++ "/" ++ "clustering__" ++ suite ++ ".csv" =
               join "/" ["outputs"; rmeta_repr r; "dtw"; "clustering__" ++ suite ++ ".csv"])%string).
  { cbn [app join]. rewrite !sapp_assoc. reflexivity. }
  rewrite F in E. apply (names_inj ""%string) in E; try discriminate.
  - intros s [ <- | [ <- | [ <- | [ <- | [ <- | [] ] ] ] ] ]; auto. rewrite !has_char_app, Cs. reflexivity.
  - intros s [ <- | [ <- | [ <- | [ <- | [] ] ] ] ]; auto. rewrite !has_char_app, Hs. reflexivity.
Qed.
Lemma report_path_inj c c' r : has_char "/" (rm_name r) = false -> has_char "/" (mode_of c) = false -> has_char "/" (mode_of c') = false ->
  report_path c r "dtw" "outputs" = report_path c' r "dtw" "outputs" -> c_repr c = c_repr c'.
Proof.
  intros Hr Hc Hc' E. rewrite !report_path_names in E by assumption.
  pose proof (c_repr_no_slash c Hc) as Cs. pose proof (c_repr_no_slash c' Hc') as Cs'. pose proof (rmeta_repr_no_slash r Hr) as Rs.
  apply (names_inj ""%string) in E; try discriminate.
  - injection E as E. exact E.
  - intros s [ <- | [ <- | [ <- | [ <- | [ <- | [] ] ] ] ] ]; auto. rewrite !has_char_app, Cs. reflexivity.
  - intros s [ <- | [ <- | [ <- | [ <- | [ <- | [] ] ] ] ] ]; auto. rewrite !has_char_app, Cs'. reflexivity.
Qed.
Lemma pickle_path_inj c c' r : has_char "/" (rm_name r) = false -> has_char "/" (mode_of c) = false -> has_char "/" (mode_of c') = false ->
  pickle_full_path c r "dtw" = pickle_full_path c' r "dtw" -> c_repr c = c_repr c'.
Proof.
  intros Hr Hc Hc' E. assert (S : split "/" (pickle_full_path c r "dtw") = split "/" (pickle_full_path c' r "dtw")) by congruence.
  rewrite !path_components in S by (auto; discriminate). injection S as S _. exact S.
Qed.

Lemma report_at_path c r : has_char "/" (rm_name r) = false -> has_char "/" (mode_of c) = false ->
  report_path c r "dtw" "outputs" = report_at (rmeta_repr r) c.
Proof. intros Hr Hc. rewrite report_path_names by assumption. unfold report_at. cbn [join]. rewrite ?sapp_assoc. reflexivity. Qed.
Lemma saved_at_path c r : has_char "/" (rm_name r) = false -> has_char "/" (mode_of c) = false ->
  pickle_full_path c r "dtw" = saved_at (rmeta_repr r) c.
Proof.
  intros Hr Hc. pose proof (c_repr_no_slash c Hc) as Cs. pose proof (rmeta_repr_no_slash r Hr) as Rs.
  pose proof (c_repr_nonempty c) as Cn. pose proof (rmeta_repr_nonempty r) as Rn.
  unfold pickle_full_path, clustering_pickle_dir, clustering_subdir, region_pickle_dir.
  change (path_join "pickle" (rmeta_repr r)) with (path_join ("" ++ join "/" ["pickle"%string]) (rmeta_repr r)).
  rewrite path_join_names; auto; try discriminate. 2:{ intros s [ <- | [] ]. split; [ reflexivity | discriminate ]. }
  rewrite path_join_names2; auto; try discriminate. 2:{ cbn [app]. intros s [ <- | [ <- | [] ] ]; split; auto; try reflexivity; discriminate. }
  cbn [app]. rewrite path_join_names; auto; try discriminate.
  - intros s [ <- | [ <- | [ <- | [ <- | [] ] ] ] ]; split; auto; try reflexivity; discriminate.
  - rewrite !has_char_app, Cs. reflexivity.
Qed.
Lemma table_at_path ty sid r : has_char "/" (rm_name r) = false ->
  analysis_csv_filepath (suite_repr ty sid) "dtw" "outputs" r = table_at (rmeta_repr r) ty sid.
Proof.
  intros Hr. rewrite analysis_path_names. pose proof (rmeta_repr_no_slash r Hr) as Rs. pose proof (rmeta_repr_nonempty r) as Rn.
  change (path_join "outputs" (rmeta_repr r)) with (path_join ("" ++ join "/" ["outputs"%string]) (rmeta_repr r)).
  rewrite path_join_names; auto; try discriminate. 2:{ intros s [ <- | [] ]. split; [ reflexivity | discriminate ]. }
  unfold table_at, suite_repr. cbn [app join]. rewrite ?sapp_assoc. reflexivity.
Qed.

(* ---------- one clustering ---------- *)
Section One.
Context {M : Type} (choice : Z -> nat -> Z -> res (list Z)) (env : denv) (create_instance : rmeta -> res (stregion fnum))
        (format_coverage : Q -> string) (format_float : nat -> fnum -> string).
Context (r : rmeta) (d : arr3 fnum) (sc : option (arr2 fnum * arr2 fnum)) (D : mat) (dist : point -> point -> fnum).
Local Notation x := (a3x d).
Local Notation y := (a3y d).
Local Notation spt := (qregion d sc).
Context (Hname : has_char "/" (rm_name r) = false) (Hinst : create_instance r = Ok spt) (Hq : qwf d sc) (Hspan : spans (rm_region r) x y)
        (Hload : np_load env (distances_filename r) = Ok D) (HD : square (x * y) D)
        (Hdist : forall q pt, in_grid x y q -> in_grid x y pt -> entry D (index_of y q) (index_of y pt) = Some (dist q pt)).
Local Notation loaded := (DObj PlainDTW (Some D) false).
Local Notation g := (rm_region r).
Local Notation Used fs := (used choice env fs r (dmeta_of r) spt loaded).
Local Notation world := (world M).

Definition members (p : crisp) (i : Z) : list point := filter (has_lab p i) (grid x y).
Definition cost_at (p : crisp) (ms : list point) (i : nat) : fnum := fsum (map (dist (nth i ms (0, 0)%Z)) (members p (Z.of_nat i))).
Definition costs (p : crisp) (ms : list point) : list fnum := map (cost_at p ms) (seq 0 (length ms)).
Definition absolute (m : point) : point := absolute_position_of_point g m.
Definition row (c : cmeta) (p : crisp) (ms : list point) : string * string * list point :=
  (c_repr c, format_float 3 (fsum (costs p ms)), map absolute ms).
Definition report (c : cmeta) (p : crisp) : list string := match clustering_report format_coverage (c_k c) p with Ok l => l | Raise _ => [] end.

Lemma members_spec p i : valid_partition p x y -> cluster_points p x y i (members p i).
Proof. intros V. exists (has_lab p i). split; [ reflexivity | ]. intros pt Hg. apply (has_lab_iff _ _ _ _ _ V Hg). Qed.
Lemma row_spec c p ms : valid_partition p x y -> row_of format_float dist x y g c p ms (row c p ms).
Proof.
  intros V. exists (costs p ms). split; [ | reflexivity ]. split; [ unfold costs; rewrite map_length, seq_length; reflexivity | ].
  intros i m v Em Ev. exists (members p (Z.of_nat i)). split; [ apply members_spec, V | ]. unfold costs in Ev. rewrite nth_error_map in Ev.
  assert (Hi : i < length ms) by (apply nth_error_Some; congruence). rewrite (nth_error_nth' _ 0) in Ev by (rewrite seq_length; exact Hi).
  rewrite seq_nth in Ev by exact Hi. injection Ev as <-. unfold cost_at. rewrite (nth_error_nth _ _ (0, 0)%Z Em). reflexivity.
Qed.

Lemma load_again w : w_distance w = loaded ->
  forall c, clustering_impl choice env c (Some (dmeta_of r)) spt true (w_distance (M := M) w) = (algorithm_partition_impl choice env c (Some (dmeta_of r)) spt true loaded, loaded).
Proof.
  intros E c. unfold clustering_impl. rewrite E. cbn [try_load_distance_matrix load_distance_matrix_md dmeta_of md_filename md_region].
  unfold load_distance_matrix_2d. cbn [d_kind]. rewrite (base_load_ok env _ _ x y _ D Hspan Hload HD). reflexivity.
Qed.

Lemma cluster_distances p i m : valid_partition p x y -> in_grid x y m ->
  exists ns, all_point_indices (TCluster spt p i) = Ok ns /\
    distances_to_point env (TCluster spt p i) (Some (dmeta_of r)) m ns true true loaded = (Ok (map (dist m) (members p i)), loaded).
Proof.
  intros V Gm. destruct (all_point_indices_cluster p spt x y i V) as (ns & E & _ & En); [ apply q_x | apply q_y | ]. exists ns. split; [ exact E | ].
  assert (Hin : forall q, In q (members p i) -> in_grid x y q) by (intros q H; apply filter_In in H; apply in_grid_iff, H).
  assert (En' : ns = map (index_of y) (members p i)).
  { rewrite En. assert (filter (fun pt => (label_of p pt =? i)%Z) (grid x y) = members p i) as ->.
    { unfold members. apply filter_ext_in. intros q Hg. apply in_grid_iff in Hg. apply Bool.eq_true_iff_eq. rewrite (has_lab_iff _ _ _ _ _ V Hg).
      rewrite Z.eqb_eq. destruct (label_of_spec p x y q V Hg) as [ A _ ]. unfold label_at in *. split; intros B; congruence. }
    apply map_ext_in. intros q H. destruct (index_of_encode _ _ _ (Hin q H)) as [ Ee _ ]. rewrite Ee. apply Nat2Z.id. }
  unfold distances_to_point. cbn [negb d_matrix]. unfold distances_to_point_with_matrix. cbn [d_matrix].
  change (t_y (TCluster spt p i)) with (t_y spt). rewrite q_y. destruct (index_of_encode _ _ _ Gm) as [ -> Lm ].
  destruct (row_ok (x * y) D (index_of y m) ns HD Lm) as [ -> _ ].
  - rewrite En'. intros j Hj. apply in_map_iff in Hj. destruct Hj as (q & <- & H). apply (index_of_encode _ _ _ (Hin q H)).
  - f_equal. rewrite En', map_map. f_equal. apply map_ext_in. intros q H. unfold entry_or. rewrite (Hdist m q Gm (Hin q H)). reflexivity.
Qed.

Lemma clusters_ok p ms : with_medoids x y (Z.of_nat (length ms)) p ms -> ms <> [] ->
  clusters_with_centroids p spt None None (Some ms) =
  Ok (map (fun i => HRegion ("cluster" ++ str_int (Z.of_nat i))%string (TCluster spt p (Z.of_nat i)) (nth_error ms i) None) (seq 0 (length ms))).
Proof.
  intros (V & K & _ & _) Hne. unfold clusters_with_centroids. cbn [bind py_assert]. rewrite K. unfold zrange. rewrite mapM_map, Z.sub_0_r, Nat2Z.id.
  apply mapM_ok. intros i Hi. apply in_seq in Hi. unfold create_spt_cluster. destruct V as (X & Y & _). rewrite X, Y, q_x, q_y, !Nat.eqb_refl. cbn [bind py_assert].
  rewrite Z.add_0_l. destruct ms as [ | m ms ]; [ congruence | ].
  destruct (nth_error (m :: ms) i) as [ mi | ] eqn:Ei; [ | apply nth_error_None in Ei; lia ].
  rewrite (getitem_in (m :: ms) i mi Ei). reflexivity.
Qed.

Lemma clusters_loop p ms : with_medoids x y (Z.of_nat (length ms)) p ms -> forall n, n <= length ms ->
  forall clusters, clusters = map (fun i => HRegion ("cluster" ++ str_int (Z.of_nat i))%string (TCluster spt p (Z.of_nat i)) (nth_error ms i) None) (seq 0 (length ms)) ->
  fold_left (analyze_cluster env r clusters) (zrange 0 (Z.of_nat n)) (Ok (""%string, []), loaded) =
  (Ok (fold_left (fun s pt => s ++ medoid_str pt)%string (map absolute (firstn n ms)) ""%string, map (cost_at p ms) (seq 0 n)), loaded).
Proof.
  intros (V & K & _ & G) n Hn clusters Ec. induction n as [ | n IH ]; [ reflexivity | ].
  assert (Ez : zrange 0 (Z.of_nat (S n)) = (zrange 0 (Z.of_nat n) ++ [Z.of_nat n])%list).
  { unfold zrange. rewrite !Z.sub_0_r, !Nat2Z.id, seq_S, map_app. reflexivity. }
  rewrite Ez, fold_left_app, IH by lia. cbn [fold_left]. unfold analyze_cluster.
  destruct (nth_error ms n) as [ m | ] eqn:En; [ | apply nth_error_None in En; lia ].
  rewrite (getitem_in clusters n (HRegion ("cluster" ++ str_int (Z.of_nat n))%string (TCluster spt p (Z.of_nat n)) (Some m) None)).
  2:{ rewrite Ec, nth_error_map, (nth_error_nth' _ 0) by (rewrite seq_length; lia). rewrite seq_nth by lia. cbn [option_map Nat.add]. rewrite En. reflexivity. }
  cbn [bind h_own h_region]. assert (Gm : in_grid x y m) by (rewrite Forall_forall in G; apply G; eapply nth_error_In; exact En).
  destruct (cluster_distances p (Z.of_nat n) m V Gm) as (ns & E1 & E2). rewrite E1. cbn [bind h_region]. rewrite E2.
  f_equal. f_equal. rewrite (firstn_snoc ms n m En), map_app, fold_left_app. cbn [map fold_left]. rewrite seq_S, map_app. cbn [map Nat.add].
  assert (Hc : cost_at p ms n = fsum (map (dist m) (members p (Z.of_nat n)))) by (unfold cost_at; rewrite (nth_error_nth _ _ (0, 0)%Z En); reflexivity).
  rewrite Hc. reflexivity.
Qed.

Definition item : Type := cmeta * crisp * list point.
Definition it_c (it : item) : cmeta := fst (fst it).
Definition it_p (it : item) : crisp := snd (fst it).
Definition it_ms (it : item) : list point := snd it.
Definition it_row (it : item) := row (it_c it) (it_p it) (it_ms it).
Definition row_line (rw : string * string * list point) : string :=
  let '(a, cost, medoids) := rw in csv_line [a; cost; fold_left (fun s pt => s ++ medoid_str pt)%string medoids ""%string].

Lemma step (w : world) it : has_char "/" (mode_of (it_c it)) = false -> w_distance w = loaded -> Used (w_pickles w) (it_c it) (it_p it) (it_ms it) ->
  with_medoids x y (c_k (it_c it)) (it_p it) (it_ms it) ->
  exists w' cells, analyze_partition choice env create_instance format_coverage format_float w (it_c it) r = (w', Ok cells) /\
    csv_line cells = row_line (it_row it) /\ w_distance w' = loaded /\
    (forall q, w_texts w' q = if (q =? report_path (it_c it) r "dtw" "outputs")%string then Some (report (it_c it) (it_p it)) else w_texts w q) /\
    (forall q, w_pickles w' q = if (q =? pickle_full_path (it_c it) r "dtw")%string then Some (FPartition (it_p it, Some (it_ms it))) else w_pickles w q).
Proof.
  destruct it as [ [ c p ] ms ]. cbn [it_c it_p it_ms fst snd]. intros Hmode Ew HU HW. pose proof HW as (V & K & L & G).
  assert (Hne : ms <> []). { intros ->. pose proof (valid_k_pos p x y V). cbn in L. lia. }
  destruct (C80_report_reads_back format_coverage (c_k c) p x y V ltac:(lia)) as (lines & rows & Er & _).
  assert (Erep : report c p = lines) by (unfold report; rewrite Er; reflexivity).
  unfold analyze_partition. rewrite Hinst. unfold partition_and_report, save_to_csv. unfold used in HU. rewrite <- (saved_at_path c r Hname Hmode) in HU.
  assert (Hfin : forall w1, w_distance w1 = loaded ->
    (let '(result, o) := fold_left (analyze_cluster env r (map (fun i => HRegion ("cluster" ++ str_int (Z.of_nat i))%string (TCluster spt p (Z.of_nat i)) (nth_error ms i) None) (seq 0 (length ms)))) (zrange 0 (c_k c)) (Ok (""%string, []), w_distance w1) in
     (World (w_pickles w1) (w_texts w1) o, '(medoids_str, costs) <- result ;; Ok [c_repr c; format_float 3 (fsum costs); medoids_str])) =
    (World (w_pickles (M := M) w1) (w_texts w1) loaded, Ok [c_repr c; format_float 3 (fsum (costs p ms)); fold_left (fun s pt => s ++ medoid_str pt)%string (map absolute ms) ""%string])).
  { intros w1 E1. rewrite E1, <- L. rewrite (clusters_loop p ms); [ | rewrite L; exact HW | apply le_n | reflexivity ].
    rewrite firstn_all. reflexivity. }
  assert (Hcl : clusters_with_centroids p spt None None (Some ms) = Ok (map (fun i => HRegion ("cluster" ++ str_int (Z.of_nat i))%string (TCluster spt p (Z.of_nat i)) (nth_error ms i) None) (seq 0 (length ms)))).
  { apply clusters_ok; [ | exact Hne ]. rewrite L. exact HW. }
  unfold try_load_previous_partition, load_previous_partition, load_file.
  assert (Hgo : forall w1 cells (H : cells = [c_repr c; format_float 3 (fsum (costs p ms)); fold_left (fun s pt => s ++ medoid_str pt)%string (map absolute ms) ""%string]),
     w_distance w1 = loaded ->
      (forall q, w_texts w1 q = if (q =? report_path c r "dtw" "outputs")%string then Some lines else w_texts w q) ->
      (forall q, w_pickles w1 q = if (q =? pickle_full_path c r "dtw")%string then Some (FPartition (p, Some ms)) else w_pickles w q) ->
     exists w' cells, match clusters_with_centroids p spt None None (Some ms) with
       | Ok clusters => let '(result, o) := fold_left (analyze_cluster env r clusters) (zrange 0 (c_k c)) (Ok (""%string, []), w_distance w1) in
           (World (w_pickles w1) (w_texts w1) o, '(medoids_str, costs) <- result ;; Ok [c_repr c; format_float 3 (fsum costs); medoids_str])
       | Raise e => (w1, Raise e) end = (w', Ok cells) /\ csv_line cells = row_line (it_row (c, p, ms)) /\ w_distance w' = loaded /\
      (forall q, w_texts w' q = if (q =? report_path c r "dtw" "outputs")%string then Some (report c p) else w_texts w q) /\
      (forall q, w_pickles w' q = if (q =? pickle_full_path c r "dtw")%string then Some (FPartition (p, Some ms)) else w_pickles w q)).
  { intros w1 cells -> E1 Ht Hp. rewrite Hcl, (Hfin w1 E1). eexists _, _. split; [ reflexivity | ]. split; [ reflexivity | ]. split; [ reflexivity | ].
    rewrite Erep. split; [ exact Ht | exact Hp ]. }
  destruct (w_pickles w (pickle_full_path c r "dtw")) as [ [ q | ms0 | e0 | ] | ] eqn:Ef; cbn [as_partition].
  { subst q. cbn [fst]. rewrite Er. eapply Hgo; [ reflexivity | exact Ew | reflexivity | ]. intros q. cbn [write_text w_pickles].
    destruct (String.eqb_spec q (pickle_full_path c r "dtw")) as [ -> | ]; [ exact Ef | reflexivity ]. }
  all: rewrite (load_again w Ew), HU; cbn [fst]; rewrite Er; eapply Hgo; reflexivity.
Qed.

(** the files after the clusterings [items] *)
Definition texts_after (w : world) (path : string) (lines : list string) (items : list item) (q : string) : option (list string) :=
  if (q =? path)%string then Some (lines ++ map row_line (map it_row items))%list
  else match find (fun it => (q =? report_path (it_c it) r "dtw" "outputs")%string) items with
       | Some it => Some (report (it_c it) (it_p it))
       | None => w_texts w q
       end.
Definition pickles_after (w : world) (items : list item) (q : string) : option (@file M) :=
  match find (fun it => (q =? pickle_full_path (it_c it) r "dtw")%string) items with
  | Some it => Some (FPartition (it_p it, Some (it_ms it)))
  | None => w_pickles w q
  end.

Lemma loop (path : string) : forall items (w : world) lines rest, w_distance w = loaded -> w_texts w path = Some lines ->
  NoDup (map (fun it => c_repr (it_c it)) items) ->
  (forall it, In it items -> has_char "/" (mode_of (it_c it)) = false /\ report_path (it_c it) r "dtw" "outputs" <> path /\
     Used (w_pickles w) (it_c it) (it_p it) (it_ms it) /\ with_medoids x y (c_k (it_c it)) (it_p it) (it_ms it)) ->
  exists w', analyze_clusterings choice env create_instance format_coverage format_float w path r (map it_c items ++ rest) =
             analyze_clusterings choice env create_instance format_coverage format_float w' path r rest /\
    w_distance w' = loaded /\ (forall q, w_texts w' q = texts_after w path lines items q) /\ (forall q, w_pickles w' q = pickles_after w items q).
Proof.
  induction items as [ | it items IH ]; intros w lines rest Ew Et Hnd H.
  - exists w. split; [ reflexivity | ]. split; [ exact Ew | ]. split; [ | reflexivity ]. intros q. unfold texts_after. cbn [map find]. rewrite app_nil_r.
    destruct (String.eqb_spec q path) as [ -> | ]; [ exact Et | reflexivity ].
  - destruct (H it (or_introl eq_refl)) as (Hc & Hnp & HU & HW). destruct (step w it Hc Ew HU HW) as (w1 & cells & E1 & El & D1 & T1 & P1).
    cbn [map app analyze_clusterings]. rewrite E1. rewrite El. cbn [map] in Hnd. inversion_clear Hnd as [ | ? ? Hni Hnd' ].
    assert (Tp : w_texts w1 path = Some lines). { rewrite T1. destruct (String.eqb_spec path (report_path (it_c it) r "dtw" "outputs")); [ congruence | exact Et ]. }
    set (w2 := append_text w1 path (row_line (it_row it))).
    assert (Same : forall it', In it' items -> c_repr (it_c it') <> c_repr (it_c it)).
    { intros it' Hin E. apply Hni. rewrite <- E. apply (in_map (fun it => c_repr (it_c it))), Hin. }
    destruct (IH w2 (lines ++ [row_line (it_row it)])%list rest) as (w' & E' & D' & T' & P').
    + exact D1.
    + unfold w2, append_text, write_text. cbn [w_texts]. rewrite String.eqb_refl, Tp. reflexivity.
    + exact Hnd'.
    + intros it' Hin. destruct (H it' (or_intror Hin)) as (Hc' & Hnp' & HU' & HW'). split; [ exact Hc' | ]. split; [ exact Hnp' | ]. split; [ | exact HW' ].
      unfold used in *. rewrite <- (saved_at_path (it_c it') r Hname Hc') in *. unfold w2, append_text, write_text. cbn [w_pickles]. rewrite P1.
      destruct (String.eqb_spec (pickle_full_path (it_c it') r "dtw") (pickle_full_path (it_c it) r "dtw")) as [ E | ]; [ | exact HU' ].
      exfalso. apply (Same it' Hin). apply (pickle_path_inj _ _ r); assumption.
    + exists w'. split; [ exact E' | ]. split; [ exact D' | ]. split.
      * intros q. rewrite T'. unfold texts_after. destruct (String.eqb_spec q path) as [ -> | Hq0 ].
        { cbn [map]. rewrite <- app_assoc. reflexivity. }
        cbn [find]. unfold w2, append_text, write_text. cbn [w_texts]. rewrite (proj2 (String.eqb_neq q path) Hq0), T1.
        destruct (find _ items) as [ it' | ] eqn:Ef.
        { apply find_some in Ef. destruct Ef as [ Hin Eq ]. apply String.eqb_eq in Eq. subst q.
          destruct (String.eqb_spec (report_path (it_c it') r "dtw" "outputs") (report_path (it_c it) r "dtw" "outputs")) as [ E | ]; [ | reflexivity ].
          exfalso. apply (Same it' Hin). destruct (H it' (or_intror Hin)) as (Hc' & _). apply (report_path_inj _ _ r); assumption. }
        destruct (_ =? _)%string; reflexivity.
      * intros q. rewrite P'. unfold pickles_after. cbn [find]. unfold w2, append_text, write_text. cbn [w_pickles]. rewrite P1.
        destruct (find _ items) as [ it' | ] eqn:Ef.
        { apply find_some in Ef. destruct Ef as [ Hin Eq ]. apply String.eqb_eq in Eq. subst q.
          destruct (String.eqb_spec (pickle_full_path (it_c it') r "dtw") (pickle_full_path (it_c it) r "dtw")) as [ E | ]; [ | reflexivity ].
          exfalso. apply (Same it' Hin). destruct (H it' (or_intror Hin)) as (Hc' & _). apply (pickle_path_inj _ _ r); assumption. }
        destruct (_ =? _)%string; reflexivity.
Qed.

Lemma step_fails (w : world) c e : has_char "/" (mode_of c) = false -> w_distance w = loaded ->
  (forall q, w_pickles w (saved_at (rmeta_repr r) c) <> Some (FPartition q)) ->
  algorithm_partition_impl choice env c (Some (dmeta_of r)) spt true loaded = Raise e ->
  exists w', analyze_partition choice env create_instance format_coverage format_float w c r = (w', Raise e) /\
    w_distance w' = loaded /\ w_texts w' = w_texts w /\ w_pickles w' = w_pickles w.
Proof.
  intros Hmode Ew Hn Ea. rewrite <- (saved_at_path c r Hname Hmode) in Hn. unfold analyze_partition. rewrite Hinst.
  unfold partition_and_report, try_load_previous_partition, load_previous_partition, load_file.
  destruct (w_pickles w (pickle_full_path c r "dtw")) as [ [ q | ms0 | e0 | ] | ] eqn:Ef; cbn [as_partition]; [ exfalso; apply (Hn q); reflexivity | | | | ].
  all: rewrite (load_again w Ew), Ea; eexists; repeat split; reflexivity.
Qed.
End One.
