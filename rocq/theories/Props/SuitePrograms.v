(** C124-C126: the programs that write tables for every clustering of a suite. *)
From Coq Require Import String Lia QArith.
From Verif Require Import Base.Py Base.PyFacts Base.Str Base.StrFacts Base.Arr Base.ArrFacts Base.Float Base.FloatFacts Base.Dict Model.Region Model.Arrays Model.Errors Model.Models Model.Distance
  Model.KMedoids Model.Clustering Model.Variance Model.Solver Model.SolverFiles Model.Forecast Model.Results Model.Reports Model.Algorithms Model.Programs Model.Dnn Model.PartitionAnalysis
  Model.SuitePrograms
  Spec.Grid Spec.Partition Spec.Distance Spec.Solver Spec.SolverFiles Spec.Algorithms Spec.Programs Spec.PartitionAnalysis Spec.Reports Spec.SuitePrograms
  Proofs.RegionFacts Proofs.PartitionFacts Proofs.ProperFacts Proofs.SolverFacts Proofs.DistanceFacts Proofs.DistanceObjFacts Proofs.VarianceFacts
  Proofs.ReportFacts Proofs.ClusteringFacts Proofs.NameFacts Proofs.ProgramFacts Proofs.FilesFacts Proofs.AnalysisFacts Proofs.SuiteFacts
  Props.Clustering Props.SolverFiles Props.Programs Props.Reports Props.PartitionAnalysis.
From Coq Require Import ZifyBool ZifyNat.
Close Scope Q_scope.
Local Notation length := List.length.
Local Open Scope nat_scope.

(* ---------------------------------------------------------------- C124 *)
Lemma medoid_table (D : mat) (dist : point -> point -> fnum) x y k ms : square (x * y) D ->
  (forall q pt, in_grid x y q -> in_grid x y pt -> entry D (index_of y q) (index_of y pt) = Some (dist q pt)) ->
  Forall (in_grid x y) ms -> Z.of_nat (length ms) = k ->
  exists file, save_medoid_distances (DObj PlainDTW (Some D) false) y k ms = Ok file /\ medoid_pairs "k" dist ms file.
Proof.
  intros HD He Hm <-. destruct (C108_medoid_table (DObj PlainDTW (Some D) false) D x y ms eq_refl HD Hm) as (rows & E & L & H). eexists. split; [ exact E | ].
  exists rows. split; [ reflexivity | ]. split; [ exact L | ]. intros i mi Hi. destruct (H i mi Hi) as (values & Er & HF). rewrite Er. do 2 f_equal.
  rewrite Forall_forall in Hm. assert (Hmi : in_grid x y mi) by (apply Hm, (nth_error_In _ _ Hi)). clear - HF He Hm Hmi.
  induction HF as [ | mj v ms vs Hv HF IH ]; [ reflexivity | ]. cbn [map]. rewrite He in Hv; [ | exact Hmi | apply Hm; left; reflexivity ]. injection Hv as ->.
  f_equal. apply IH. intros m Hin. apply Hm. right. exact Hin.
Qed.

Section Distances.
Context {M : Type} (choice : Z -> nat -> Z -> res (list Z)) (env : denv) (create_instance : rmeta -> res (stregion fnum)).
Context (region : string) (r : rmeta) (d : arr3 fnum) (sc : option (arr2 fnum * arr2 fnum)) (D : mat) (dist : point -> point -> fnum).
Context (Hready : ready env create_instance region r d sc D dist).
Local Notation loaded := (DObj PlainDTW (Some D) false).
Local Notation computed := (outcomes choice env (fun _ : string => None : option (@file M)) r d sc D).

Definition distances_table (c : cmeta) (p : crisp) (ms : list point) : csv_file :=
  match save_medoid_distances loaded (a3y d) (c_k c) ms with Ok f => f | Raise _ => [] end.
Lemma distances_step (w : world M) c p ms : w_distance w = loaded -> has_char "/" (mode_of c) = false ->
  algorithm_partition_impl choice env c (Some (dmeta_of r)) (qregion d sc) true loaded = Ok (p, Some ms) -> with_medoids (a3x d) (a3y d) (c_k c) p ms ->
  medoid_distances_step choice env r (qregion d sc) w c = (w, ([(medoid_distances_at region c, distances_table c p ms)], None)) /\
  medoid_pairs "k" dist ms (distances_table c p ms).
Proof.
  intros Ew Hc Ea (V & K & L & G). pose proof Hready as (Hr & Hi & Hq & Hsp & Hl & HD & He). destruct (predefined_facts _ _ Hr) as (En & Hn & _).
  destruct (medoid_table D dist _ _ (c_k c) ms HD He G L) as (file & Ef & Hf). unfold distances_table. rewrite Ef. split; [ | exact Hf ].
  unfold medoid_distances_step. rewrite (load_again choice env r d sc D Hsp Hl HD w Ew), Ea, q_y, Ef, (medoid_distances_path_at c r Hn Hc), En.
  destruct w as [ p0 t0 o0 ]. cbn in *. subst o0. reflexivity.
Qed.
Lemma distances_loop : forall before results (w : world M) t rest, w_distance w = loaded ->
  (forall c, In c before -> has_char "/" (mode_of c) = false) -> computed before results ->
  each_clustering (medoid_distances_step choice env r (qregion d sc)) w t (before ++ rest)%list =
  each_clustering (medoid_distances_step choice env r (qregion d sc)) w
    (put_tables t (flat_map (fun it => [(medoid_distances_at region (it_c it), distances_table (it_c it) (it_p it) (it_ms it))]) (map itemize (combine before results)))) rest /\
  each before results (fun c p ms => medoid_pairs "k" dist ms (distances_table c p ms)).
Proof.
  induction before as [ | c before IH ]; intros results w t rest Ew Hc Ho; inversion Ho as [ | ? pm ? results' [ HU HW ] Ho' ]; subst.
  - split; [ reflexivity | ]. intros [ | i ] c p ms E; discriminate.
  - destruct pm as [ p ms ]. cbn [fst snd] in HU, HW. unfold used in HU. destruct (distances_step w c p ms Ew (Hc c (or_introl eq_refl)) HU HW) as [ E Hp ].
    cbn [app each_clustering combine map flat_map]. rewrite E. destruct (IH results' w (put_tables t [(medoid_distances_at region c, distances_table c p ms)]) rest Ew) as [ E' Hall ].
    + intros c' Hin. apply Hc. right. exact Hin.
    + exact Ho'.
    + split; [ exact E' | ]. intros [ | i ] c' p' ms' A B.
      * cbn in A, B. injection A as <-. injection B as <- <-. exact Hp.
      * apply (Hall i c' p' ms' A B).
Qed.
Lemma distances_started (w : world M) t ty sid suite : get_suite ty sid = Ok suite ->
  medoid_distances choice env create_instance w t region ty sid =
  each_clustering (medoid_distances_step choice env r (qregion d sc)) (World (w_pickles w) (w_texts w) loaded) t suite.
Proof.
  intros Hs. pose proof Hready as (Hr & Hi & Hq & Hsp & Hl & HD & He). unfold medoid_distances. rewrite Hr, Hs. cbn [bind]. rewrite Hi. cbn [bind].
  unfold load_distance_matrix_2d. cbn [d_kind]. rewrite (base_load_ok env _ _ _ _ _ D Hsp Hl HD). reflexivity.
Qed.
Lemma distances_tables t ty sid before results rest : get_suite ty sid = Ok (before ++ rest)%list -> length before = length results ->
  each before results (fun c p ms => medoid_pairs "k" dist ms (distances_table c p ms)) ->
  tables_left t (put_tables t (flat_map (fun it => [(medoid_distances_at region (it_c it), distances_table (it_c it) (it_p it) (it_ms it))]) (map itemize (combine before results))))
    (medoid_distances_at region) before results (fun _ _ ms file => medoid_pairs "k" dist ms file).
Proof.
  intros Hs Hlen Hall. apply (single_tables (medoid_distances_at region) distances_table t ty sid before rest results Hs Hlen); [ | exact Hall ].
  intros c c' A B E. destruct (suite_clean _ _ _ Hs) as (_ & _ & Cm). apply (clustering_at_inj region c c' _ _ (proj1 (Cm c A)) (proj1 (Cm c' B)) E).
Qed.
End Distances.

(** C124: medoid_distances.py writes one table for each clustering of the suite, in the directory of the clustering, with the
    distances between the medoids that the clustering computes; it saves no partition and no report, and no other table changes. *)
Theorem C124_written : forall M choice env create_instance (w : world M) t region r d sc D dist ty sid suite results,
  ready env create_instance region r d sc D dist -> get_suite ty sid = Ok suite ->
  outcomes choice env (fun _ => None : option (@file M)) r d sc D suite results ->
  exists w' t', medoid_distances choice env create_instance w t region ty sid = (w', t', None) /\
    tables_left t t' (medoid_distances_at region) suite results (fun _ _ ms file => medoid_pairs "k" dist ms file) /\
    (forall q, w_pickles w' q = w_pickles w q) /\ (forall q, w_texts w' q = w_texts w q).
Proof.
  intros M choice env create w t region r d sc D dist ty sid suite results Hready Hs Ho. destruct (suite_clean _ _ _ Hs) as (_ & _ & Cm).
  rewrite (distances_started choice env create region r d sc D dist Hready w t ty sid suite Hs).
  destruct (distances_loop choice env create region r d sc D dist Hready suite results (World (w_pickles w) (w_texts w) (DObj PlainDTW (Some D) false)) t []) as [ E Hall ]; auto.
  { intros c Hc. apply Cm, Hc. }
  rewrite app_nil_r in E. rewrite E. cbn [each_clustering]. eexists _, _. split; [ reflexivity | ]. split; [ | split; reflexivity ].
  apply (distances_tables region d D dist t ty sid suite results []); [ rewrite app_nil_r; exact Hs | apply (forall2_length _ _ _ Ho) | exact Hall ].
Qed.
Print Assumptions C124_written.

(** C124: when a clustering fails, the tables of the clusterings before it stay, and nothing else has changed. *)
Theorem C124_failure_keeps_tables : forall M choice env create_instance (w : world M) t region r d sc D dist ty sid before results c after e,
  ready env create_instance region r d sc D dist -> get_suite ty sid = Ok (before ++ c :: after)%list ->
  outcomes choice env (fun _ => None : option (@file M)) r d sc D before results ->
  algorithm_partition_impl choice env c (Some (dmeta_of r)) (qregion d sc) true (DObj PlainDTW (Some D) false) = Raise e ->
  exists w' t', medoid_distances choice env create_instance w t region ty sid = (w', t', Some e) /\
    tables_left t t' (medoid_distances_at region) before results (fun _ _ ms file => medoid_pairs "k" dist ms file) /\
    (forall q, w_pickles w' q = w_pickles w q) /\ (forall q, w_texts w' q = w_texts w q).
Proof.
  intros M choice env create w t region r d sc D dist ty sid before results c after e Hready Hs Ho Ea. destruct (suite_clean _ _ _ Hs) as (_ & _ & Cm).
  pose proof Hready as (Hr & Hi & Hq & Hsp & Hl & HD & He).
  rewrite (distances_started choice env create region r d sc D dist Hready w t ty sid _ Hs).
  set (w0 := World (w_pickles w) (w_texts w) (DObj PlainDTW (Some D) false)).
  destruct (distances_loop choice env create region r d sc D dist Hready before results w0 t (c :: after) eq_refl) as [ E Hall ]; auto.
  { intros c' Hc. apply Cm, in_or_app. left. exact Hc. }
  rewrite E. cbn [each_clustering]. unfold medoid_distances_step at 1. rewrite (load_again choice env r d sc D Hsp Hl HD w0 eq_refl), Ea.
  eexists _, _. split; [ reflexivity | ]. split; [ | split; reflexivity ].
  apply (distances_tables region d D dist t ty sid before results (c :: after) Hs (forall2_length _ _ _ Ho) Hall).
Qed.
Print Assumptions C124_failure_keeps_tables.

(** C124: an unknown region or suite, data that cannot be read or a distances file of another size ends the program before anything is written. *)
Theorem C124_nothing_written : forall M choice env create_instance (w : world M) t region ty sid e,
  region_by_name region = Raise e \/
  (exists r, region_by_name region = Ok r /\
     (get_suite ty sid = Raise e \/
      exists suite, get_suite ty sid = Ok suite /\
        (create_instance r = Raise e \/
         exists spt, create_instance r = Ok spt /\
          ((np_load env (distances_filename r) = Raise e /\ e <> IOError) \/
           exists D x y, np_load env (distances_filename r) = Ok D /\ spans (rm_region r) x y /\ (length (m_rows D) <> x * y \/ m_cols D <> x * y) /\ e = ValueError)))) ->
  exists w', medoid_distances choice env create_instance w t region ty sid = (w', t, Some e) /\
    (forall q, w_texts w' q = w_texts w q) /\ (forall q, w_pickles w' q = w_pickles w q).
Proof.
  intros M choice env create w t region ty sid e H. unfold medoid_distances. destruct H as [ -> | (r & -> & H) ]; [ cbn [bind]; eauto | ].
  destruct H as [ -> | (suite & -> & H) ]; cbn [bind]; [ eauto | ]. destruct H as [ -> | (spt & -> & H) ]; cbn [bind]; [ eauto | ].
  unfold load_distance_matrix_2d, base_load. cbn [d_kind].
  destruct H as [ [ -> He ] | (D & x & y & -> & [ Sx Sy ] & Hd & ->) ].
  - destruct e; try congruence; eexists; split; reflexivity || (split; reflexivity).
  - assert (Hp : r_points (rm_region r) = Z.of_nat (x * y)) by (unfold r_points; rewrite Sx, Sy; lia). rewrite Hp.
    destruct (Z.eqb_spec (Z.of_nat (length (m_rows D))) (Z.of_nat (x * y))) as [ E1 | ]; cbn [andb]; [ | eexists; split; reflexivity || (split; reflexivity) ].
    destruct (Z.eqb_spec (Z.of_nat (m_cols D)) (Z.of_nat (x * y))) as [ E2 | ]; [ lia | eexists; split; reflexivity || (split; reflexivity) ].
Qed.
Print Assumptions C124_nothing_written.

(** C124: without the distances file the program always fails, and it writes no table. *)
Theorem C124_missing_distances : forall M choice env create_instance (w : world M) t region r spt ty sid suite,
  region_by_name region = Ok r -> get_suite ty sid = Ok suite -> create_instance r = Ok spt -> np_load env (distances_filename r) = Raise IOError ->
  exists w' e, medoid_distances choice env create_instance w t region ty sid = (w', t, Some e) /\
    (forall q, w_texts w' q = w_texts w q) /\ (forall q, w_pickles w' q = w_pickles w q).
Proof.
  intros M choice env create w t region r spt ty sid suite Hr Hs Hi Hl. unfold medoid_distances. rewrite Hr, Hs. cbn [bind]. rewrite Hi. cbn [bind].
  unfold load_distance_matrix_2d, base_load. cbn [d_kind]. rewrite Hl.
  pose proof (suite_nonempty _ _ _ Hs) as Hne. destruct (suite_clean _ _ _ Hs) as (_ & _ & Cm). destruct suite as [ | c rest ]; [ congruence | ]. destruct (Cm c (or_introl eq_refl)) as [ _ Hk ].
  cbn [each_clustering]. unfold medoid_distances_step at 1, clustering_impl. cbn [w_distance try_load_distance_matrix load_distance_matrix_md dmeta_of md_filename md_region].
  unfold load_distance_matrix_2d, base_load. cbn [d_kind]. rewrite Hl.
  destruct (algorithm_partition_impl _ _ _ _ _ _ _) as [ [ p [ ms | ] ] | e ]; [ | eexists _, _; split; [ reflexivity | split; reflexivity ] | eexists _, _; split; [ reflexivity | split; reflexivity ] ].
  assert (exists e, save_medoid_distances (DObj PlainDTW None false) (t_y spt) (c_k c) ms = Raise e) as (e & ->).
  { unfold save_medoid_distances. assert (Ez : zrange 0 (c_k c) = 0%Z :: zrange 1 (c_k c)).
    { unfold zrange. replace (Z.to_nat (c_k c - 0)) with (S (Z.to_nat (c_k c - 1))) by lia. cbn [seq map]. f_equal. rewrite <- seq_shift, map_map. apply map_ext. intros i. lia. }
    rewrite Ez. cbn [mapM]. destruct (getitem ms 0) as [ m | e ]; cbn [bind]; [ | eauto ]. unfold distances_with_matrix. cbn [d_matrix bind]. eauto. }
  eexists _, _. split; [ reflexivity | split; reflexivity ].
Qed.
Print Assumptions C124_missing_distances.

(** C124: when no partition of the suite is saved for the region, the medoids of the tables are those of the table of the suite that
    partition_analysis.py writes, in whatever order the programs run. *)
Lemma none_saved {M} choice env (fs : fsys M) region r d sc D suite results : region_by_name region = Ok r ->
  (forall c, In c suite -> forall q, fs (saved_at region c) <> Some (FPartition q)) ->
  (outcomes choice env fs r d sc D suite results <-> outcomes choice env (fun _ => None : option (@file M)) r d sc D suite results).
Proof.
  intros Hr Hn. destruct (predefined_facts _ _ Hr) as (En & _).
  assert (Hu : forall c p ms, In c suite -> (used choice env fs r (dmeta_of r) (qregion d sc) (DObj PlainDTW (Some D) false) c p ms <->
     used choice env (fun _ => None : option (@file M)) r (dmeta_of r) (qregion d sc) (DObj PlainDTW (Some D) false) c p ms)).
  { intros c p ms Hin. unfold used. rewrite En. specialize (Hn c Hin). destruct (fs (saved_at region c)) as [ [ q | ? | ? | ] | ]; [ exfalso; apply (Hn q); reflexivity | tauto .. ]. }
  clear Hn. unfold outcomes. split; intros H.
  - induction H as [ | c pm suite results [ HU HW ] H IH ]; constructor; [ split; [ apply Hu; [ left; reflexivity | exact HU ] | exact HW ] | ].
    apply IH. intros c' p ms Hin. apply Hu. right. exact Hin.
  - induction H as [ | c pm suite results [ HU HW ] H IH ]; constructor; [ split; [ apply Hu; [ left; reflexivity | exact HU ] | exact HW ] | ].
    apply IH. intros c' p ms Hin. apply Hu. right. exact Hin.
Qed.
Theorem C124_same_medoids_as_analysis : forall M choice env create_instance format_coverage format_float (w w0 : world M) t region r d sc D dist ty sid suite results,
  ready env create_instance region r d sc D dist -> get_suite ty sid = Ok suite ->
  outcomes choice env (w_pickles w) r d sc D suite results ->
  (forall c, In c suite -> forall q, w_pickles w (saved_at region c) <> Some (FPartition q)) ->
  exists w1 rows w2 t', analyze_suite choice env create_instance format_coverage format_float w region ty sid = (w1, Ok tt) /\
    left_behind format_coverage format_float w w1 region r d dist ty sid suite results rows /\
    medoid_distances choice env create_instance w0 t region ty sid = (w2, t', None) /\
    tables_left t t' (medoid_distances_at region) suite results (fun _ _ ms file => medoid_pairs "k" dist ms file).
Proof.
  intros M choice env create fc ff w w0 t region r d sc D dist ty sid suite results Hready Hs Ho Hn.
  destruct (C117_written M choice env create fc ff w region r d sc D dist ty sid suite results Hready Hs Ho) as (w1 & rows & E1 & L1 & _).
  apply (none_saved choice env (w_pickles w) region r d sc D suite results (proj1 Hready) Hn) in Ho.
  destruct (C124_written M choice env create w0 t region r d sc D dist ty sid suite results Hready Hs Ho) as (w2 & t' & E2 & T2 & _).
  exists w1, rows, w2, t'. auto.
Qed.
Print Assumptions C124_same_medoids_as_analysis.

Lemma medoid_pairs_same first value ms f g : medoid_pairs first value ms f -> medoid_pairs first value ms g -> f = g.
Proof.
  intros (rf & -> & Lf & Hf) (rg & -> & Lg & Hg). f_equal. apply nth_error_same. intros i. destruct (nth_error ms i) as [ m | ] eqn:E.
  - rewrite (Hf i m E), (Hg i m E). reflexivity.
  - apply nth_error_None in E. rewrite !(proj2 (nth_error_None _ _)) by lia. reflexivity.
Qed.
Definition ex24_partition (k : Z) : crisp := Crisp (mk2 7 10 ((k - 1)%Z :: repeat 0%Z 69)) k.
Definition ex24_saved (ms : Z -> list point) : fsys unit := fun q =>
  match get_suite "kmedoids" "quick" with
  | Ok suite => match find (fun c => (q =? saved_at "nordeste_small_2015_2015_1spd" c)%string) suite with
                | Some c => Some (FPartition (ex24_partition (c_k c), Some (ms (c_k c))))
                | None => None
                end
  | Raise _ => None
  end.
Lemma ex24_valid k ms : (2 <= k)%Z -> Z.of_nat (length ms) = k -> Forall (in_grid 7 10) ms -> with_medoids 7 10 k (ex24_partition k) ms.
Proof.
  intros Hk Hl Hm. split; [ | auto ]. split; [ reflexivity | ]. split; [ reflexivity | ]. split; [ reflexivity | ]. split.
  - intros [ a b ] l Hg Hlab. unfold label_at, get2 in Hlab. cbn [labels ex24_partition a2x a2y a2d fst snd pk] in *.
    destruct (norm_index 7 a) as [ i | ]; [ | discriminate ]. destruct (norm_index 10 b) as [ j | ]; [ | discriminate ].
    destruct (nth_error ((k - 1)%Z :: repeat 0%Z 69) (i * 10 + j)) as [ v | ] eqn:E; [ | discriminate ]. injection Hlab as <-.
    apply nth_error_In in E. destruct E as [ <- | E ]; [ lia | ]. apply repeat_spec in E. lia.
  - exists (0, 0)%Z. split; [ split; cbn; lia | reflexivity ].
Qed.
Lemma ex24_outcomes r ms suite : ready ex7_env (fun _ => Ok (qregion ex7_d None)) "nordeste_small_2015_2015_1spd" r ex7_d None ex7_matrix (fun q pt => Fin (ex7_dist q pt)) ->
  get_suite "kmedoids" "quick" = Ok suite -> (forall k, (2 <= k <= 3)%Z -> Z.of_nat (length (ms k)) = k /\ Forall (in_grid 7 10) (ms k)) ->
  outcomes ex7_choice ex7_env (ex24_saved ms) r ex7_d None ex7_matrix suite (map (fun c => (ex24_partition (c_k c), ms (c_k c))) suite).
Proof.
  intros Hready Hs Hm. destruct (predefined_facts _ _ (proj1 Hready)) as (En & _).
  assert (Hk : forall c, In c suite -> (2 <= c_k c <= 3)%Z) by (intros c Hc; apply (proj1 (C112_suites _ _ _ Hs)) in Hc; inversion Hc; subst; cbn; lia).
  assert (Hf : forall c, In c suite -> ex24_saved ms (saved_at "nordeste_small_2015_2015_1spd" c) = Some (FPartition (ex24_partition (c_k c), Some (ms (c_k c))))).
  { intros c Hc. vm_compute in Hs. injection Hs as <-. repeat (destruct Hc as [ <- | Hc ]; [ reflexivity | ]). destruct Hc. }
  assert (G : forall l, (forall c, In c l -> In c suite) -> outcomes ex7_choice ex7_env (ex24_saved ms) r ex7_d None ex7_matrix l (map (fun c => (ex24_partition (c_k c), ms (c_k c))) l)).
  { induction l as [ | c l IH ]; intros Hl; constructor; [ | apply IH; intros c' H; apply Hl; right; exact H ]. assert (Hc : In c suite) by (apply Hl; left; reflexivity).
    cbn [fst snd]. unfold used. rewrite En, (Hf c Hc). split; [ reflexivity | ]. destruct (Hm (c_k c) (Hk c Hc)). apply ex24_valid; auto. apply Hk, Hc. }
  apply G. auto.
Qed.
Lemma ex24_computed r suite : ready ex7_env (fun _ => Ok (qregion ex7_d None)) "nordeste_small_2015_2015_1spd" r ex7_d None ex7_matrix (fun q pt => Fin (ex7_dist q pt)) ->
  get_suite "kmedoids" "quick" = Ok suite ->
  exists results, outcomes ex7_choice ex7_env (fun _ => None : option (@file unit)) r ex7_d None ex7_matrix suite results.
Proof.
  intros Hready Hs.
  destruct (C117_kmedoids_suite unit ex7_choice ex7_env (fun _ => Ok (qregion ex7_d None)) (fun _ => None) _ r ex7_d None ex7_matrix _ "quick" suite Hready Hs) as (results & Ho & _).
  - intros c _ q. discriminate.
  - reflexivity.
  - intros q _. unfold ex7_dist. rewrite Z.sub_diag. reflexivity.
  - intros q pt. apply ex7_pos.
  - intros c Hc. apply (proj1 (C112_suites _ _ _ Hs)) in Hc. inversion Hc; subst. eexists _, (zrange 0 k). split; [ reflexivity | ].
    cbn [c_k kmeta_default km_k]. assert (k = 2 \/ k = 3)%Z as [ -> | -> ] by lia; (split; [ reflexivity | ]; split; [ cbn; lia | ]; split; [ reflexivity | ];
      split; [ left; reflexivity | ]; split; [ reflexivity | ]; split; [ reflexivity | ]; split; [ apply zrange_nodup | ]; intros i Hin; apply in_zrange in Hin; cbn; lia).
  - exists results. exact Ho.
Qed.
(** C124: the program does not look at saved partitions.  When partitions are saved, as the other programs do, its tables need not
    belong to the medoids that the other programs use. *)
Theorem C124_saved_medoids_refuted : ~ (forall M choice env create_instance (w : world M) t region r d sc D dist ty sid suite results w' t',
  ready env create_instance region r d sc D dist -> get_suite ty sid = Ok suite ->
  outcomes choice env (w_pickles w) r d sc D suite results ->
  medoid_distances choice env create_instance w t region ty sid = (w', t', None) ->
  tables_left t t' (medoid_distances_at region) suite results (fun _ _ ms file => medoid_pairs "k" dist ms file)).
Proof.
  intros H. destruct ex7_ready as [ r Hready ]. destruct (get_suite "kmedoids" "quick") as [ suite | ] eqn:Hs; [ | discriminate ].
  destruct (ex24_computed r suite Hready Hs) as (results & Ho).
  set (m1 := fun k => repeat (0, 0)%Z (Z.to_nat k)). set (m2 := fun k => map (fun i => (0, i)%Z) (zrange 0 k)).
  assert (E0 : exists c0 rest pm rest', suite = c0 :: rest /\ c_k c0 = 2%Z /\ results = pm :: rest').
  { vm_compute in Hs. injection Hs as <-. inversion Ho; subst. eexists _, _, _, _. split; [ reflexivity | ]. split; reflexivity. }
  destruct E0 as (c0 & rest & [ p0 ms0 ] & rest' & Es & K0 & Er).
  assert (G : forall ms, (forall k, (2 <= k <= 3)%Z -> Z.of_nat (length (ms k)) = k /\ Forall (in_grid 7 10) (ms k)) ->
     exists file, medoid_pairs "k" (fun q pt => Fin (ex7_dist q pt)) ms0 file /\ medoid_pairs "k" (fun q pt => Fin (ex7_dist q pt)) (ms 2%Z) file).
  { intros ms Hm. pose proof (ex24_outcomes r ms suite Hready Hs Hm) as Ho'.
    destruct (C124_written unit ex7_choice ex7_env (fun _ => Ok (qregion ex7_d None)) (World (ex24_saved ms) (fun _ => None) (fresh PlainDTW)) (fun _ => None) _ r ex7_d None ex7_matrix _ _ _ suite results Hready Hs Ho) as (w' & t' & E & [ T _ ] & _).
    pose proof (H unit ex7_choice ex7_env (fun _ => Ok (qregion ex7_d None)) (World (ex24_saved ms) (fun _ => None) (fresh PlainDTW)) (fun _ => None) _ _ _ _ _ _ _ _ _ _ _ _ Hready Hs Ho' E) as [ T' _ ].
    destruct (T 0 c0 p0 ms0) as (f & F1 & F2); [ rewrite Es; reflexivity | rewrite Er; reflexivity | ].
    destruct (T' 0 c0 (ex24_partition (c_k c0)) (ms (c_k c0))) as (f' & F1' & F2'); [ rewrite Es; reflexivity | rewrite Es; reflexivity | ].
    rewrite F1 in F1'. injection F1' as <-. exists f. rewrite K0 in F2'. auto. }
  destruct (G m1) as (f1 & A1 & B1).
  { intros k Hk. unfold m1. split; [ rewrite repeat_length; lia | ]. apply Forall_forall. intros q Hq. apply repeat_spec in Hq. subst q. split; cbn; lia. }
  destruct (G m2) as (f2 & A2 & B2).
  { intros k Hk. unfold m2. split; [ rewrite map_length, zrange_length; lia | ]. apply Forall_forall. intros q Hq. apply in_map_iff in Hq. destruct Hq as (i & <- & Hi). apply in_zrange in Hi. split; cbn; lia. }
  rewrite (medoid_pairs_same _ _ _ _ _ A1 A2) in B1. destruct B1 as (r1 & -> & _ & H1). destruct B2 as (r2 & E2 & _ & H2). injection E2 as <-.
  specialize (H1 0 (0, 0)%Z eq_refl). specialize (H2 0 (0, 0)%Z eq_refl). rewrite H1 in H2. discriminate H2.
Qed.
Print Assumptions C124_saved_medoids_refuted.

(** C124 on a concrete region: four tables, each with as many rows as the clustering has clusters *)
Example C124_ex : exists r suite results w' t',
  ready ex7_env (fun _ => Ok (qregion ex7_d None)) "nordeste_small_2015_2015_1spd" r ex7_d None ex7_matrix (fun q pt => Fin (ex7_dist q pt)) /\
  get_suite "kmedoids" "quick" = Ok suite /\ length suite = 4 /\
  outcomes ex7_choice ex7_env (fun _ => None : option (@file unit)) r ex7_d None ex7_matrix suite results /\
  medoid_distances ex7_choice ex7_env (fun _ => Ok (qregion ex7_d None)) (World (fun _ => None : option (@file unit)) (fun _ => None) (fresh PlainDTW)) (fun _ => None)
    "nordeste_small_2015_2015_1spd" "kmedoids" "quick" = (w', t', None) /\
  exists header rows, t' "outputs/nordeste_small_2015_2015_1spd/dtw/kmedoids_k2_seed0_lite/medoid_distances.csv"%string = Some (header :: rows) /\ length rows = 2.
Proof.
  destruct ex7_ready as [ r Hready ]. exists r. destruct (get_suite "kmedoids" "quick") as [ suite | ] eqn:Hs; [ | discriminate ]. exists suite.
  assert (Hlen : length suite = 4) by (vm_compute in Hs; injection Hs as <-; reflexivity).
  destruct (ex24_computed r suite Hready Hs) as (results & Ho). exists results.
  destruct (C124_written unit ex7_choice ex7_env (fun _ => Ok (qregion ex7_d None)) (World (fun _ => None) (fun _ => None) (fresh PlainDTW)) (fun _ => None) _ r ex7_d None ex7_matrix _ _ _ suite results Hready Hs Ho) as (w' & t' & E & [ T _ ] & _).
  exists w', t'. split; [ exact Hready | ]. split; [ reflexivity | ]. split; [ exact Hlen | ]. split; [ exact Ho | ]. split; [ exact E | ].
  assert (exists c rest p ms rest', suite = c :: rest /\ results = (p, ms) :: rest' /\
     medoid_distances_at "nordeste_small_2015_2015_1spd" c = "outputs/nordeste_small_2015_2015_1spd/dtw/kmedoids_k2_seed0_lite/medoid_distances.csv"%string /\ length ms = 2) as (c & rest & p & ms & rest' & Es & Er & Ep & Em).
  { vm_compute in Hs. injection Hs as <-. inversion Ho as [ | ? [ p ms ] ? ? [ _ HW ] ]; subst. eexists _, _, p, ms, _. split; [ reflexivity | ]. split; [ reflexivity | ]. split; [ reflexivity | ].
    destruct HW as (_ & _ & L & _). cbn in L. lia. }
  destruct (T 0 c p ms) as (f & F & (rows & Ef & L & _)); [ rewrite Es; reflexivity | rewrite Er; reflexivity | ]. rewrite Ep in F. rewrite Ef in F. eexists _, rows. split; [ exact F | congruence ].
Qed.

(* ---------------------------------------------------------------- the programs that use the partitions *)
Local Notation simple := (PAutoArima 1 1 3 3 None true).
Lemma searched_metadata region r experiment ty sid : searched experiment ty sid -> region_by_name region = Ok r ->
  auto_arima_metadata region experiment = (suite <- get_suite ty sid ;; Ok (r, suite, simple, "dtw"%string)).
Proof.
  intros [ -> H ] Hr. unfold auto_arima_metadata. rewrite Hr. cbn [bind]. cbn [In] in H.
  repeat (destruct H as [ [= <- <-] | H ]; [ reflexivity | ]). destruct H.
Qed.

Lemma combine_app {A B} (l1 l2 : list A) : forall (m1 m2 : list B), length l1 = length m1 -> combine (l1 ++ l2) (m1 ++ m2) = (combine l1 m1 ++ combine l2 m2)%list.
Proof. induction l1 as [ | a l1 IH ]; intros [ | b m1 ] m2 E; try discriminate; [ reflexivity | ]. cbn [app combine]. rewrite IH by (injection E; auto). reflexivity. Qed.

Section Programs.
Context {M : Type} (choice : Z -> nat -> Z -> res (list Z)) (env : denv) (create_instance : rmeta -> res (stregion fnum)) (format_coverage : Q -> string).
Context (region : string) (r : rmeta) (d : arr3 fnum) (sc : option (arr2 fnum * arr2 fnum)) (D : mat) (dist : point -> point -> fnum).
Context (Hready : ready env create_instance region r d sc D dist).
Local Notation loaded := (DObj PlainDTW (Some D) false).
Local Notation spt := (qregion d sc).

(** the files that [use] writes for the clusterings *)
Definition all_files (use : cmeta -> crisp -> list point -> dobj -> list (string * csv_file) * option exn) (suite : list cmeta) (results : list (crisp * list point)) : list (string * csv_file) :=
  flat_map (fun it => fst (use (it_c it) (it_p it) (it_ms it) loaded)) (map itemize (combine suite results)).
Lemma use_files (use : cmeta -> crisp -> list point -> dobj -> list (string * csv_file) * option exn) suite results : each suite results (fun c p ms => snd (use c p ms loaded) = None) ->
  each suite results (fun c p ms => use c p ms loaded = ((fun c p ms => fst (use c p ms loaded)) c p ms, @None exn)).
Proof. intros H i c p ms A B. specialize (H i c p ms A B). cbn beta in *. destruct (use c p ms loaded) as [ f e ]. cbn in *. subst e. reflexivity. Qed.

Lemma prepared_all use (w : world M) t ty sid suite results : get_suite ty sid = Ok suite -> outcomes choice env (w_pickles w) r d sc D suite results ->
  each suite results (fun c p ms => snd (use c p ms loaded) = None) ->
  exists w', each_clustering (with_prepared_partition choice env format_coverage r spt use) w t suite = (w', put_tables t (all_files use suite results), None) /\
    partitions_left format_coverage w w' region suite results.
Proof.
  intros Hs Ho Hu. pose proof Hready as (Hr & Hi & Hq & Hsp & Hl & HD & He).
  rewrite (prepared_is_shared choice env format_coverage r d sc D Hsp Hl HD use suite w t (suite_nonempty _ _ _ Hs)).
  destruct (suite_prefix choice env create_instance format_coverage region r d sc D dist Hready use _ (reload D w) t ty sid suite results [] eq_refl
     ltac:(rewrite app_nil_r; exact Hs) Ho (use_files use suite results Hu)) as (w' & E & _ & L). rewrite app_nil_r in E. exists w'. split; [ exact E | exact L ].
Qed.
Lemma prepared_partition_fails use (w : world M) t ty sid before results c after e : get_suite ty sid = Ok (before ++ c :: after)%list ->
  outcomes choice env (w_pickles w) r d sc D before results -> each before results (fun c p ms => snd (use c p ms loaded) = None) ->
  (forall q, w_pickles w (saved_at region c) <> Some (FPartition q)) ->
  algorithm_partition_impl choice env c (Some (dmeta_of r)) spt true loaded = Raise e ->
  exists w', each_clustering (with_prepared_partition choice env format_coverage r spt use) w t (before ++ c :: after)%list = (w', put_tables t (all_files use before results), Some e) /\
    partitions_left format_coverage w w' region before results.
Proof.
  intros Hs Ho Hu Hn Ea. pose proof Hready as (Hr & Hi & Hq & Hsp & Hl & HD & He).
  rewrite (prepared_is_shared choice env format_coverage r d sc D Hsp Hl HD use _ w t (suite_nonempty _ _ _ Hs)).
  apply (suite_fails_partition choice env create_instance format_coverage region r d sc D dist Hready use _ (reload D w) t ty sid before results c after e eq_refl Hs Ho (use_files use before results Hu) Hn Ea).
Qed.
Lemma prepared_use_fails use (w : world M) t ty sid before results c after p ms e : get_suite ty sid = Ok (before ++ c :: after)%list -> length before = length results ->
  outcomes choice env (w_pickles w) r d sc D (before ++ [c]) (results ++ [(p, ms)]) -> each before results (fun c p ms => snd (use c p ms loaded) = None) ->
  snd (use c p ms loaded) = Some e ->
  exists w', each_clustering (with_prepared_partition choice env format_coverage r spt use) w t (before ++ c :: after)%list =
     (w', put_tables (put_tables t (all_files use before results)) (fst (use c p ms loaded)), Some e) /\
    partitions_left format_coverage w w' region (before ++ [c]) (results ++ [(p, ms)]).
Proof.
  intros Hs Hlen Ho Hu Ef. pose proof Hready as (Hr & Hi & Hq & Hsp & Hl & HD & He).
  rewrite (prepared_is_shared choice env format_coverage r d sc D Hsp Hl HD use _ w t (suite_nonempty _ _ _ Hs)).
  apply (suite_fails_use choice env create_instance format_coverage region r d sc D dist Hready use _ (reload D w) t ty sid before results c after p ms _ e eq_refl Hs Ho Hlen (use_files use before results Hu)).
  destruct (use c p ms loaded) as [ f e' ]. cbn in *. subst e'. reflexivity.
Qed.
(** for uses with one file for each clustering *)
Lemma all_files_single use (at_ : cmeta -> string) file t ty sid before rest results P : get_suite ty sid = Ok (before ++ rest)%list -> length before = length results ->
  (forall c c', In c (before ++ rest) -> In c' (before ++ rest) -> at_ c = at_ c' -> c_repr c = c_repr c') ->
  each before results (fun c p ms => fst (use c p ms loaded) = [(at_ c, file c p ms)] /\ P c p ms (file c p ms)) ->
  tables_left t (put_tables t (all_files use before results)) at_ before results P.
Proof.
  intros Hs Hlen Hinj H. unfold all_files.
  replace (flat_map _ _) with (flat_map (fun it => [(at_ (it_c it), file (it_c it) (it_p it) (it_ms it))]) (map itemize (combine before results))).
  - apply (single_tables at_ file t ty sid before rest results Hs Hlen Hinj). intros i c p ms A B. apply (H i c p ms A B).
  - rewrite (each_in _ _ _ Hlen) in H. assert (G : forall l, (forall x, In x l -> In x (combine before results)) ->
      flat_map (fun it => [(at_ (it_c it), file (it_c it) (it_p it) (it_ms it))]) (map itemize l) = flat_map (fun it => fst (use (it_c it) (it_p it) (it_ms it) loaded)) (map itemize l)).
    { induction l as [ | [ c [ p ms ] ] l IH ]; intros Hl; [ reflexivity | ]. cbn [map flat_map itemize it_c it_p it_ms fst snd]. rewrite IH by (intros x Hx; apply Hl; right; exact Hx).
      rewrite (proj1 (H c p ms (Hl _ (or_introl eq_refl)))). reflexivity. }
    apply G. auto.
Qed.
End Programs.

(* ---------------------------------------------------------------- C125 *)
Lemma trainer_params_grid r (d : arr3 fnum) params : spans (rm_region r) (a3x d) (a3y d) -> trainer_params r params = full2 (a3x d) (a3y d) (Some params).
Proof. intros [ Sx Sy ]. unfold trainer_params. rewrite Sx, Sy, !Nat2Z.id. reflexivity. Qed.
Lemma enumerate_nth {A} (l : list A) i : nth_error (enumerate l) i = option_map (fun x => (i, x)) (nth_error l i).
Proof.
  unfold enumerate. assert (G : forall n, nth_error (combine (seq n (length l)) l) i = option_map (fun x => (n + i, x)) (nth_error l i)).
  { revert i. induction l as [ | a l IH ]; intros [ | i ] n; cbn; auto; [ rewrite Nat.add_0_r; reflexivity | ]. rewrite IH. destruct (nth_error l i); cbn; [ do 2 f_equal; lia | reflexivity ]. }
  apply (G 0).
Qed.
Lemma pairs_of_rows first k (value : point -> point -> fnum) ms : Z.of_nat (length ms) = k ->
  medoid_pairs first value ms (index_header first k :: map (fun '(i, mi) => FStr (str_int (Z.of_nat i)) :: map (fun mj => FNum 3 (value mi mj)) ms) (enumerate ms)).
Proof.
  intros <-. eexists. split; [ | split ].
  - f_equal. unfold index_header. f_equal. unfold zrange. rewrite Z.sub_0_r, Nat2Z.id, map_map. apply map_ext. intros i. f_equal.
  - rewrite map_length. unfold enumerate. rewrite combine_length, seq_length. lia.
  - intros i mi Hi. rewrite nth_error_map, enumerate_nth, Hi. reflexivity.
Qed.

Section Between.
Context {M : Type} (fit : pdq -> list fnum -> res M) (forecast : M -> nat -> res (list fnum)) (search : mparams -> list fnum -> res pdq).
Local Notation kind := (auto_arima_kind fit forecast search).
Context (env : denv) (create_instance : rmeta -> res (stregion fnum)) (region : string) (r : rmeta) (d : arr3 fnum) (sc : option (arr2 fnum * arr2 fnum)) (D : mat) (dist : point -> point -> fnum).
Context (Hready : ready env create_instance region r d sc D dist).
Context (n : nat) (et : string) (func : list fnum -> list fnum -> option (list fnum) -> res fnum) (Hn : n <= a3t d) (Hf : get_error_func et = Ok func).
Context (mo : point -> option M) (err : point -> point -> fnum).
Local Notation loaded := (DObj PlainDTW (Some D) false).
Local Notation use := (use_errors_between fit forecast search r (qregion d sc) simple n et).

Lemma between_use c p ms before after (fo : point -> res (list fnum)) : has_char "/" (mode_of c) = false -> with_medoids (a3x d) (a3y d) (c_k c) p ms -> ms = (before ++ after)%list ->
  (forall med, In med ms -> forecast_at kind simple d n med (mo med) (fo med)) ->
  (forall med, In med before -> exists f, fo med = Ok f /\ forall pt, in_grid (a3x d) (a3y d) pt -> error_of func d sc n f pt (err med pt)) ->
  (forall bad rest, after = bad :: rest -> exists e, fo bad = Raise e) ->
  use c p ms loaded = ([(between_medoids_at region c et,
      index_header "cluster" (c_k c) :: map (fun '(i, mi) => FStr (str_int (Z.of_nat i)) :: map (fun mj => FNum 3 (err mi mj)) ms) (enumerate before))],
    match after with [] => None | bad :: _ => match fo bad with Raise e => Some e | Ok _ => None end end).
Proof.
  intros Hc (V & K & L & G) Esplit H1 H2 H3. pose proof Hready as (Hr & Hi & Hq & Hsp & Hl & HD & He). destruct (predefined_facts _ _ Hr) as (En & Hnm & _).
  unfold use_errors_between. rewrite (trainer_params_grid r d simple Hsp).
  rewrite (between_medoids mparams M kind d sc (a3x d) (a3y d) (c_k c) ms simple mo fo n et func err before after (match after with [] => None | bad :: _ => Some bad end)); auto.
  - rewrite (between_medoids_path_at c r n et Hnm Hc), En. destruct after; reflexivity.
  - intros bad Eb. destruct after as [ | b rest ]; [ discriminate | ]. injection Eb as <-. apply (H3 _ _ eq_refl).
Qed.
Lemma between_each (fo : point -> list fnum) choice (fs : fsys M) suite results : (forall c, In c suite -> has_char "/" (mode_of c) = false) ->
  outcomes choice env fs r d sc D suite results ->
  each suite results (fun _ _ ms => forall med, In med ms -> forecast_at kind simple d n med (mo med) (Ok (fo med)) /\
     forall pt, in_grid (a3x d) (a3y d) pt -> error_of func d sc n (fo med) pt (err med pt)) ->
  each suite results (fun c p ms => use c p ms loaded =
     ([(between_medoids_at region c et, index_header "cluster" (c_k c) :: map (fun '(i, mi) => FStr (str_int (Z.of_nat i)) :: map (fun mj => FNum 3 (err mi mj)) ms) (enumerate ms))], None) /\
     Z.of_nat (length ms) = c_k c).
Proof.
  intros Cm Ho Hall i c p ms A B. pose proof (Hall i c p ms A B) as Hm. destruct (Forall2_in _ _ _ Ho (c, (p, ms)) (nth_error_In _ i (combine_nth_error _ _ _ _ _ A B))) as [ _ HW ]. cbn [fst snd] in HW.
  split; [ | apply HW ]. apply (between_use c p ms ms [] (fun m => Ok (fo m))); auto.
  - apply Cm, (nth_error_In _ _ A).
  - rewrite app_nil_r. reflexivity.
  - intros med Hin. apply (Hm med Hin).
  - intros med Hin. exists (fo med). split; [ reflexivity | ]. apply (Hm med Hin).
  - intros bad rest [=].
Qed.
End Between.

(** C125: error_between_medoids.py writes one table for each clustering of the suite of the experiment: the row of a medoid has the
    errors at all medoids of the forecast with the model of that medoid, trained on all but the last [n] samples. The partitions are
    saved and reported, saved ones are used again, and no other file changes. *)
Theorem C125_written : forall M choice env create_instance format_coverage fit forecast search (w : world M) t region r d sc D dist experiment ty sid suite results
    n et func (mo : point -> option M) fo err,
  let kind := auto_arima_kind fit forecast search in
  ready env create_instance region r d sc D dist -> searched experiment ty sid -> get_suite ty sid = Ok suite ->
  outcomes choice env (w_pickles w) r d sc D suite results ->
  n <= a3t d -> get_error_func et = Ok func ->
  each suite results (fun _ _ ms => forall med, In med ms -> forecast_at kind simple d n med (mo med) (Ok (fo med)) /\
     forall pt, in_grid (a3x d) (a3y d) pt -> error_of func d sc n (fo med) pt (err med pt)) ->
  exists w' t', errors_between_medoids choice env create_instance format_coverage fit forecast search w t region experiment n et = (w', t', None) /\
    tables_left t t' (fun c => between_medoids_at region c et) suite results (fun _ _ ms file => medoid_pairs "cluster" err ms file) /\
    partitions_left format_coverage w w' region suite results.
Proof.
  intros M choice env create fc fit forecast search w t region r d sc D dist experiment ty sid suite results n et func mo fo err kind Hready Hx Hs Ho Hn Hf Hall.
  pose proof Hready as (Hr & Hi & _). unfold errors_between_medoids. rewrite (searched_metadata region r experiment ty sid Hx Hr), Hs. cbn [bind]. rewrite Hi. cbn [bind].
  destruct (suite_clean _ _ _ Hs) as (_ & _ & Cm). pose proof (forall2_length _ _ _ Ho) as Hlen.
  pose proof (between_each fit forecast search env create region r d sc D dist Hready n et func Hn Hf mo err fo choice (w_pickles w) suite results
    ltac:(intros c Hc; apply Cm, Hc) Ho Hall) as Hu.
  destruct (prepared_all choice env create fc region r d sc D dist Hready (use_errors_between fit forecast search r (qregion d sc) simple n et) w t ty sid suite results Hs Ho) as (w' & E & L).
  { intros i c p ms A B. rewrite (proj1 (Hu i c p ms A B)). reflexivity. }
  exists w'. eexists. split; [ exact E | ]. split; [ | exact L ].
  eapply (all_files_single D _ _ _ t ty sid suite []); [ rewrite app_nil_r; exact Hs | exact Hlen | | ].
  - rewrite app_nil_r. intros c c' A B Ec. apply (clustering_at_inj region c c' _ _ (proj1 (Cm c A)) (proj1 (Cm c' B)) Ec).
  - intros i c p ms A B. destruct (Hu i c p ms A B) as [ E1 E2 ]. rewrite E1. split; [ reflexivity | ]. apply pairs_of_rows, E2.
Qed.
Print Assumptions C125_written.

(** C125: when the partition of a clustering cannot be computed, the tables and the partitions of the clusterings before it stay. *)
Theorem C125_failure_keeps_tables : forall M choice env create_instance format_coverage fit forecast search (w : world M) t region r d sc D dist experiment ty sid
    before results c after n et func (mo : point -> option M) fo err e,
  let kind := auto_arima_kind fit forecast search in
  ready env create_instance region r d sc D dist -> searched experiment ty sid -> get_suite ty sid = Ok (before ++ c :: after)%list ->
  outcomes choice env (w_pickles w) r d sc D before results ->
  n <= a3t d -> get_error_func et = Ok func ->
  each before results (fun _ _ ms => forall med, In med ms -> forecast_at kind simple d n med (mo med) (Ok (fo med)) /\
     forall pt, in_grid (a3x d) (a3y d) pt -> error_of func d sc n (fo med) pt (err med pt)) ->
  (forall q, w_pickles w (saved_at region c) <> Some (FPartition q)) ->
  algorithm_partition_impl choice env c (Some (dmeta_of r)) (qregion d sc) true (DObj PlainDTW (Some D) false) = Raise e ->
  exists w' t', errors_between_medoids choice env create_instance format_coverage fit forecast search w t region experiment n et = (w', t', Some e) /\
    tables_left t t' (fun c => between_medoids_at region c et) before results (fun _ _ ms file => medoid_pairs "cluster" err ms file) /\
    partitions_left format_coverage w w' region before results.
Proof.
  intros M choice env create fc fit forecast search w t region r d sc D dist experiment ty sid before results c after n et func mo fo err e kind Hready Hx Hs Ho Hn Hf Hall Hfresh Ea.
  pose proof Hready as (Hr & Hi & _). unfold errors_between_medoids. rewrite (searched_metadata region r experiment ty sid Hx Hr), Hs. cbn [bind]. rewrite Hi. cbn [bind].
  destruct (suite_clean _ _ _ Hs) as (_ & _ & Cm). pose proof (forall2_length _ _ _ Ho) as Hlen.
  pose proof (between_each fit forecast search env create region r d sc D dist Hready n et func Hn Hf mo err fo choice (w_pickles w) before results
    ltac:(intros c' Hc; apply Cm, in_or_app; left; exact Hc) Ho Hall) as Hu.
  destruct (prepared_partition_fails choice env create fc region r d sc D dist Hready (use_errors_between fit forecast search r (qregion d sc) simple n et) w t ty sid before results c after e Hs Ho) as (w' & E & L); auto.
  { intros i c' p ms A B. rewrite (proj1 (Hu i c' p ms A B)). reflexivity. }
  exists w'. eexists. split; [ exact E | ]. split; [ | exact L ].
  eapply (all_files_single D _ _ _ t ty sid before (c :: after)); [ exact Hs | exact Hlen | | ].
  - intros c1 c2 A B Ec. apply (clustering_at_inj region c1 c2 _ _ (proj1 (Cm c1 A)) (proj1 (Cm c2 B)) Ec).
  - intros i c' p ms A B. destruct (Hu i c' p ms A B) as [ E1 E2 ]. rewrite E1. split; [ reflexivity | ]. apply pairs_of_rows, E2.
Qed.
Print Assumptions C125_failure_keeps_tables.

(** C125: when the model of a medoid cannot forecast, the table of its clustering has the rows of the medoids before it; the tables of the
    clusterings before stay, and the partition of the clustering is saved. *)
Theorem C125_rows_before_a_failure : forall M choice env create_instance format_coverage fit forecast search (w : world M) t region r d sc D dist experiment ty sid
    before results c after p mbefore bad mafter n et func (mo : point -> option M) (fo : point -> res (list fnum)) err e,
  let kind := auto_arima_kind fit forecast search in
  let ms := (mbefore ++ bad :: mafter)%list in
  ready env create_instance region r d sc D dist -> searched experiment ty sid -> get_suite ty sid = Ok (before ++ c :: after)%list -> length before = length results ->
  outcomes choice env (w_pickles w) r d sc D (before ++ [c]) (results ++ [(p, ms)]) ->
  n <= a3t d -> get_error_func et = Ok func ->
  (forall med, In med ms -> forecast_at kind simple d n med (mo med) (fo med)) ->
  each before results (fun _ _ ms => forall med, In med ms -> exists f, forecast_at kind simple d n med (mo med) (Ok f) /\ fo med = Ok f /\
     forall pt, in_grid (a3x d) (a3y d) pt -> error_of func d sc n f pt (err med pt)) ->
  (forall med, In med mbefore -> exists f, fo med = Ok f /\ forall pt, in_grid (a3x d) (a3y d) pt -> error_of func d sc n f pt (err med pt)) ->
  fo bad = Raise e ->
  exists w' t', errors_between_medoids choice env create_instance format_coverage fit forecast search w t region experiment n et = (w', t', Some e) /\
    each before results (fun c' _ ms => exists file, t' (between_medoids_at region c' et) = Some file /\ medoid_pairs "cluster" err ms file) /\
    (exists rows, t' (between_medoids_at region c et) = Some ((FStr "cluster" :: map (fun i => FStr (str_int (Z.of_nat i))) (seq 0 (length ms))) :: rows) /\ length rows = length mbefore /\
       forall i mi, nth_error mbefore i = Some mi -> nth_error rows i = Some (FStr (str_int (Z.of_nat i)) :: map (fun mj => FNum 3 (err mi mj)) ms)) /\
    (forall q, q <> between_medoids_at region c et -> each before results (fun c' _ _ => q <> between_medoids_at region c' et) -> t' q = t q) /\
    partitions_left format_coverage w w' region (before ++ [c]) (results ++ [(p, ms)]).
Proof.
  intros M choice env create fc fit forecast search w t region r d sc D dist experiment ty sid before results c after p mbefore bad mafter n et func mo fo err e kind ms
    Hready Hx Hs Hlen Ho Hn Hf Hfo Hall Hmb Hbad.
  pose proof Hready as (Hr & Hi & _). unfold errors_between_medoids. rewrite (searched_metadata region r experiment ty sid Hx Hr), Hs. cbn [bind]. rewrite Hi. cbn [bind].
  destruct (suite_clean _ _ _ Hs) as (_ & Nd & Cm).
  assert (HW : with_medoids (a3x d) (a3y d) (c_k c) p ms).
  { destruct (Forall2_in _ _ _ Ho (c, (p, ms))) as [ _ HW ]; [ | exact HW ]. rewrite combine_app by exact Hlen. apply in_or_app. right. left. reflexivity. }
  assert (Hu : each before results (fun c p ms => use_errors_between fit forecast search r (qregion d sc) simple n et c p ms (DObj PlainDTW (Some D) false) =
     ([(between_medoids_at region c et, index_header "cluster" (c_k c) :: map (fun '(i, mi) => FStr (str_int (Z.of_nat i)) :: map (fun mj => FNum 3 (err mi mj)) ms) (enumerate ms))], None) /\
     Z.of_nat (length ms) = c_k c)).
  { intros i c' p' ms' A B. pose proof (Hall i c' p' ms' A B) as Hm. assert (Hin' : In c' before) by apply (nth_error_In _ _ A).
    assert (HW' : with_medoids (a3x d) (a3y d) (c_k c') p' ms').
    { destruct (Forall2_in _ _ _ Ho (c', (p', ms'))) as [ _ HW' ]; [ | exact HW' ]. rewrite combine_app by exact Hlen. apply in_or_app. left. apply (nth_error_In _ i (combine_nth_error _ _ _ _ _ A B)). }
    split; [ | apply HW' ].
    apply (between_use fit forecast search env create region r d sc D dist Hready n et func Hn Hf mo err c' p' ms' ms' [] fo); auto.
    - apply Cm, in_or_app. left. exact Hin'.
    - rewrite app_nil_r. reflexivity.
    - intros med Hin. destruct (Hm med Hin) as (f & F1 & F2 & F3). rewrite F2. exact F1.
    - intros med Hin. destruct (Hm med Hin) as (f & F1 & F2 & F3). exists f. auto.
    - intros b rest [=]. }
  assert (Hc : use_errors_between fit forecast search r (qregion d sc) simple n et c p ms (DObj PlainDTW (Some D) false) =
     ([(between_medoids_at region c et, index_header "cluster" (c_k c) :: map (fun '(i, mi) => FStr (str_int (Z.of_nat i)) :: map (fun mj => FNum 3 (err mi mj)) ms) (enumerate mbefore))], Some e)).
  { rewrite (between_use fit forecast search env create region r d sc D dist Hready n et func Hn Hf mo err c p ms mbefore (bad :: mafter) fo); auto.
    - rewrite Hbad. reflexivity.
    - apply Cm, in_or_app. right. left. reflexivity.
    - intros b rest [= <- _]. eauto. }
  destruct (prepared_use_fails choice env create fc region r d sc D dist Hready (use_errors_between fit forecast search r (qregion d sc) simple n et) w t ty sid before results c after p ms e Hs Hlen Ho) as (w' & E & L); auto.
  { intros i c' p' ms' A B. rewrite (proj1 (Hu i c' p' ms' A B)). reflexivity. }
  { rewrite Hc. reflexivity. }
  assert (TL : tables_left t (put_tables t (all_files D (use_errors_between fit forecast search r (qregion d sc) simple n et) before results)) (fun c => between_medoids_at region c et) before results (fun _ _ ms file => medoid_pairs "cluster" err ms file)).
  { eapply (all_files_single D _ _ _ t ty sid before (c :: after)); [ exact Hs | exact Hlen | | ].
    - intros c1 c2 A B Ec. apply (clustering_at_inj region c1 c2 _ _ (proj1 (Cm c1 A)) (proj1 (Cm c2 B)) Ec).
    - intros i c' p' ms' A B. destruct (Hu i c' p' ms' A B) as [ E1 E2 ]. rewrite E1. split; [ reflexivity | ]. apply pairs_of_rows, E2. }
  destruct TL as [ T1 T2 ]. rewrite Hc in E. cbn [fst] in E. exists w'. eexists. split; [ exact E | ].
  change (put_tables ?a [?b]) with (put_table a b) in *. unfold put_table. cbn [fst snd].
  split; [ | split; [ | split; [ | exact L ] ] ].
  - intros i c' p' ms' A B. destruct (T1 i c' p' ms' A B) as (file & F1 & F2). exists file. split; [ | exact F2 ].
    destruct (String.eqb_spec (between_medoids_at region c' et) (between_medoids_at region c et)) as [ Ec | ]; [ | exact F1 ]. exfalso.
    assert (Hin : In c' before) by apply (nth_error_In _ _ A).
    destruct (clustering_at_inj region c' c _ _ (proj1 (Cm c' ltac:(apply in_or_app; left; exact Hin))) (proj1 (Cm c ltac:(apply in_or_app; right; left; reflexivity))) Ec) as [ Er _ ].
    rewrite map_app in Nd. cbn [map] in Nd. apply NoDup_remove_2 in Nd. apply Nd, in_or_app. left. rewrite <- Er. apply in_map, Hin.
  - rewrite String.eqb_refl. eexists. split; [ | split ].
    + f_equal. f_equal. unfold index_header. f_equal. destruct HW as (_ & _ & <- & _). unfold zrange. rewrite Z.sub_0_r, Nat2Z.id, map_map. apply map_ext. intros i. reflexivity.
    + rewrite map_length. unfold enumerate. rewrite combine_length, seq_length. lia.
    + intros i mi Hi'. rewrite nth_error_map, enumerate_nth, Hi'. reflexivity.
  - intros q Hq1 Hq2. rewrite (proj2 (String.eqb_neq _ _) Hq1). apply T2, Hq2.
Qed.
Print Assumptions C125_rows_before_a_failure.

Lemma load_bad env r e : bad_distances env r e -> exists o, load_distance_matrix_2d env (distances_filename r) (rm_region r) (DObj PlainDTW None false) = (Raise e, o).
Proof.
  unfold load_distance_matrix_2d, base_load. cbn [d_kind]. intros [ [ -> He ] | (D & x & y & -> & [ Sx Sy ] & Hd & ->) ].
  - destruct e; try congruence; eauto.
  - assert (Hp : r_points (rm_region r) = Z.of_nat (x * y)) by (unfold r_points; rewrite Sx, Sy; lia). rewrite Hp.
    destruct (Z.eqb_spec (Z.of_nat (length (m_rows D))) (Z.of_nat (x * y))) as [ E1 | ]; cbn [andb]; [ | eauto ].
    destruct (Z.eqb_spec (Z.of_nat (m_cols D)) (Z.of_nat (x * y))) as [ E2 | ]; [ lia | eauto ].
Qed.
Lemma searched_experiment experiment e : dict_get String.eqb experiment auto_arima_clustering_experiments = Ok e -> searched experiment (ce_clustering_type e) (ce_suite_id e).
Proof.
  intros H. apply dict_get_in in H. unfold auto_arima_clustering_experiments in H. cbn [In] in H.
  repeat (destruct H as [ [= <- <-] | H ]; [ split; [ reflexivity | cbn; auto 10 ] | ]). destruct H.
Qed.
Lemma unknown_experiment region r experiment : region_by_name region = Ok r -> (forall ty sid, ~ searched experiment ty sid) -> auto_arima_metadata region experiment = Raise KeyError.
Proof.
  intros Hr Hn. unfold auto_arima_metadata. rewrite Hr. cbn [bind]. destruct (dict_get String.eqb experiment auto_arima_clustering_experiments) as [ e | e ] eqn:E.
  - exfalso. apply (Hn _ _ (searched_experiment _ _ E)).
  - clear - E. revert E. unfold auto_arima_clustering_experiments. cbn [dict_get]. repeat (destruct (String.eqb _ experiment); [ discriminate | ]). intros [= <-]. reflexivity.
Qed.
Lemma searched_suite experiment ty sid : searched experiment ty sid -> exists suite, get_suite ty sid = Ok suite /\ suite <> [].
Proof.
  intros [ _ H ]. assert (G : exists suite, get_suite ty sid = Ok suite).
  { apply (C112_which_suites ty sid). cbn [In] in H. repeat (destruct H as [ [= <- <-] | H ]; [ | ]); [ .. | destruct H ].
    - eexists. apply (kmedoids_quick 2 0); lia.
    - eexists. apply (regular_quick 2); lia.
    - eexists. apply (kmedoids_all 2 0); lia.
    - eexists. apply (regular_part1 2); lia.
    - eexists. apply (regular_part2 96); [ lia | reflexivity ]. }
  destruct G as [ suite Hs ]. exists suite. split; [ exact Hs | apply (suite_nonempty _ _ _ Hs) ].
Qed.

(** C125: an unknown region, an unknown experiment, data that cannot be read or a distances file of another size ends the program before
    anything is written. *)
Theorem C125_nothing_written : forall M choice env create_instance format_coverage fit forecast search (w : world M) t region experiment n et e,
  cannot_start env create_instance region experiment e ->
  exists w', errors_between_medoids choice env create_instance format_coverage fit forecast search w t region experiment n et = (w', t, Some e) /\
    (forall q, w_texts w' q = w_texts w q) /\ (forall q, w_pickles w' q = w_pickles w q).
Proof.
  intros M choice env create fc fit forecast search w t region experiment n et e H. unfold errors_between_medoids.
  destruct H as [ Hr | (r & Hr & H) ]; [ unfold auto_arima_metadata; rewrite Hr; cbn [bind]; eauto | ].
  destruct H as [ [ -> Hn ] | (ty & sid & Hx & H) ]; [ rewrite (unknown_experiment region r experiment Hr Hn); cbn [bind]; eauto | ].
  rewrite (searched_metadata region r experiment ty sid Hx Hr). destruct (searched_suite _ _ _ Hx) as (suite & Hs & Hne). rewrite Hs. cbn [bind].
  destruct H as [ -> | (spt & -> & Hb) ]; cbn [bind]; [ eauto | ]. destruct (load_bad env r e Hb) as (o & El).
  destruct suite as [ | c suite ]; [ congruence | ]. cbn [each_clustering]. unfold with_prepared_partition at 1. rewrite El. eexists. split; [ reflexivity | ]. split; reflexivity.
Qed.
Print Assumptions C125_nothing_written.

(* a region with three samples; the forecast repeats the first sample of the training part, and the last two samples are forecast *)
Definition ex25_d : arr3 fnum := mk3 3 7 10 (map (fun z => Fin (inject_Z z)) (zrange 0 210)).
Definition ex25_fit (order : pdq) (s : list fnum) : res fnum := Ok (hd NaN s).
Definition ex25_forecast (m : fnum) (len : nat) : res (list fnum) := Ok (repeat m len).
Definition ex25_search (params : mparams) (s : list fnum) : res pdq := Ok (1, 0, 1)%Z.
Definition ex25_series (pt : point) : list fnum := match series3 ex25_d (fst pt) (snd pt) with Ok s => s | Raise _ => [] end.
Definition ex25_model (pt : point) : option fnum := Some (hd NaN (ex25_series pt)).
Definition ex25_forecasts (pt : point) : list fnum := repeat (hd NaN (ex25_series pt)) 2.
Definition ex25_error (med pt : point) : fnum :=
  match mse (ex25_forecasts med) (skipn 1 (ex25_series pt)) (Some (firstn 1 (ex25_series pt))) with Ok v => v | Raise _ => NaN end.
Lemma ex25_ready : exists r, ready ex7_env (fun _ => Ok (qregion ex25_d None)) "nordeste_small_2015_2015_1spd" r ex25_d None ex7_matrix (fun q pt => Fin (ex7_dist q pt)).
Proof.
  destruct ex7_ready as (r & A & B & C & E & F & G & H). exists r. split; [ exact A | ]. split; [ reflexivity | ]. split; [ split; [ reflexivity | exact I ] | ]. split; [ exact E | ]. split; [ exact F | ].
  split; [ exact G | exact H ].
Qed.
Lemma ex25_ser pt : in_grid 7 10 pt -> series3 ex25_d (fst pt) (snd pt) = Ok (ex25_series pt) /\ length (ex25_series pt) = 3.
Proof.
  intros Hg. assert (Hw : wf3 ex25_d) by reflexivity. destruct (ser_ok ex25_d pt Hw Hg) as (a & Ea & La). unfold ex25_series. cbn [series_at] in Ea. rewrite Ea. auto.
Qed.
Lemma ex25_hypotheses med : in_grid 7 10 med ->
  forecast_at (auto_arima_kind ex25_fit ex25_forecast ex25_search) simple ex25_d 2 med (ex25_model med) (Ok (ex25_forecasts med)) /\
  forall pt, in_grid 7 10 pt -> error_of mse ex25_d None 2 (ex25_forecasts med) pt (ex25_error med pt).
Proof.
  intros Hm. split.
  - destruct (ex25_ser med Hm) as [ E L ]. exists (ex25_series med). split; [ exact E | ]. rewrite L. unfold ex25_forecasts, ex25_model.
    destruct (ex25_series med) as [ | v s ]; [ discriminate | ]. split; reflexivity.
  - intros pt Hp. destruct (ex25_ser pt Hp) as [ E L ]. exists (ex25_series pt), (ex25_forecasts med), (firstn 1 (ex25_series pt)), (skipn 1 (ex25_series pt)).
    rewrite L. split; [ exact E | ]. split; [ reflexivity | ]. split; [ reflexivity | ]. split; [ reflexivity | ].
    unfold ex25_error, ex25_forecasts, mse. destruct (ex25_series pt) as [ | a [ | b [ | c [ | ] ] ] ]; try discriminate L. reflexivity.
Qed.
Lemma ex25_computed r suite : ready ex7_env (fun _ => Ok (qregion ex25_d None)) "nordeste_small_2015_2015_1spd" r ex25_d None ex7_matrix (fun q pt => Fin (ex7_dist q pt)) ->
  get_suite "kmedoids" "quick" = Ok suite ->
  exists results, outcomes ex7_choice ex7_env (fun _ => None : option (@file fnum)) r ex25_d None ex7_matrix suite results /\
    Forall2 (fun c pm => clustered (fun q pt => Fin (ex7_dist q pt)) 7 10 (Z.to_nat (c_k c)) (fst pm) (snd pm)) suite results.
Proof.
  intros Hready Hs.
  destruct (C117_kmedoids_suite fnum ex7_choice ex7_env (fun _ => Ok (qregion ex25_d None)) (fun _ => None) _ r ex25_d None ex7_matrix _ "quick" suite Hready Hs) as (results & Ho & Hc).
  - intros c _ q. discriminate.
  - reflexivity.
  - intros q _. unfold ex7_dist. rewrite Z.sub_diag. reflexivity.
  - intros q pt. apply ex7_pos.
  - intros c Hc. apply (proj1 (C112_suites _ _ _ Hs)) in Hc. inversion Hc; subst. eexists _, (zrange 0 k). split; [ reflexivity | ].
    cbn [c_k kmeta_default km_k]. assert (k = 2 \/ k = 3)%Z as [ -> | -> ] by lia; (split; [ reflexivity | ]; split; [ cbn; lia | ]; split; [ reflexivity | ];
      split; [ left; reflexivity | ]; split; [ reflexivity | ]; split; [ reflexivity | ]; split; [ apply zrange_nodup | ]; intros i Hin; apply in_zrange in Hin; cbn; lia).
  - exists results. split; [ exact Ho | exact Hc ].
Qed.
Lemma outcomes_medoids {M} choice env (fs : fsys M) r d sc D suite results i c p ms : outcomes choice env fs r d sc D suite results ->
  nth_error suite i = Some c -> nth_error results i = Some (p, ms) -> with_medoids (a3x d) (a3y d) (c_k c) p ms.
Proof. intros Ho A B. destruct (Forall2_in _ _ _ Ho (c, (p, ms)) (nth_error_In _ i (combine_nth_error _ _ _ _ _ A B))) as [ _ HW ]. exact HW. Qed.
Example C125_ex : exists r suite results w' t',
  ready ex7_env (fun _ => Ok (qregion ex25_d None)) "nordeste_small_2015_2015_1spd" r ex25_d None ex7_matrix (fun q pt => Fin (ex7_dist q pt)) /\
  searched "simple_kmedoids_quick" "kmedoids" "quick" /\ get_suite "kmedoids" "quick" = Ok suite /\ length suite = 4 /\
  outcomes ex7_choice ex7_env (fun _ => None : option (@file fnum)) r ex25_d None ex7_matrix suite results /\
  errors_between_medoids ex7_choice ex7_env (fun _ => Ok (qregion ex25_d None)) (fun _ => "v"%string) ex25_fit ex25_forecast ex25_search
    (World (fun _ => None : option (@file fnum)) (fun _ => None) (fresh PlainDTW)) (fun _ => None) "nordeste_small_2015_2015_1spd" "simple_kmedoids_quick" 2 "MSE" = (w', t', None) /\
  tables_left (fun _ => None) t' (fun c => between_medoids_at "nordeste_small_2015_2015_1spd" c "MSE") suite results (fun _ _ ms file => medoid_pairs "cluster" ex25_error ms file).
Proof.
  destruct ex25_ready as [ r Hready ]. exists r. destruct (get_suite "kmedoids" "quick") as [ suite | ] eqn:Hs; [ | discriminate ]. exists suite.
  assert (Hlen : length suite = 4) by (vm_compute in Hs; injection Hs as <-; reflexivity).
  destruct (ex25_computed r suite Hready Hs) as (results & Ho & _). exists results.
  assert (Hx : searched "simple_kmedoids_quick" "kmedoids" "quick") by (split; [ reflexivity | left; reflexivity ]).
  destruct (C125_written fnum ex7_choice ex7_env (fun _ => Ok (qregion ex25_d None)) (fun _ => "v"%string) ex25_fit ex25_forecast ex25_search (World (fun _ => None) (fun _ => None) (fresh PlainDTW)) (fun _ => None)
    _ r ex25_d None ex7_matrix _ _ _ _ suite results 2 "MSE" mse ex25_model ex25_forecasts ex25_error Hready Hx Hs Ho ltac:(cbn; lia) eq_refl) as (w' & t' & E & T & _).
  - intros i c p ms A B med Hin. pose proof (outcomes_medoids _ _ _ _ _ _ _ _ _ _ _ _ _ Ho A B) as (_ & _ & _ & G). rewrite Forall_forall in G. apply ex25_hypotheses. apply (G med Hin).
  - exists w', t'. repeat (split; [ assumption || reflexivity | ]). exact T.
Qed.

(* ---------------------------------------------------------------- C126 *)
Lemma cluster_table_ext g x y p k D med err err' file : (forall pt, in_grid x y pt -> label_at p pt k -> err pt = err' pt) ->
  cluster_table g x y p k D med err file -> cluster_table g x y p k D med err' file.
Proof.
  intros H (members & ds & -> & Hm & Hsort & Hd). exists members, ds. split; [ | auto ]. f_equal. apply map_ext_in. intros pt Hin. apply Hm in Hin. rewrite (H pt); tauto.
Qed.
Lemma nodup_files region (files : item -> list (string * csv_file)) items : NoDup (map (fun it => c_repr (it_c it)) items) ->
  (forall it, In it items -> has_char "/" (mode_of (it_c it)) = false /\ NoDup (map fst (files it)) /\
     forall q, In q (map fst (files it)) -> exists suffix, q = (clustering_at region (it_c it) ++ suffix)%string) ->
  NoDup (map fst (flat_map files items)).
Proof.
  induction items as [ | it items IH ]; intros Hnd H; [ constructor | ]. cbn [flat_map]. rewrite map_app. cbn [map] in Hnd. inversion_clear Hnd as [ | ? ? Hni Hnd' ].
  destruct (H it (or_introl eq_refl)) as (Hc & N1 & S1).
  assert (N2 : NoDup (map fst (flat_map files items))) by (apply IH; [ exact Hnd' | ]; intros it' Hin; apply H; right; exact Hin).
  assert (Dis : forall q, In q (map fst (files it)) -> ~ In q (map fst (flat_map files items))).
  { intros q Hq Hq'. destruct (S1 q Hq) as (sf & ->). apply in_map_iff in Hq'. destruct Hq' as ([ q' f' ] & Eq & Hin). cbn [fst] in Eq. apply in_flat_map in Hin. destruct Hin as (it' & Hin & Hf).
    destruct (H it' (or_intror Hin)) as (Hc' & _ & S2). destruct (S2 q') as (sf' & Eq'); [ apply (in_map fst) in Hf; exact Hf | ]. subst q'.
    destruct (clustering_at_inj region _ _ _ _ Hc' Hc (eq_sym Eq')) as [ Er _ ]. apply Hni. rewrite <- Er. apply (in_map (fun it => c_repr (it_c it))), Hin. }
  clear - N1 N2 Dis. induction (map fst (files it)) as [ | q l IHl ]; [ exact N2 | ]. cbn [app]. inversion_clear N1 as [ | ? ? A B ]. constructor.
  - intros Hin. apply in_app_or in Hin. destruct Hin as [ Hin | Hin ]; [ apply (A Hin) | apply (Dis q (or_introl eq_refl) Hin) ].
  - apply IHl; [ exact B | ]. intros q' Hq'. apply Dis. right. exact Hq'.
Qed.

Section DistanceErrors.
Context {M : Type} (fit : pdq -> list fnum -> res M) (order_of : M -> pdq) (forecast : M -> nat -> res (list fnum)) (search : mparams -> list fnum -> res pdq).
Local Notation kind := (auto_arima_kind fit forecast search).
Context (env : denv) (create_instance : rmeta -> res (stregion fnum)) (region : string) (r : rmeta) (d : arr3 fnum) (sc : option (arr2 fnum * arr2 fnum)) (D : mat) (dist : point -> point -> fnum).
Context (Hready : ready env create_instance region r d sc D dist).
Context (n : nat) (et : string) (func : list fnum -> list fnum -> option (list fnum) -> res fnum) (Hn : n <= a3t d) (Hf : get_error_func et = Ok func).
Context (mo : point -> option M) (fo : point -> list fnum) (err : point -> point -> fnum).
Local Notation loaded := (DObj PlainDTW (Some D) false).
Local Notation use := (use_distance_errors env fit order_of forecast search r (qregion d sc) simple n et).
Local Notation x := (a3x d).
Local Notation y := (a3y d).

Definition medoid_forecasts (p : crisp) (ms : list point) : Prop :=
  forall i med, nth_error ms i = Some med -> label_at p med (Z.of_nat i) /\ forecast_at kind simple d n med (mo med) (Ok (fo med)) /\
    forall pt, in_grid x y pt -> label_at p pt (Z.of_nat i) -> error_of func d sc n (fo med) pt (err med pt).
Lemma extract_order m : extract_pdq order_of (cell_of m) = order_shown order_of m.
Proof. destruct m; reflexivity. Qed.
Lemma distance_errors_use c p ms : has_char "/" (mode_of c) = false -> with_medoids x y (c_k c) p ms -> medoid_forecasts p ms ->
  exists files, use c p ms loaded = (files, None) /\ NoDup (map fst files) /\
    (forall q, In q (map fst files) <-> exists i med, nth_error ms i = Some med /\ q = distance_errors_at region c et i (order_shown order_of (mo med))) /\
    forall i med, nth_error ms i = Some med -> exists file, In (distance_errors_at region c et i (order_shown order_of (mo med)), file) files /\
      cluster_table (rm_region r) x y p (Z.of_nat i) D med (err med) file.
Proof.
  intros Hc (V & K & L & G) Hm. pose proof Hready as (Hr & Hi & Hq & Hsp & Hl & HD & He). destruct (predefined_facts _ _ Hr) as (En & Hnm & _).
  unfold use_distance_errors. rewrite (trainer_params_grid r d simple Hsp).
  set (err' := fun pt => err (nth (Z.to_nat (label_of p pt)) ms (0, 0)%Z) pt).
  assert (Hlab : forall pt k, in_grid x y pt -> label_at p pt k -> label_of p pt = k).
  { intros pt k Hg Hlab. destruct (label_of_spec p x y pt V Hg) as [ A _ ]. unfold label_at in *. congruence. }
  assert (Herr : forall i med pt, nth_error ms i = Some med -> in_grid x y pt -> label_at p pt (Z.of_nat i) -> err' pt = err med pt).
  { intros i med pt Em Hg Hk. unfold err'. rewrite (Hlab pt _ Hg Hk), Nat2Z.id, (nth_error_nth _ _ _ Em). reflexivity. }
  destruct (C109_one_file_per_cluster mparams M kind (extract_pdq order_of) env (Some (dmeta_of r)) loaded D (trainer_metadata r c simple n et) c d sc p x y ms simple
     (fun i => mo (nth i ms (0, 0)%Z)) (fun i => fo (nth i ms (0, 0)%Z)) n et func err' "outputs" Hq eq_refl eq_refl Hn V eq_refl HD Hf ltac:(congruence)) as (files & Ef & Lf & Nd & Hall).
  { intros i med Em. rewrite (nth_error_nth _ _ _ Em). destruct (Hm i med Em) as (A & B & C). split; [ rewrite Forall_forall in G; apply G, (nth_error_In _ _ Em) | ]. split; [ exact A | ]. split; [ exact B | ].
    intros pt Hg Hk. rewrite (Herr i med pt Em Hg Hk). apply C; assumption. }
  assert (Hpath : forall i med, nth_error ms i = Some med -> exists file, nth_error files i = Some (distance_errors_at region c et i (order_shown order_of (mo med)), file) /\
     cluster_table (rm_region r) x y p (Z.of_nat i) D med (err med) file).
  { intros i med Em. destruct (Hall i med Em) as (path & file & A & B & C). rewrite (nth_error_nth _ _ _ Em), extract_order, (distance_errors_path_at c r n et i _ Hnm Hc), En in B. subst path.
    exists file. split; [ exact A | ]. apply (cluster_table_ext _ _ _ _ _ _ _ err'); [ | exact C ]. intros pt Hg Hk. apply (Herr i); assumption. }
  exists files. split; [ exact Ef | ]. split; [ exact Nd | ]. split.
  - intros q. split.
    + intros Hin. apply In_nth_error in Hin. destruct Hin as (i & Ei). rewrite nth_error_map in Ei. destruct (nth_error files i) as [ [ q' f ] | ] eqn:Efi; [ | discriminate ]. cbn in Ei. injection Ei as <-.
      assert (Hi' : i < length ms) by (rewrite <- Lf; apply nth_error_Some; congruence). destruct (nth_error ms i) as [ med | ] eqn:Em; [ | apply nth_error_None in Em; lia ].
      destruct (Hpath i med Em) as (f' & A & _). rewrite A in Efi. injection Efi as <- <-. eauto.
    + intros (i & med & Em & ->). destruct (Hpath i med Em) as (f & A & _). apply nth_error_In in A. apply (in_map fst) in A. exact A.
  - intros i med Em. destruct (Hpath i med Em) as (f & A & B). exists f. split; [ apply (nth_error_In _ _ A) | exact B ].
Qed.
Lemma distance_errors_tables t ty sid before results rest choice (fs : fsys M) : get_suite ty sid = Ok (before ++ rest)%list ->
  outcomes choice env fs r d sc D before results -> each before results (fun _ p ms => medoid_forecasts p ms) ->
  each before results (fun c p ms => snd (use c p ms loaded) = None) /\
  let t' := put_tables t (all_files D use before results) in
  each before results (fun c p ms => forall i med, nth_error ms i = Some med ->
     exists file, t' (distance_errors_at region c et i (order_shown order_of (mo med))) = Some file /\ cluster_table (rm_region r) x y p (Z.of_nat i) D med (err med) file) /\
  (forall q, each before results (fun c _ ms => forall i med, nth_error ms i = Some med -> q <> distance_errors_at region c et i (order_shown order_of (mo med))) -> t' q = t q).
Proof.
  intros Hs Ho Hall. destruct (suite_clean _ _ _ Hs) as (_ & Nd & Cm). pose proof (forall2_length _ _ _ Ho) as Hlen.
  assert (Huse : forall c p ms, In (c, (p, ms)) (combine before results) -> exists files, use c p ms loaded = (files, None) /\ NoDup (map fst files) /\
    (forall q, In q (map fst files) <-> exists i med, nth_error ms i = Some med /\ q = distance_errors_at region c et i (order_shown order_of (mo med))) /\
    forall i med, nth_error ms i = Some med -> exists file, In (distance_errors_at region c et i (order_shown order_of (mo med)), file) files /\
      cluster_table (rm_region r) x y p (Z.of_nat i) D med (err med) file).
  { intros c p ms Hin. destruct (Forall2_in _ _ _ Ho _ Hin) as [ _ HW ]. apply distance_errors_use; [ | exact HW | ].
    - apply Cm, in_or_app. left. apply in_combine_l in Hin. exact Hin.
    - rewrite (each_in _ _ _ Hlen) in Hall. apply (Hall _ _ _ Hin). }
  assert (N : NoDup (map fst (all_files D use before results))).
  { unfold all_files. apply (nodup_files region).
    - assert (E : map (fun it => c_repr (it_c it)) (map itemize (combine before results)) = map c_repr before).
      { transitivity (map c_repr (map fst (combine before results))); [ rewrite !map_map; apply map_ext; intros [ c [ p ms ] ]; reflexivity | rewrite (combine_fst before results Hlen); reflexivity ]. }
      rewrite E. rewrite map_app in Nd. apply nodup_app_l in Nd. exact Nd.
    - intros it Hin. apply in_map_iff in Hin. destruct Hin as ([ c [ p ms ] ] & <- & Hin). cbn [itemize it_c it_p it_ms fst snd]. destruct (Huse c p ms Hin) as (files & E & A & B & _). rewrite E. cbn [fst].
      split; [ apply Cm, in_or_app; left; apply in_combine_l in Hin; exact Hin | ]. split; [ exact A | ]. intros q Hq. apply B in Hq. destruct Hq as (i & med & _ & ->).
      unfold distance_errors_at. destruct (order_shown order_of (mo med)) as [ [ a b ] e ]. eexists. reflexivity. }
  assert (Hin_files : forall q f, In (q, f) (all_files D use before results) <-> exists c p ms, In (c, (p, ms)) (combine before results) /\ In (q, f) (fst (use c p ms loaded))).
  { intros q f. unfold all_files. rewrite in_flat_map. split.
    - intros (it & Hin & Hf'). apply in_map_iff in Hin. destruct Hin as ([ c [ p ms ] ] & <- & Hin). exists c, p, ms. auto.
    - intros (c & p & ms & Hin & Hf'). exists (c, p, ms). split; [ apply (in_map itemize) in Hin; exact Hin | exact Hf' ]. }
  split; [ | split ].
  - apply each_in; [ exact Hlen | ]. intros c p ms Hin. destruct (Huse c p ms Hin) as (files & E & _). rewrite E. reflexivity.
  - apply each_in; [ exact Hlen | ]. intros c p ms Hin i med Em. destruct (Huse c p ms Hin) as (files & E & _ & _ & B). destruct (B i med Em) as (file & F1 & F2). exists file. split; [ | exact F2 ].
    apply put_tables_in; [ exact N | ]. apply Hin_files. exists c, p, ms. rewrite E. auto.
  - intros q Hq. rewrite (each_in _ _ _ Hlen) in Hq. apply put_tables_other. intros Hin. apply in_map_iff in Hin. destruct Hin as ([ q' f ] & Eq & Hin). cbn in Eq. subst q'.
    apply Hin_files in Hin. destruct Hin as (c & p & ms & Hin & Hf'). destruct (Huse c p ms Hin) as (files & E & _ & B & _). rewrite E in Hf'. cbn [fst] in Hf'.
    apply (in_map fst) in Hf'. apply B in Hf'. destruct Hf' as (i & med & Em & Eq). apply (Hq c p ms Hin i med Em Eq).
Qed.
End DistanceErrors.

(** C126: distance_errors.py writes, for each clustering of the suite of the experiment, one table for each cluster, named after the
    cluster and the order of the model of its medoid: for each point of the cluster its position, its distance to the medoid and the error
    of the medoid's forecast there.  The medoids belong to their clusters.  The partitions are saved and reported, and no other file
    changes. *)
Theorem C126_written : forall M choice env create_instance format_coverage fit order_of forecast search (w : world M) t region r d sc D dist experiment ty sid suite results
    n et func (mo : point -> option M) fo err,
  let kind := auto_arima_kind fit forecast search in
  ready env create_instance region r d sc D dist -> searched experiment ty sid -> get_suite ty sid = Ok suite ->
  outcomes choice env (w_pickles w) r d sc D suite results ->
  n <= a3t d -> get_error_func et = Ok func ->
  each suite results (fun _ p ms => forall i med, nth_error ms i = Some med -> label_at p med (Z.of_nat i) /\ forecast_at kind simple d n med (mo med) (Ok (fo med)) /\
    forall pt, in_grid (a3x d) (a3y d) pt -> label_at p pt (Z.of_nat i) -> error_of func d sc n (fo med) pt (err med pt)) ->
  exists w' t', auto_arima_distance_errors choice env create_instance format_coverage fit order_of forecast search w t region experiment n et = (w', t', None) /\
    each suite results (fun c p ms => forall i med, nth_error ms i = Some med ->
      exists file, t' (distance_errors_at region c et i (order_shown order_of (mo med))) = Some file /\
        cluster_table (rm_region r) (a3x d) (a3y d) p (Z.of_nat i) D med (err med) file) /\
    (forall q, each suite results (fun c _ ms => forall i med, nth_error ms i = Some med -> q <> distance_errors_at region c et i (order_shown order_of (mo med))) -> t' q = t q) /\
    partitions_left format_coverage w w' region suite results.
Proof.
  intros M choice env create fc fit order_of forecast search w t region r d sc D dist experiment ty sid suite results n et func mo fo err kind Hready Hx Hs Ho Hn Hf Hall.
  pose proof Hready as (Hr & Hi & _). unfold auto_arima_distance_errors. rewrite (searched_metadata region r experiment ty sid Hx Hr), Hs. cbn [bind]. rewrite Hi. cbn [bind].
  destruct (distance_errors_tables fit order_of forecast search env create region r d sc D dist Hready n et func Hn Hf mo fo err t ty sid suite results [] choice (w_pickles w)
    ltac:(rewrite app_nil_r; exact Hs) Ho Hall) as (Hu & T1 & T2).
  destruct (prepared_all choice env create fc region r d sc D dist Hready _ w t ty sid suite results Hs Ho Hu) as (w' & E & L).
  exists w'. eexists. split; [ exact E | ]. split; [ exact T1 | ]. split; [ exact T2 | exact L ].
Qed.
Print Assumptions C126_written.

(** C126: when the partition of a clustering cannot be computed, the tables and the partitions of the clusterings before it stay. *)
Theorem C126_failure_keeps_tables : forall M choice env create_instance format_coverage fit order_of forecast search (w : world M) t region r d sc D dist experiment ty sid
    before results c after n et func (mo : point -> option M) fo err e,
  let kind := auto_arima_kind fit forecast search in
  ready env create_instance region r d sc D dist -> searched experiment ty sid -> get_suite ty sid = Ok (before ++ c :: after)%list ->
  outcomes choice env (w_pickles w) r d sc D before results ->
  n <= a3t d -> get_error_func et = Ok func ->
  each before results (fun _ p ms => forall i med, nth_error ms i = Some med -> label_at p med (Z.of_nat i) /\ forecast_at kind simple d n med (mo med) (Ok (fo med)) /\
    forall pt, in_grid (a3x d) (a3y d) pt -> label_at p pt (Z.of_nat i) -> error_of func d sc n (fo med) pt (err med pt)) ->
  (forall q, w_pickles w (saved_at region c) <> Some (FPartition q)) ->
  algorithm_partition_impl choice env c (Some (dmeta_of r)) (qregion d sc) true (DObj PlainDTW (Some D) false) = Raise e ->
  exists w' t', auto_arima_distance_errors choice env create_instance format_coverage fit order_of forecast search w t region experiment n et = (w', t', Some e) /\
    each before results (fun c p ms => forall i med, nth_error ms i = Some med ->
      exists file, t' (distance_errors_at region c et i (order_shown order_of (mo med))) = Some file /\
        cluster_table (rm_region r) (a3x d) (a3y d) p (Z.of_nat i) D med (err med) file) /\
    (forall q, each before results (fun c _ ms => forall i med, nth_error ms i = Some med -> q <> distance_errors_at region c et i (order_shown order_of (mo med))) -> t' q = t q) /\
    partitions_left format_coverage w w' region before results.
Proof.
  intros M choice env create fc fit order_of forecast search w t region r d sc D dist experiment ty sid before results c after n et func mo fo err e kind Hready Hx Hs Ho Hn Hf Hall Hfresh Ea.
  pose proof Hready as (Hr & Hi & _). unfold auto_arima_distance_errors. rewrite (searched_metadata region r experiment ty sid Hx Hr), Hs. cbn [bind]. rewrite Hi. cbn [bind].
  destruct (distance_errors_tables fit order_of forecast search env create region r d sc D dist Hready n et func Hn Hf mo fo err t ty sid before results (c :: after) choice (w_pickles w)
    Hs Ho Hall) as (Hu & T1 & T2).
  destruct (prepared_partition_fails choice env create fc region r d sc D dist Hready _ w t ty sid before results c after e Hs Ho Hu Hfresh Ea) as (w' & E & L).
  exists w'. eexists. split; [ exact E | ]. split; [ exact T1 | ]. split; [ exact T2 | exact L ].
Qed.
Print Assumptions C126_failure_keeps_tables.

Theorem C126_nothing_written : forall M choice env create_instance format_coverage fit order_of forecast search (w : world M) t region experiment n et e,
  cannot_start env create_instance region experiment e ->
  exists w', auto_arima_distance_errors choice env create_instance format_coverage fit order_of forecast search w t region experiment n et = (w', t, Some e) /\
    (forall q, w_texts w' q = w_texts w q) /\ (forall q, w_pickles w' q = w_pickles w q).
Proof.
  intros M choice env create fc fit order_of forecast search w t region experiment n et e H. unfold auto_arima_distance_errors.
  destruct H as [ Hr | (r & Hr & H) ]; [ unfold auto_arima_metadata; rewrite Hr; cbn [bind]; eauto | ].
  destruct H as [ [ -> Hn ] | (ty & sid & Hx & H) ]; [ rewrite (unknown_experiment region r experiment Hr Hn); cbn [bind]; eauto | ].
  rewrite (searched_metadata region r experiment ty sid Hx Hr). destruct (searched_suite _ _ _ Hx) as (suite & Hs & Hne). rewrite Hs. cbn [bind].
  destruct H as [ -> | (spt & -> & Hb) ]; cbn [bind]; [ eauto | ]. destruct (load_bad env r e Hb) as (o & El).
  destruct suite as [ | c suite ]; [ congruence | ]. cbn [each_clustering]. unfold with_prepared_partition at 1. rewrite El. eexists. split; [ reflexivity | ]. split; reflexivity.
Qed.
Print Assumptions C126_nothing_written.

Example C126_ex : exists r suite results w' t',
  ready ex7_env (fun _ => Ok (qregion ex25_d None)) "nordeste_small_2015_2015_1spd" r ex25_d None ex7_matrix (fun q pt => Fin (ex7_dist q pt)) /\
  get_suite "kmedoids" "quick" = Ok suite /\ length suite = 4 /\
  outcomes ex7_choice ex7_env (fun _ => None : option (@file fnum)) r ex25_d None ex7_matrix suite results /\
  auto_arima_distance_errors ex7_choice ex7_env (fun _ => Ok (qregion ex25_d None)) (fun _ => "v"%string) ex25_fit (fun _ => (1, 0, 1)%Z) ex25_forecast ex25_search
    (World (fun _ => None : option (@file fnum)) (fun _ => None) (fresh PlainDTW)) (fun _ => None) "nordeste_small_2015_2015_1spd" "simple_kmedoids_quick" 2 "MSE" = (w', t', None) /\
  each suite results (fun c p ms => length ms >= 2 /\ forall i med, nth_error ms i = Some med ->
    exists file, t' (distance_errors_at "nordeste_small_2015_2015_1spd" c "MSE" i (1, 0, 1)%Z) = Some file /\
      cluster_table (rm_region r) 7 10 p (Z.of_nat i) ex7_matrix med (ex25_error med) file).
Proof.
  destruct ex25_ready as [ r Hready ]. exists r. destruct (get_suite "kmedoids" "quick") as [ suite | ] eqn:Hs; [ | discriminate ]. exists suite.
  assert (Hlen : length suite = 4) by (vm_compute in Hs; injection Hs as <-; reflexivity).
  destruct (ex25_computed r suite Hready Hs) as (results & Ho & Hc). exists results.
  assert (Hx : searched "simple_kmedoids_quick" "kmedoids" "quick") by (split; [ reflexivity | left; reflexivity ]).
  destruct (C126_written fnum ex7_choice ex7_env (fun _ => Ok (qregion ex25_d None)) (fun _ => "v"%string) ex25_fit (fun _ => (1, 0, 1)%Z) ex25_forecast ex25_search (World (fun _ => None) (fun _ => None) (fresh PlainDTW)) (fun _ => None)
    _ r ex25_d None ex7_matrix _ _ _ _ suite results 2 "MSE" mse ex25_model ex25_forecasts ex25_error Hready Hx Hs Ho ltac:(cbn; lia) eq_refl) as (w' & t' & E & T & _).
  - intros i c p ms A B j med Hj. pose proof (outcomes_medoids _ _ _ _ _ _ _ _ _ _ _ _ _ Ho A B) as (_ & _ & _ & G). rewrite Forall_forall in G.
    assert (Hg : in_grid 7 10 med) by (apply G, (nth_error_In _ _ Hj)). destruct (ex25_hypotheses med Hg) as [ F1 F2 ].
    pose proof (Forall2_in _ _ _ Hc (c, (p, ms)) (nth_error_In _ i (combine_nth_error _ _ _ _ _ A B))) as HC. cbn [fst snd] in HC.
    split; [ | split; [ exact F1 | intros pt Hp _; apply F2, Hp ] ].
    destruct HC as (_ & _ & _ & Ndm & _ & HN). destruct (HN med Hg) as (i' & Hl & (m & Em & Hle & _)). assert (m = med).
    { assert (Hdec : m = med \/ m <> med). { destruct m as [ a b ], med as [ a' b' ]. destruct (Z.eq_dec a a'), (Z.eq_dec b b'); subst; auto; right; congruence. }
      destruct Hdec as [ -> | Hne ]; [ reflexivity | exfalso ]. pose proof (Hle j med Hj) as Q1. pose proof (ex7_pos m med (G m (nth_error_In _ _ Em)) Hg Hne) as Q2.
      replace (ex7_dist med med) with (0 # 1)%Q in Q1 by (unfold ex7_dist; rewrite Z.sub_diag; reflexivity). pose proof (flt_le_trans _ _ _ Q2 Q1) as Q. discriminate Q. }
    subst m. rewrite NoDup_nth_error in Ndm. replace j with i'; [ exact Hl | ]. apply Ndm; [ apply nth_error_Some; congruence | congruence ].
  - exists w', t'. repeat (split; [ assumption || reflexivity | ]). intros i c p ms A B. split; [ | apply (T i c p ms A B) ].
    pose proof (outcomes_medoids _ _ _ _ _ _ _ _ _ _ _ _ _ Ho A B) as (_ & _ & L & _). destruct (suite_clean _ _ _ Hs) as (_ & _ & Cm). pose proof (proj2 (Cm c (nth_error_In _ _ A))). lia.
Qed.
