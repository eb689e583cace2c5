(** C118: the program that finds the elbow of a k-medoids suite for each seed. *)
From Coq Require Import String Lia.
From Verif Require Import Base.Py Base.PyFacts Base.Dict Base.Str Base.StrFacts Base.Arr Base.ArrFacts Base.Float Base.FloatFacts Model.Region Model.Distance
  Model.KMedoids Model.Clustering Model.SolverFiles Model.Algorithms Model.Programs Model.PartitionAnalysis Model.Elbows
  Spec.Grid Spec.Regions Spec.Partition Spec.Distance Spec.Solver Spec.SolverFiles Spec.Clustering Spec.Programs Spec.Algorithms Spec.PartitionAnalysis Spec.Elbows
  Proofs.RegionFacts Proofs.PartitionFacts Proofs.ProperFacts Proofs.SolverFacts Proofs.ReportFacts Proofs.DistanceFacts Proofs.DistanceObjFacts
  Proofs.ClusteringFacts Proofs.ElbowFacts Proofs.NameFacts Proofs.ProgramFacts Proofs.FilesFacts Proofs.AnalysisFacts Proofs.ElbowProgramFacts
  Props.Distance Props.Clustering Props.SolverFiles Props.Programs Props.Algorithms Props.PartitionAnalysis.
From Coq Require Import ZifyBool ZifyNat.
Local Notation length := List.length.
Local Open Scope nat_scope.

(** the clusterings of a suite, in order *)
Definition clusterings (ks seeds : list Z) : list cmeta := flat_map (fun k => map (clustering k) seeds) ks.
Lemma generator_is ks seeds : kmedoids_metadata_generator ks seeds = Ok (clusterings ks seeds).
Proof.
  unfold kmedoids_metadata_generator. set (ps := KParams _ _ _ _ _). destruct (C37_suite_is_cartesian_product ks seeds ps) as (E & _). rewrite E. f_equal.
  rewrite pairs_kmk. reflexivity.
Qed.
Lemma large_enough_suite sid ks seeds s : large_enough sid ks seeds s -> get_suite "kmedoids" sid = Ok (clusterings ks (seeds ++ [s])) /\
  increasing ks /\ 3 <= length ks /\ NoDup (seeds ++ [s]).
Proof.
  assert (Inc : forall m n a, increasing (map (fun i => (a + Z.of_nat i)%Z) (seq n m))).
  { induction m as [ | m IH ]; intros n a; cbn; auto. split; [ | apply IH ]. intros b Hb. apply in_map_iff in Hb. destruct Hb as (i & <- & Hi). apply in_seq in Hi. lia. }
  intros [ | ].
  - change (get_suite "kmedoids" "large") with (kmedoids_metadata_generator (zrange 12 15) (zrange 0 2)). rewrite generator_is.
    split; [ reflexivity | ]. split; [ apply Inc | ]. split; [ apply Nat.leb_le; reflexivity | ]. apply (zrange_nodup 0 2).
  - change (get_suite "kmedoids" "all") with (kmedoids_metadata_generator (zrange 2 151) (zrange 0 3)). rewrite generator_is.
    split; [ reflexivity | ]. split; [ apply Inc | ]. split; [ apply Nat.leb_le; reflexivity | ]. apply (zrange_nodup 0 3).
Qed.

Lemma cost_is_squared_distances env r d sc D dist result c : qwf d sc -> square (a3x d * a3y d) D ->
  (forall q pt, in_grid (a3x d) (a3y d) q -> in_grid (a3x d) (a3y d) pt -> entry D (index_of (a3y d) q) (index_of (a3y d) pt) = Some (Fin (dist q pt))) ->
  with_medoids (a3x d) (a3y d) (c_k c) (fst (result c)) (snd (result c)) ->
  exists v, cost env r d sc D result c = Ok (Fin v) /\ squared_distances dist (a3x d) (a3y d) (fst (result c)) (snd (result c)) v.
Proof.
  intros Hq HD Hdist (V & K & L & G). set (p := fst (result c)) in *. set (ms := snd (result c)) in *. unfold cost. fold p ms.
  rewrite (cost_scaled env p ms d sc _ _ _ _ V Hq eq_refl eq_refl).
  set (lab := fun pt => Z.to_nat (label_of p pt)). set (med := fun i => nth i ms (0, 0)%Z).
  assert (Hlab : forall pt, in_grid (a3x d) (a3y d) pt -> label_at p pt (Z.of_nat (lab pt)) /\ lab pt < Z.to_nat (pk p)).
  { intros pt Hg. destruct (label_of_spec p _ _ pt V Hg) as [ A B ]. unfold lab. rewrite Z2Nat.id by lia. split; [ exact A | lia ]. }
  assert (Hmed : forall i, i < Z.to_nat (pk p) -> nth_error ms i = Some (med i)) by (intros i Hi; apply nth_error_nth'; lia).
  destruct (C76_intra_cluster_cost env p d _ _ ms (Some (dmeta_of r)) (DObj PlainDTW (Some D) false) D dist lab med V (proj1 Hq) eq_refl eq_refl HD) as (cst & E & F).
  - left. reflexivity.
  - exact Hdist.
  - intros pt Hg. apply Hlab, Hg.
  - exact Hmed.
  - apply Forall_forall. exact G.
  - destruct cst as [ | | | v ]; try contradiction. exists v. split; [ exact E | ]. exists (fun pt => med (lab pt)). split; [ | exact F ].
    intros pt Hg. destruct (Hlab pt Hg) as [ A B ]. exists (lab pt). split; [ exact A | apply Hmed, B ].
Qed.

Section Program.
Context {M : Type} (choice : Z -> nat -> Z -> res (list Z)) (env : denv) (create_instance : rmeta -> res (stregion fnum)).
Local Notation find_elbows := (@find_elbows M choice env create_instance).

(** C118: for each seed the program prints the values of k and an elbow.  The elbow is the same for all seeds: the value of k of
    largest curvature of the costs found with the last seed, a cost being the sum of the squared distances of the points from
    the medoid of their cluster.  The partitions are saved for later and no other file changes. *)
Theorem C118_elbows : forall (fs : fsys M) region r d sc D dist sid ks seeds last_seed result,
  ready env create_instance region r d sc D (fun q pt => Fin (dist q pt)) -> large_enough sid ks seeds last_seed ->
  has_results choice env fs r d sc D (clusterings ks (seeds ++ [last_seed])) result ->
  exists fs' o (v : Z -> Q) i k,
    find_elbows fs region sid = ((fs', o), Ok (flat_map (seed_lines ks k) (seeds ++ [last_seed]))) /\
    (forall k', In k' ks ->
       squared_distances dist (a3x d) (a3y d) (fst (result (clustering k' last_seed))) (snd (result (clustering k' last_seed))) (v k')) /\
    elbow_index ks (map v ks) i /\ nth_error ks i = Some k /\
    saved_all fs fs' region (clusterings ks (seeds ++ [last_seed])) result.
Proof.
  intros fs region r d sc D dist sid ks seeds s result (Hr & Hi & Hq & Hsp & Hl & HD & Hent) Hs HR.
  destruct (predefined_facts _ _ Hr) as (En & Hn & _). destruct (large_enough_suite _ _ _ _ Hs) as (Es & Hinc & H3 & Hnd).
  destruct (suite_clean _ _ _ Es) as (_ & Nd & Cm).
  destruct (run choice env create_instance r d sc D Hn Hsp Hl HD result fs region _ sid Hr Hi Es Nd ltac:(intros c Hc; apply Cm, Hc) HR) as (fs' & E & Sv).
  assert (Hin : forall k, In k ks -> In (clustering k s) (clusterings ks (seeds ++ [s]))).
  { intros k Hk. unfold clusterings. apply in_flat_map. exists k. split; [ exact Hk | ]. apply in_map, in_or_app. right. left. reflexivity. }
  assert (Hv : forall k, In k ks -> exists v, cost env r d sc D result (clustering k s) = Ok (Fin v) /\
            squared_distances dist (a3x d) (a3y d) (fst (result (clustering k s))) (snd (result (clustering k s))) v).
  { intros k Hk. apply cost_is_squared_distances; auto. apply HR, Hin, Hk. }
  set (v := fun k => match cost env r d sc D result (clustering k s) with Ok (Fin q) => q | _ => 0%Q end).
  assert (Hv' : forall k, In k ks -> cost env r d sc D result (clustering k s) = Ok (Fin (v k)) /\
            squared_distances dist (a3x d) (a3y d) (fst (result (clustering k s))) (snd (result (clustering k s))) (v k)).
  { intros k Hk. destruct (Hv k Hk) as (q & E1 & E2). unfold v. rewrite E1. split; [ reflexivity | exact E2 ]. }
  destruct (ending_lines env r d sc D result ks (seeds ++ [s]) v Hinc H3 Hnd) as (i & k & E1 & E2 & E3).
  - destruct seeds; discriminate.
  - intros k Hk. rewrite last_last. apply Hv', Hk.
  - exists fs', (DObj PlainDTW (Some D) false), v, i, k. split; [ | split; [ | split; [ exact E1 | split; [ exact E2 | ] ] ] ].
    + rewrite E. f_equal. exact E3.
    + intros k' Hk'. apply Hv', Hk'.
    + rewrite <- En. exact Sv.
Qed.

(** C118: running it again prints the same and changes no file, whatever the random choices are then *)
Theorem C118_run_again : forall (fs fs' : fsys M) choice' region r d sc D dist sid ks seeds last_seed result o lines,
  ready env create_instance region r d sc D dist -> large_enough sid ks seeds last_seed ->
  has_results choice env fs r d sc D (clusterings ks (seeds ++ [last_seed])) result ->
  find_elbows fs region sid = ((fs', o), lines) ->
  exists fs'' o', Elbows.find_elbows choice' env create_instance fs' region sid = ((fs'', o'), lines) /\ forall q, fs'' q = fs' q.
Proof.
  intros fs fs' choice' region r d sc D dist sid ks seeds s result o lines (Hr & Hi & Hq & Hsp & Hl & HD & _) Hs HR E0.
  destruct (predefined_facts _ _ Hr) as (En & Hn & _). destruct (large_enough_suite _ _ _ _ Hs) as (Es & _).
  destruct (suite_clean _ _ _ Es) as (_ & Nd & Cm).
  destruct (run choice env create_instance r d sc D Hn Hsp Hl HD result fs region _ sid Hr Hi Es Nd ltac:(intros c Hc; apply Cm, Hc) HR) as (fs1 & E & S1 & S2).
  rewrite E0 in E. injection E as -> -> ->.
  assert (HR' : has_results choice' env fs1 r d sc D (clusterings ks (seeds ++ [s])) result).
  { intros c Hc. split; [ | apply HR, Hc ]. unfold used. rewrite (S1 c Hc). reflexivity. }
  destruct (run choice' env create_instance r d sc D Hn Hsp Hl HD result fs1 region _ sid Hr Hi Es Nd ltac:(intros c Hc; apply Cm, Hc) HR') as (fs2 & E2 & T1 & T2).
  exists fs2, (DObj PlainDTW (Some D) false). split; [ exact E2 | ]. intros q.
  destruct (in_dec string_dec q (map (saved_at (rmeta_repr r)) (clusterings ks (seeds ++ [s])))) as [ Hin | Hn' ].
  - apply in_map_iff in Hin. destruct Hin as (c & <- & Hc). rewrite (T1 c Hc), (S1 c Hc). reflexivity.
  - apply T2. intros c Hc ->. apply Hn', in_map, Hc.
Qed.

(** C118: if one of the clusterings fails the program fails with its exception; the partitions found before it stay saved *)
Theorem C118_failure_keeps_partitions : forall (fs : fsys M) region r d sc D dist sid before c rest result e,
  ready env create_instance region r d sc D dist -> get_suite "kmedoids" sid = Ok (before ++ c :: rest) ->
  has_results choice env fs r d sc D before result -> (forall q, fs (saved_at region c) <> Some (FPartition q)) ->
  algorithm_partition_impl choice env c (Some (dmeta_of r)) (qregion d sc) true (DObj PlainDTW (Some D) false) = Raise e ->
  exists fs' o, find_elbows fs region sid = ((fs', o), Raise e) /\ saved_all fs fs' region before result.
Proof.
  intros fs region r d sc D dist sid before c rest result e (Hr & Hi & Hq & Hsp & Hl & HD & _) Es HR Hno Ea.
  destruct (predefined_facts _ _ Hr) as (En & Hn & _). destruct (suite_clean _ _ _ Es) as (_ & Nd & Cm). rewrite <- En in Hno.
  destruct (run_fails choice env create_instance r d sc D Hn Hsp Hl HD result fs region before c rest sid e Hr Hi Es Nd ltac:(intros c' Hc; apply Cm, Hc) HR Hno Ea) as (fs' & E & Sv).
  exists fs', (DObj PlainDTW (Some D) false). split; [ exact E | ]. rewrite <- En. exact Sv.
Qed.

(** C118: the suite "quick" is offered, but has two values of k and so no elbow: the program fails on every input *)
Theorem C118_offered_suite_refuted : In "quick"%string (map fst kmedoids_suites) /\
  forall (fs : fsys M) region, exists st e, find_elbows fs region "quick" = (st, Raise e).
Proof.
  split; [ left; reflexivity | ]. intros fs region. unfold Elbows.find_elbows.
  destruct (region_by_name region) as [ r | e ]; cbn [bind]; [ | eauto ].
  change (get_suite "kmedoids" "quick") with (kmedoids_metadata_generator (zrange 2 4) (zrange 0 2)). rewrite generator_is. cbn [bind].
  destruct (create_instance r) as [ spt | e ]; cbn [bind]; [ | eauto ].
  destruct (load_distance_matrix_2d _ _ _ _) as [ [ m | e ] o ]; [ | eauto ].
  destruct (get_all_partitions _ _ _ _ _ _ _) as [ st [ parts | e ] ]; [ | eauto ].
  exists st. destruct (get_all_intra_cluster_costs _ _ _ _ _) as [ costs | e ]; cbn [bind]; [ | eauto ].
  set (suite := clusterings _ _).
  assert (Eo : organize_kmedoids_suite suite = Ok [(0%Z, [clustering 2 0; clustering 3 0]); (1%Z, [clustering 2 1; clustering 3 1])]) by reflexivity.
  unfold elbows_for_each_seed. rewrite Eo. cbn [bind foldM].
  destruct (mapM (fun m0 => dict_get c_eqb m0 costs) [clustering 2 0; clustering 3 0]) as [ ? | e ]; cbn [bind]; [ | eauto ].
  assert (Ef : find_cost_elbow_given_order costs [clustering 2 0; clustering 3 0] = Raise AssertionError).
  { unfold find_cost_elbow_given_order. cbn [length]. destruct (Nat.eqb_spec (length costs) 2) as [ -> | ]; reflexivity. }
  rewrite Ef. cbn [bind]. eauto.
Qed.

(** C118: ... even when every partition is there *)
Theorem C118_quick_fails : forall (fs : fsys M) region r d sc D dist result,
  ready env create_instance region r d sc D (fun q pt => Fin (dist q pt)) ->
  has_results choice env fs r d sc D (clusterings [2; 3] [0; 1])%Z result ->
  exists fs' o, find_elbows fs region "quick" = ((fs', o), Raise AssertionError) /\ saved_all fs fs' region (clusterings [2; 3] [0; 1])%Z result.
Proof.
  intros fs region r d sc D dist result (Hr & Hi & Hq & Hsp & Hl & HD & Hent) HR. destruct (predefined_facts _ _ Hr) as (En & Hn & _).
  assert (Es : get_suite "kmedoids" "quick" = Ok (clusterings [2; 3] [0; 1])%Z).
  { change (get_suite "kmedoids" "quick") with (kmedoids_metadata_generator (zrange 2 4) (zrange 0 2)). rewrite generator_is. reflexivity. }
  destruct (suite_clean _ _ _ Es) as (_ & Nd & Cm).
  destruct (run choice env create_instance r d sc D Hn Hsp Hl HD result fs region _ "quick" Hr Hi Es Nd ltac:(intros c Hc; apply Cm, Hc) HR) as (fs' & E & Sv).
  exists fs', (DObj PlainDTW (Some D) false). split; [ | rewrite <- En; exact Sv ]. rewrite E. f_equal.
  assert (Hc : forall k, In k [2; 3]%Z -> exists v, cost env r d sc D result (clustering k 1) = Ok (Fin v)).
  { intros k Hk. destruct (cost_is_squared_distances env r d sc D dist result (clustering k 1) Hq HD Hent) as (v & Ev & _); [ | eauto ]. apply HR.
    destruct Hk as [ <- | [ <- | [] ] ]; cbn; auto. }
  destruct (Hc 2%Z) as (v2 & E2); [ cbn; auto | ]. destruct (Hc 3%Z) as (v3 & E3); [ cbn; auto | ].
  unfold ending, calculate_elbows, all_costs.
  change (fold_left (fun d m => dict_set c_eqb m m d) (clusterings [2; 3] [0; 1])%Z []) with
    [(clustering 2 0, clustering 2 1); (clustering 3 0, clustering 3 1)]. cbn [foldM bind]. rewrite E2. cbn [bind]. rewrite E3. reflexivity.
Qed.
End Program.
Print Assumptions C118_elbows.
Print Assumptions C118_run_again.
Print Assumptions C118_failure_keeps_partitions.
Print Assumptions C118_offered_suite_refuted.
Print Assumptions C118_quick_fails.

Lemma function_of_outcomes {M} choice env (fs : fsys M) r d sc D suite results : NoDup (map c_repr suite) -> outcomes choice env fs r d sc D suite results ->
  exists result, has_results choice env fs r d sc D suite result.
Proof.
  intros Hnd Ho. induction Ho as [ | c pm suite results H Ho IH ].
  - exists (fun _ => (Crisp (full2 0 0 0%Z) 0, [])). intros c [].
  - cbn [map] in Hnd. inversion_clear Hnd as [ | ? ? Hni Hnd' ]. destruct (IH Hnd') as [ f Hf ].
    exists (fun c' => if (c_repr c' =? c_repr c)%string then pm else f c'). intros c' [ <- | Hin ].
    + rewrite String.eqb_refl. exact H.
    + rewrite (proj2 (String.eqb_neq (c_repr c') (c_repr c))); [ apply Hf, Hin | ]. intros E. apply Hni. rewrite <- E. apply in_map, Hin.
Qed.

(** C118: the partitions of a suite are found when the distances of different points are positive and k different points are
    drawn at random for each clustering *)
Theorem C118_partitions_found : forall M choice env (create_instance : rmeta -> res (stregion fnum)) (fs : fsys M) region r d sc D dist sid suite,
  ready env create_instance region r d sc D (fun q pt => Fin (dist q pt)) -> get_suite "kmedoids" sid = Ok suite ->
  (forall c, In c suite -> forall q, fs (saved_at region c) <> Some (FPartition q)) ->
  (forall q, in_grid (a3x d) (a3y d) q -> (dist q q == 0)%Q) ->
  (forall q pt, in_grid (a3x d) (a3y d) q -> in_grid (a3x d) (a3y d) pt -> q <> pt -> (0 < dist q pt)%Q) ->
  (forall c, In c suite -> exists m starts, c = CKmedoids m /\ can_start choice m (a3x d) (a3y d) (Z.to_nat (c_k c)) starts) ->
  exists result, has_results choice env fs r d sc D suite result.
Proof.
  intros M choice env create fs region r d sc D dist sid suite Hready Hs Hfresh H0 Hpos Hst.
  destruct (C117_kmedoids_suite M choice env create fs region r d sc D _ sid suite Hready Hs Hfresh) as (results & Ho & _); auto.
  - intros q Hg. cbn. apply Qeq_bool_iff, H0, Hg.
  - intros q pt Hq Hp Hne. apply flt_Fin, Hpos; assumption.
  - apply (function_of_outcomes choice env fs r d sc D suite results); [ apply (suite_clean _ _ _ Hs) | exact Ho ].
Qed.
Print Assumptions C118_partitions_found.

Example C118_ex : exists fs' o k,
  find_elbows ex7_choice ex7_env (fun _ => Ok (qregion ex7_d None)) (fun _ => None : option (@file unit)) "nordeste_small_2015_2015_1spd" "large" =
    ((fs', o), Ok ["****** Seed 0 ******"; "Values of k: [12, 13, 14]"; "Elbow found for k=Kmedoids: k=" ++ str_int k ++ " seed=0 mode=lite";
                   "****** Seed 1 ******"; "Values of k: [12, 13, 14]"; "Elbow found for k=Kmedoids: k=" ++ str_int k ++ " seed=1 mode=lite"]%string) /\ k = 13%Z.
Proof.
  destruct ex7_ready as [ r Hready ]. destruct (large_enough_suite _ _ _ _ suite_large) as (Es & _).
  destruct (C118_partitions_found unit ex7_choice ex7_env _ (fun _ => None) _ r ex7_d None ex7_matrix _ "large" _ Hready Es) as (result & HR).
  - intros c _ q. discriminate.
  - intros q _. unfold ex7_dist. rewrite Z.sub_diag. reflexivity.
  - intros q pt A B C. apply flt_Fin, ex7_pos; assumption.
  - intros c Hc. apply (proj1 (C112_suites _ _ _ Es)) in Hc. inversion Hc; subst. eexists _, (zrange 0 k). split; [ reflexivity | ].
    cbn [c_k kmeta_default km_k]. assert (k = 12 \/ k = 13 \/ k = 14)%Z as [ -> | [ -> | -> ] ] by lia; (split; [ reflexivity | ]; split; [ cbn; lia | ]; split; [ reflexivity | ];
      split; [ left; reflexivity | ]; split; [ reflexivity | ]; split; [ reflexivity | ]; split; [ apply zrange_nodup | ]; intros i Hin; apply in_zrange in Hin; cbn; lia).
  - destruct (C118_elbows ex7_choice ex7_env _ (fun _ => None) _ r ex7_d None ex7_matrix _ _ _ _ _ result Hready suite_large HR) as (fs' & o & v & i & k & E & _ & Hi & Hk & _).
    exists fs', o, k. split; [ exact E | ]. destruct Hi as (A & B & _). change (length (zrange 12 15)) with 3 in B. assert (i = 1) as -> by lia. change (Some 13%Z = Some k) in Hk. congruence.
Qed.
