(** C108-C111: the tables that the experiments write. *)
From Coq Require Import String Lia QArith Sorted.
From Verif Require Import Base.Py Base.PyFacts Base.Arr Base.ArrFacts Base.Str Base.StrFacts Base.Float Base.FloatFacts Model.Region Model.Scaling Model.Series Model.Errors Model.Models
  Model.Distance Model.Clustering Model.Solver Model.SolverFiles Model.Forecast Model.Results Model.Reports
  Spec.Grid Spec.Rect Spec.Partition Spec.Regions Spec.Distance Spec.Solver Spec.Reports Proofs.RegionFacts Proofs.PartitionFacts Proofs.ProperFacts
  Proofs.SubsetFacts Proofs.ScalingFacts Proofs.SeriesFacts Proofs.DistanceFacts Proofs.DistanceObjFacts Proofs.ModelFacts Proofs.ForecastFacts Proofs.SolverFacts
  Proofs.NameFacts Proofs.ReportFacts.
From Coq Require Import ZifyBool ZifyNat.
Close Scope Q_scope.
Local Open Scope string_scope.
Local Notation length := List.length.

Lemma forall2_same_length : forall {A B} (R : A -> B -> Prop) l l', Forall2 R l l' -> length l = length l'.
Proof. intros A B R l l' H. induction H; cbn; congruence. Qed.

(* ---------------------------------------------------------------- C108 *)
(** The table of the distances between medoids: a header with the indices of the clusters, and for each medoid a row
    with its distances to all medoids, read from the distance matrix. *)
Theorem C108_medoid_table : forall o M x y medoids, d_matrix o = Some M -> square (x * y) M -> Forall (in_grid x y) medoids ->
  exists rows, save_medoid_distances o y (Z.of_nat (length medoids)) medoids =
      Ok ((FStr "k" :: map (fun i => FStr (str_int (Z.of_nat i))) (seq 0 (length medoids))) :: rows) /\
    length rows = length medoids /\
    forall i mi, nth_error medoids i = Some mi ->
      exists values, nth_error rows i = Some (FStr (str_int (Z.of_nat i)) :: map (FNum 3) values) /\
        Forall2 (fun mj v => entry M (index_of y mi) (index_of y mj) = Some v) medoids values.
Proof.
  intros o M x y medoids Ho Hs Hm.
  set (k := Z.of_nat (length medoids)).
  assert (R : forall mi, In mi medoids -> exists l, distances_with_matrix o y mi (map (encode_point y) medoids) = Ok l /\ row_at M (index_of y mi) (map (index_of y) medoids) l).
  { intros mi Hi. apply (medoid_indices_row o M x y mi medoids Ho Hs); auto. rewrite Forall_forall in Hm. auto. }
  set (g := fun mi => match distances_with_matrix o y mi (map (encode_point y) medoids) with Ok l => l | Raise _ => [] end).
  assert (T : mapM (fun i => medoid <- getitem medoids i ;; distances <- distances_with_matrix o y medoid (map (encode_point y) medoids) ;; fill_row k distances)
                   (zrange 0 k) = Ok (map g medoids)).
  { rewrite (mapM_ok _ (fun i => g (nth (Z.to_nat i) medoids (0, 0)%Z))).
    - f_equal. apply nth_ext with (d := g (0, 0)%Z) (d' := g (0, 0)%Z); [ rewrite !map_length, zrange_length; unfold k; lia | ].
      intros n Hn. rewrite map_length, zrange_length in Hn.
      rewrite (map_nth g). rewrite nth_indep with (d' := (fun i => g (nth (Z.to_nat i) medoids (0, 0)%Z)) 0%Z) by (rewrite map_length, zrange_length; lia).
      rewrite map_nth with (f := fun i => g (nth (Z.to_nat i) medoids (0, 0)%Z)). f_equal. f_equal.
      rewrite (nth_error_nth (zrange 0 k) n 0%Z (x := Z.of_nat n)); [ lia | ]. rewrite zrange_nth by lia. f_equal.
    - intros i Hi. apply in_zrange in Hi. destruct (nth_error medoids (Z.to_nat i)) as [ mi | ] eqn:E.
      2:{ apply nth_error_None in E. unfold k in Hi. lia. }
      replace i with (Z.of_nat (Z.to_nat i)) at 1 by lia. rewrite (getitem_in _ _ _ E). cbn [bind].
      destruct (R mi (nth_error_In _ _ E)) as (l & El & Hl). rewrite (nth_error_nth _ _ (0, 0)%Z E). unfold g. rewrite El. cbn [bind].
      assert (length l = length medoids) by (apply forall2_same_length in Hl; rewrite map_length in Hl; congruence).
      unfold fill_row. replace (Z.of_nat (length l) =? k)%Z with true by (unfold k; lia). reflexivity. }
  unfold save_medoid_distances. rewrite T. cbn [bind]. eexists. split; [ | split ].
  - f_equal. f_equal. unfold index_header. f_equal. apply nth_ext with (d := FStr "") (d' := FStr ""); [ rewrite !map_length, zrange_length, seq_length; unfold k; lia | ].
    intros n Hn. rewrite map_length, zrange_length in Hn.
    rewrite (nth_error_nth (map (fun i => FStr (str_int i)) (zrange 0 k)) n (FStr "") (x := FStr (str_int (Z.of_nat n)))).
    2:{ rewrite nth_error_map, zrange_nth by lia. reflexivity. }
    rewrite (nth_error_nth (map _ (seq 0 (length medoids))) n (FStr "") (x := FStr (str_int (Z.of_nat n)))); [ reflexivity | ].
    rewrite nth_error_map, nth_error_seq. replace (n <? length medoids)%nat with true by (unfold k in Hn; lia). reflexivity.
  - rewrite map_length, enumerate_length, map_length. reflexivity.
  - intros i mi Hi. destruct (R mi (nth_error_In _ _ Hi)) as (l & El & Hl). exists l. split.
    + rewrite nth_error_map, nth_error_enumerate, nth_error_map, Hi. cbn [option_map]. unfold g. rewrite El. reflexivity.
    + unfold row_at in Hl. clear - Hl. revert l Hl. induction medoids as [ | m ms IH ]; cbn [map]; intros l H; inversion H; constructor; auto.
Qed.
Print Assumptions C108_medoid_table.

(** When the matrix is the one computed for the region, the cell of medoids i and j is the distance of their series;
    with a symmetric measure the table is symmetric, and the diagonal holds the distances of the medoids to themselves. *)
Theorem C108_distances_of_series : forall measure junk (d : arr3 fnum) o M medoids rows header, wf3 d ->
  matrix_of_region measure junk (TPlain d) = Ok M -> d_matrix o = Some M -> Forall (in_grid (a3x d) (a3y d)) medoids ->
  save_medoid_distances o (a3y d) (Z.of_nat (length medoids)) medoids = Ok (header :: rows) ->
  forall i j mi mj a b row, nth_error medoids i = Some mi -> nth_error medoids j = Some mj ->
    series_at (TPlain d) mi = Ok a -> series_at (TPlain d) mj = Ok b -> nth_error rows i = Some row ->
    nth_error row (S j) = Some (FNum 3 (measure a b)).
Proof.
  intros measure junk d o M medoids rows header Hw HM Ho Hm Hs i j mi mj a b row Hi Hj Ea Eb Hr.
  destruct (region_matrix measure junk d Hw) as (M' & EM & Hsq & Hent). assert (M' = M) by congruence. subst M'.
  destruct (C108_medoid_table o M _ _ medoids Ho Hsq Hm) as (rows' & E & _ & Hrow). rewrite E in Hs. injection Hs as _ <-.
  destruct (Hrow i mi Hi) as (values & Hv & HF). rewrite Hr in Hv. injection Hv as ->. cbn [nth_error].
  rewrite nth_error_map.
  assert (exists v, nth_error values j = Some v /\ entry M (index_of (a3y d) mi) (index_of (a3y d) mj) = Some v) as (v & Ev & Ee).
  { clear - HF Hj. revert j Hj. induction HF as [ | m v ms vs H HF IH ]; intros [ | j ] Hj; cbn [nth_error] in *; try discriminate.
    - injection Hj as <-. eauto.
    - apply IH. exact Hj. }
  rewrite Ev. cbn [option_map]. rewrite Forall_forall in Hm.
  rewrite (Hent mi mj a b) in Ee; [ congruence | | | assumption | assumption ]; apply Hm; eapply nth_error_In; eassumption.
Qed.
Print Assumptions C108_distances_of_series.

Theorem C108_symmetric : forall measure junk (d : arr3 fnum) o M medoids rows header, wf3 d ->
  matrix_of_region measure junk (TPlain d) = Ok M -> d_matrix o = Some M -> Forall (in_grid (a3x d) (a3y d)) medoids ->
  save_medoid_distances o (a3y d) (Z.of_nat (length medoids)) medoids = Ok (header :: rows) ->
  (forall a b, measure a b = measure b a) -> (forall a, measure a a = Fin 0) ->
  forall i j ri rj, nth_error rows i = Some ri -> nth_error rows j = Some rj ->
    nth_error ri (S j) = nth_error rj (S i) /\ nth_error ri (S i) = Some (FNum 3 (Fin 0)).
Proof.
  intros measure junk d o M medoids rows header Hw HM Ho Hm Hs Hsym H0 i j ri rj Ri Rj.
  destruct (region_matrix measure junk d Hw) as (M' & EM & Hsq & _). assert (M' = M) by congruence. subst M'.
  destruct (C108_medoid_table o M _ _ medoids Ho Hsq Hm) as (rows' & E & L & _). rewrite E in Hs. injection Hs as _ <-.
  assert (I : forall n r, nth_error rows' n = Some r -> exists m a, nth_error medoids n = Some m /\ series_at (TPlain d) m = Ok a).
  { intros n r Hn. assert (n < length medoids) by (rewrite <- L; apply nth_error_Some; congruence).
    destruct (nth_error medoids n) as [ m | ] eqn:Em; [ | apply nth_error_None in Em; lia ]. rewrite Forall_forall in Hm.
    destruct (ser_ok d m Hw (Hm m (nth_error_In _ _ Em))) as (a & Ea & _). exists m, a. auto. }
  destruct (I i ri Ri) as (mi & a & Hi & Ea). destruct (I j rj Rj) as (mj & b & Hj & Eb).
  pose proof (C108_distances_of_series measure junk d o M medoids rows' _ Hw HM Ho Hm E) as D.
  rewrite (D i j mi mj a b ri), (D j i mj mi b a rj), (D i i mi mi a a ri) by assumption. rewrite (Hsym a b), H0. auto.
Qed.
Print Assumptions C108_symmetric.

(** Nothing is written unless there is one medoid for each cluster. *)
Theorem C108_wrong_number_of_medoids : forall o M x y k medoids, d_matrix o = Some M -> square (x * y) M -> Forall (in_grid x y) medoids ->
  (0 < k)%Z -> k <> Z.of_nat (length medoids) -> exists e, save_medoid_distances o y k medoids = Raise e.
Proof.
  intros o M x y k medoids Ho Hs Hm Hk Hne. unfold save_medoid_distances.
  match goal with |- context [mapM ?f _] => set (f0 := f) end.
  assert (F : forall i e, (0 <= i < k)%Z -> f0 i = Raise e -> exists e, mapM f0 (zrange 0 k) = Raise e).
  { intros i e Hi He. destruct (mapM f0 (zrange 0 k)) as [ t | e' ] eqn:E; [ | eauto ]. exfalso.
    assert (In i (zrange 0 k)) as Hin by (apply in_zrange; lia).
    apply In_nth_error in Hin. destruct Hin as [ n Hn ]. destruct (mapM_nth _ _ _ E n i Hn) as (b & Hb & _). congruence. }
  assert (R : forall mi, In mi medoids -> exists l, distances_with_matrix o y mi (map (encode_point y) medoids) = Ok l /\ length l = length medoids).
  { intros mi Hi. destruct (medoid_indices_row o M x y mi medoids Ho Hs) as (l & E & H); auto. { rewrite Forall_forall in Hm. auto. }
    exists l. split; [ exact E | ]. apply forall2_same_length in H. rewrite map_length in H. congruence. }
  assert (exists i e, (0 <= i < k)%Z /\ f0 i = Raise e) as (i & e & Hi & He).
  { destruct medoids as [ | m0 [ | m1 ms ] ]; cbn [length] in Hne.
    - exists 0%Z, IndexError. split; [ lia | reflexivity ].
    - exists 1%Z, IndexError. split; [ lia | reflexivity ].
    - exists 0%Z, ValueError. split; [ lia | ]. unfold f0. change (getitem (m0 :: m1 :: ms) 0) with (@Ok point m0). cbn [bind].
      destruct (R m0) as (l & El & Ll); [ left; reflexivity | ]. rewrite El. cbn [bind]. unfold fill_row.
      cbn [length] in Ll. replace (Z.of_nat (length l) =? k)%Z with false by lia.
      destruct l as [ | v [ | w l ] ]; [ reflexivity | discriminate Ll | reflexivity ]. }
  destruct (F i e Hi He) as (e' & ->). cbn [bind]. eauto.
Qed.
Print Assumptions C108_wrong_number_of_medoids.

(* ---------------------------------------------------------------- C109 *)
Lemma members_iff : forall p x y c, valid_partition p x y ->
  forall pt, In pt (filter (has_lab p c) (grid x y)) <-> in_grid x y pt /\ label_at p pt c.
Proof.
  intros p x y c Hv pt. rewrite filter_In, in_grid_iff. split; intros [ Hg H ]; (split; [ exact Hg | ]); apply (has_lab_iff p x y c pt Hv Hg); exact H.
Qed.

(** The table of a cluster has one row for each point of the cluster, in the order of the grid: its position in the
    data set, its distance to the medoid, and the error of the medoid's model at that point. *)
Theorem C109_rows_of_a_cluster : forall P M (kind : model_kind P M) pdq_of env md o D smd c d sc p x y k med ap m f n et func err name home,
  qwf d sc -> a3x d = x -> a3y d = y -> n <= a3t d -> valid_partition p x y ->
  d_matrix o = Some D -> square (x * y) D ->
  in_grid x y med -> label_at p med k ->
  forecast_at kind ap d n med m (Ok f) -> get_error_func et = Ok func ->
  (forall pt, in_grid x y pt -> label_at p pt k -> error_of func d sc n f pt (err pt)) ->
  exists file,
    distance_vs_errors_for_cluster kind pdq_of env md (full2 x y (Some ap)) smd c (TCluster (qregion d sc) p k) name med n et home o =
      (Ok (path_join (solver_output_dir smd home) (distance_errors_filename c et name (pdq_of (cell_of m))), file), o) /\
    cluster_table (rm_region (sm_region smd)) x y p k D med err file.
Proof.
  intros P M kind pdq_of env md o D smd c d sc p x y k med ap m f n et func err name home Hq Hx Hy Hn Hv Ho HD Hmed Hlab (s0 & Es0 & Et & Ef) Efn Herr. subst x y.
  set (members := filter (has_lab p k) (grid (a3x d) (a3y d))).
  pose proof (members_iff p _ _ k Hv) as Hmem. fold members in Hmem.
  set (pc := Some (p, k)). assert (Hpc : pc_ok pc (a3x d) (a3y d)) by exact Hv.
  change (TCluster (qregion d sc) p k) with (creg d sc pc).
  destruct (c_split d sc pc n Hq Hn) as (d1 & d2 & Esp & Hq1 & Hq2 & _ & _ & X1 & Y1 & X2 & Y2 & Hs).
  assert (Hpm : forall pt, in_grid (a3x d) (a3y d) pt -> (pc_memb pc pt = true <-> label_at p pt k)) by (intros pt Hg; apply (has_lab_iff p _ _ k pt Hv Hg)).
  assert (Lmed : pc_memb pc med = true) by (apply Hpm; assumption).
  (* the points and their indices *)
  assert (Egm : filter (fun pt => (label_of p pt =? k)%Z) (grid (a3x d) (a3y d)) = members).
  { unfold members. apply filter_ext_in. intros pt Hin. apply in_grid_iff in Hin. symmetry. apply (has_lab_label_of p _ _ pt k Hv Hin). }
  destruct (all_point_indices_cluster p (qregion d sc) _ _ k Hv (q_x d sc) (q_y d sc)) as (ns & Ens & Hsort & Hns). rewrite Egm in Hns.
  assert (Hns' : ns = map (index_of (a3y d)) members).
  { rewrite Hns. apply map_ext_in. intros pt Hin. apply Hmem in Hin. destruct (index_of_encode _ _ _ (proj1 Hin)) as [ -> _ ]. apply Nat2Z.id. }
  destruct (row_ok (a3x d * a3y d) D (index_of (a3y d) med) ns HD) as [ Erow Hrow ].
  { apply (index_of_encode _ _ _ Hmed). }
  { intros j Hj. rewrite Hns' in Hj. apply in_map_iff in Hj. destruct Hj as (q & <- & Hqm). apply Hmem in Hqm. apply (index_of_encode _ _ _ (proj1 Hqm)). }
  set (dist := fun pt => entry_or D (index_of (a3y d) med) (index_of (a3y d) pt)).
  assert (Edist : distances_to_point env (creg d sc pc) md med ns true true o = (Ok (map dist members), o)).
  { unfold distances_to_point. cbn [negb]. rewrite Ho. unfold distances_to_point_with_matrix. rewrite Ho, c_y.
    destruct (index_of_encode _ _ _ Hmed) as [ -> _ ]. rewrite Erow. rewrite Hns', map_map. reflexivity. }
  (* training *)
  destruct (c_train kind ap d1 sc pc [med] (fun _ => m) Hq1) as (models & cnt & Etr & Hmod).
  { rewrite X1, Y1. exact Hpc. }
  { intros pt s Hg _ [ <- | [] ] Es. rewrite X1, Y1 in Hg. destruct (Hs med s0 Hg Es0) as [ E1 _ ]. assert (s = firstn (length s0 - n) s0) by congruence. subst s. exact Et. }
  rewrite X1, Y1 in *. specialize (Hmod med Hmed Lmed (or_introl eq_refl)).
  (* errors *)
  destruct (repeated_errors d1 d2 sc pc f et func None err Hq1 Hq2) as (E & EE & Eit & _); try congruence.
  { rewrite X2, Y2. intros pt s1 s2 Hg Hm E1 E2. destruct (Herr pt Hg) as (s & f' & a & b & Es & Hf & Ha & Hb & Hvv); [ apply Hpm; assumption | ].
    destruct (Hs pt s Hg Es) as [ E1' E2' ]. assert (s1 = firstn (length s - n) s) by congruence. assert (s2 = skipn (length s - n) s) by congruence. subst s1 s2. eauto 10. }
  rewrite X2, Y2 in Eit.
  pose proof (proper_items _ (c_proper d sc pc Hq Hpc)) as Epts.
  rewrite c_x, c_y in Epts.
  rewrite (filter_ext (t_memb (creg d sc pc)) (has_lab p k)) in Epts by (intros; apply c_memb). fold members in Epts.
  eexists. split; [ | exists members, dist; split; [ reflexivity | split; [ exact Hmem | split ] ] ].
  - unfold distance_vs_errors_for_cluster. rewrite Esp. cbv zeta. change (all_point_indices (TCluster (qregion d sc) p k)) with (all_point_indices (creg d sc pc)) in Ens.
    rewrite Ens. cbv iota. rewrite Edist. cbn [bind]. rewrite Etr. cbn [bind fst]. rewrite Hmod. cbn [bind]. rewrite forecast_cell, Ef. cbn [bind].
    rewrite c_series_at by (rewrite ?X2, ?Y2; assumption). destruct (Hs med s0 Hmed Es0) as [ _ E2 ]. rewrite E2. cbn [bind].
    rewrite EE. cbn [bind]. rewrite Eit. cbn [bind]. rewrite Epts. cbn [bind].
    rewrite (enumerate_rows _ (fun it : point * list fnum => [FPt (absolute_position_of_point (rm_region (sm_region smd)) (fst it)); FNum 3 (dist (fst it)); FNum 3 (err (fst it))])).
    + cbn [bind]. rewrite map_map. reflexivity.
    + intros i [ pt s ] Hi. rewrite nth_error_map in Hi. destruct (nth_error members i) as [ q | ] eqn:Eq; [ | discriminate ]. cbn [option_map] in Hi. injection Hi as -> _.
      rewrite (getitem_map dist _ _ _ Eq). cbn [bind]. rewrite map_map. cbn [snd]. change (filter (pc_memb pc) (grid (a3x d) (a3y d))) with members.
      rewrite (getitem_map (fun q => err q) _ _ _ Eq). reflexivity.
  - rewrite <- Hns'. exact Hsort.
  - intros pt Hin. rewrite Hns' in Hrow. unfold row_at in Hrow. unfold dist.
    clear - Hrow Hin. induction members as [ | q l IH ]; [ destruct Hin | ]. cbn [map] in Hrow. inversion Hrow; subst. destruct Hin as [ <- | Hin ]; auto.
Qed.
Print Assumptions C109_rows_of_a_cluster.

(** The program writes one file for each cluster, in the order of the clusters; no file replaces another. *)
Theorem C109_one_file_per_cluster : forall P M (kind : model_kind P M) pdq_of env md o D smd c d sc p x y medoids ap (mo : nat -> option M) fo n et func err home,
  qwf d sc -> a3x d = x -> a3y d = y -> n <= a3t d -> valid_partition p x y ->
  d_matrix o = Some D -> square (x * y) D -> get_error_func et = Ok func ->
  Z.of_nat (length medoids) = pk p ->
  (forall i med, nth_error medoids i = Some med ->
     in_grid x y med /\ label_at p med (Z.of_nat i) /\ forecast_at kind ap d n med (mo i) (Ok (fo i)) /\
     forall pt, in_grid x y pt -> label_at p pt (Z.of_nat i) -> error_of func d sc n (fo i) pt (err pt)) ->
  exists files, distance_errors kind pdq_of env md (full2 x y (Some ap)) smd c p medoids (qregion d sc) n et home o = (files, None) /\
    length files = length medoids /\ NoDup (map fst files) /\
    forall i med, nth_error medoids i = Some med ->
      exists path file, nth_error files i = Some (path, file) /\
        path = path_join (solver_output_dir smd home) (distance_errors_filename c et ("cluster" ++ str_int (Z.of_nat i)) (pdq_of (cell_of (mo i)))) /\
        cluster_table (rm_region (sm_region smd)) x y p (Z.of_nat i) D med err file.
Proof.
  intros P M kind pdq_of env md o D smd c d sc p x y medoids ap mo fo n et func err home Hq Hx Hy Hn Hv Ho HD Ef Hk H.
  set (cl := fun i : nat => TCluster (qregion d sc) p (Z.of_nat i)).
  set (path := fun i : nat => path_join (solver_output_dir smd home) (distance_errors_filename c et ("cluster" ++ str_int (Z.of_nat i)) (pdq_of (cell_of (mo i))))).
  assert (L : forall ms i0, (forall i med, nth_error ms i = Some med -> nth_error medoids (i0 + i) = Some med) ->
    exists files, distance_errors_loop kind pdq_of env md (full2 x y (Some ap)) smd c (map (fun '(i, med) => (Z.of_nat i, cl i, med)) (combine (seq i0 (length ms)) ms)) n et home o = (files, None) /\
      map fst files = map path (seq i0 (length ms)) /\
      forall i med, nth_error ms i = Some med -> exists file, nth_error files i = Some (path (i0 + i), file) /\
        cluster_table (rm_region (sm_region smd)) x y p (Z.of_nat (i0 + i)) D med err file).
  { induction ms as [ | med ms IH ]; intros i0 Hms.
    - exists []. split; [ reflexivity | ]. split; [ reflexivity | ]. intros [ | i ] med E; discriminate E.
    - destruct (H i0 med) as (Hg & Hl & Hf & Her). { rewrite <- (Nat.add_0_r i0). apply Hms. reflexivity. }
      destruct (C109_rows_of_a_cluster P M kind pdq_of env md o D smd c d sc p x y (Z.of_nat i0) med ap (mo i0) (fo i0) n et func err ("cluster" ++ str_int (Z.of_nat i0)) home
                  Hq Hx Hy Hn Hv Ho HD Hg Hl Hf Ef Her) as (file & E & T).
      destruct (IH (S i0)) as (files & E' & Ep & T'). { intros i m Hi. replace (S i0 + i) with (i0 + S i) by lia. apply Hms. exact Hi. }
      exists ((path i0, file) :: files). split; [ | split ].
      + cbn [length seq combine map distance_errors_loop]. unfold cl at 1. rewrite E. rewrite E'. reflexivity.
      + cbn [length seq map fst]. rewrite Ep. reflexivity.
      + intros [ | i ] m Hi; cbn [nth_error] in *.
        * injection Hi as <-. exists file. rewrite Nat.add_0_r. auto.
        * replace (i0 + S i) with (S i0 + i) by lia. apply T'. exact Hi. }
  destruct (L medoids 0 (fun i med E => E)) as (files & E & Ep & T).
  exists files. split; [ | split; [ | split ] ].
  - unfold distance_errors.
    assert (Em : mapM (fun i => cluster <- create_spt_cluster p (qregion d sc) i ;; centroid <- getitem medoids i ;; Ok (i, cluster, centroid)) (zrange 0 (pk p)) =
                 Ok (map (fun '(i, med) => (Z.of_nat i, cl i, med)) (combine (seq 0 (length medoids)) medoids))).
    { pose proof Hv as (Lx & Ly & _).
      rewrite (mapM_ok _ (fun i => (i, TCluster (qregion d sc) p i, nth (Z.to_nat i) medoids (0, 0)%Z))).
      - f_equal. rewrite <- Hk. assert (Z : forall (ms pre : list point) i0, medoids = app pre ms -> i0 = length pre -> 
          map (fun i => (i, TCluster (qregion d sc) p i, nth (Z.to_nat i) medoids (0, 0)%Z)) (map Z.of_nat (seq i0 (length ms))) =
          map (fun '(i, med) => (Z.of_nat i, cl i, med)) (combine (seq i0 (length ms)) ms)).
        { induction ms as [ | m ms IH ]; intros pre i0 Epre El; [ reflexivity | ]. cbn [length seq map combine]. f_equal.
          - unfold cl. rewrite Nat2Z.id, Epre, El, app_nth2, Nat.sub_diag by lia. reflexivity.
          - apply (IH (app pre [m])); [ rewrite <- app_assoc; exact Epre | rewrite app_length; cbn; lia ]. }
        rewrite <- (Z medoids [] 0 eq_refl eq_refl). f_equal. apply nth_ext with (d := 0%Z) (d' := 0%Z); [ rewrite zrange_length, map_length, seq_length; lia | ].
        intros j Hj. rewrite zrange_length in Hj. rewrite (nth_error_nth (zrange 0 _) j 0%Z (x := Z.of_nat j)); [ | rewrite zrange_nth by lia; f_equal; lia ].
        rewrite (nth_error_nth _ j 0%Z (x := Z.of_nat j)); [ reflexivity | ]. rewrite nth_error_map, nth_error_seq. replace (j <? length medoids)%nat with true by lia. reflexivity.
      - intros i Hi. apply in_zrange in Hi. unfold create_spt_cluster. rewrite q_x, q_y, Lx, Ly, Hx, Hy, !Nat.eqb_refl. cbn [andb bind].
        destruct (nth_error medoids (Z.to_nat i)) as [ m | ] eqn:Eg; [ | apply nth_error_None in Eg; lia ].
        assert (Eg' : getitem medoids i = Ok m) by (replace i with (Z.of_nat (Z.to_nat i)) by lia; apply getitem_in; exact Eg). rewrite Eg'. cbn [bind]. rewrite (nth_error_nth _ _ (0, 0)%Z Eg). reflexivity. }
    rewrite Em. exact E.
  - rewrite <- (map_length fst files), Ep, map_length, seq_length. reflexivity.
  - rewrite Ep. apply FinFun.Injective_map_NoDup; [ | apply seq_NoDup ]. intros i j Eij. unfold path in Eij.
    destruct (path_join_dir (solver_output_dir smd home)) as (pre & Epre). unfold distance_errors_filename in Eij.
    destruct (pdq_of (cell_of (mo i))) as [ [ a1 a2 ] a3 ], (pdq_of (cell_of (mo j))) as [ [ b1 b2 ] b3 ].
    rewrite !Epre in Eij by (cbn; intros; discriminate). apply sapp_inj_l in Eij. apply (sapp_inj_l "dist-error__") in Eij. apply sapp_inj_l in Eij.
    apply (sapp_inj_l "__") in Eij. apply sapp_inj_l in Eij. apply (sapp_inj_l "__") in Eij. rewrite !sapp_assoc in Eij. apply (sapp_inj_l "cluster") in Eij.
    apply str_int_prefix in Eij; [ | reflexivity | reflexivity ]. lia.
  - intros i med Hi. destruct (T i med Hi) as (file & E1 & E2). exists (path i), file. auto.
Qed.
Print Assumptions C109_one_file_per_cluster.

(* ---------------------------------------------------------------- C110 *)
Lemma errors_row_ok : forall P M (kind : model_kind P M) d1 d2 sc models i med medoids m f n et func err,
  qwf d1 sc -> qwf d2 sc -> a3x d1 = a3x d2 -> a3y d1 = a3y d2 -> get_error_func et = Ok func ->
  Forall (in_grid (a3x d2) (a3y d2)) medoids ->
  get2 models (fst med) (snd med) = Ok (cell_of m) -> forecast_by kind m n = Ok f ->
  (forall pt s1 s2, in_grid (a3x d2) (a3y d2) pt -> series3 d1 (fst pt) (snd pt) = Ok s1 -> series3 d2 (fst pt) (snd pt) = Ok s2 ->
     exists f' s1' s2', shown sc pt f f' /\ shown sc pt s1 s1' /\ shown sc pt s2 s2' /\ func f' s2' (Some s1') = Ok (err pt)) ->
  errors_row kind (ErrorAnalysis (qregion d2 sc) (Some (qregion d1 sc)) None) models i med medoids n et = Ok (FStr (str_int i) :: map (fun pt => FNum 3 (err pt)) medoids).
Proof.
  intros P M kind d1 d2 sc models i med medoids m f n et func err Hq1 Hq2 X Y Ef Hm Hg Hf He.
  destruct (repeated_errors d1 d2 sc None f et func None err Hq1 Hq2 X Y I Ef) as (E & EE & _ & Hv); [ intros pt s1 s2 Hp _; apply He; exact Hp | ].
  unfold errors_row. rewrite Hg. cbn [bind]. rewrite forecast_cell, Hf. cbn [bind]. cbn [creg] in EE. rewrite EE. cbn [bind].
  rewrite (mapM_ok _ err).
  - cbn [bind]. unfold indexed_row. rewrite map_map. reflexivity.
  - intros pt Hin. apply Hv; [ | reflexivity ]. rewrite Forall_forall in Hm. auto.
Qed.

Lemma between_medoids : forall P M (kind : model_kind P M) d sc x y k medoids ap (mo : point -> option M) fo n et func err before after rest,
  qwf d sc -> a3x d = x -> a3y d = y -> n <= a3t d -> get_error_func et = Ok func ->
  Forall (in_grid x y) medoids ->
  (forall med, In med medoids -> forecast_at kind ap d n med (mo med) (fo med)) ->
  medoids = app before after ->
  (forall med, In med before -> exists f, fo med = Ok f /\ forall pt, in_grid x y pt -> error_of func d sc n f pt (err med pt)) ->
  rest = match after with [] => None | bad :: _ => Some bad end ->
  (forall bad, rest = Some bad -> exists e, fo bad = Raise e) ->
  error_between_medoids kind (full2 x y (Some ap)) k (qregion d sc) medoids n et =
    (Some (index_header "cluster" k ::
           map (fun '(i, mi) => FStr (str_int (Z.of_nat i)) :: map (fun mj => FNum 3 (err mi mj)) medoids) (enumerate before)),
     match rest with Some bad => match fo bad with Raise e => Some e | Ok _ => None end | None => None end).
Proof.
  intros P M kind d sc x y k medoids ap mo fo n et func err before after rest Hq Hx Hy Hn Ef Hm Hfo Hsplit Hbefore Hrest Hbad. subst x y.
  destruct (c_split d sc None n Hq Hn) as (d1 & d2 & Esp & Hq1 & Hq2 & _ & _ & X1 & Y1 & X2 & Y2 & Hs). cbn [creg] in Esp.
  unfold error_between_medoids. rewrite Esp.
  assert (Hin : forall med, In med medoids -> in_grid (a3x d) (a3y d) med) by (rewrite Forall_forall in Hm; exact Hm).
  destruct (c_train kind ap d1 sc None medoids mo Hq1 I) as (models & cnt & Etr & Hmod).
  { intros pt s Hg _ Hp Es. destruct (Hfo pt Hp) as (s0 & Es0 & Et & _). destruct (Hs pt s0 (Hin pt Hp) Es0) as [ E1 _ ].
    assert (s = firstn (length s0 - n) s0) by congruence. subst s. exact Et. }
  rewrite X1, Y1 in Etr, Hmod. cbn [creg] in Etr. rewrite Etr.
  assert (R : forall l i0, incl l before ->
    map (fun '(i, medoid) => errors_row kind (ErrorAnalysis (qregion d2 sc) (Some (qregion d1 sc)) None) models (Z.of_nat i) medoid medoids n et) (combine (seq i0 (length l)) l) =
    map Ok (map (fun '(i, mi) => FStr (str_int (Z.of_nat i)) :: map (fun mj => FNum 3 (err mi mj)) medoids) (combine (seq i0 (length l)) l))).
  { induction l as [ | mi l IH ]; intros i0 Hl; [ reflexivity | ]. cbn [length seq combine map]. rewrite IH by (intros a Ha; apply Hl; right; exact Ha). f_equal.
    assert (Hb : In mi before) by (apply Hl; left; reflexivity). destruct (Hbefore mi Hb) as (f & Efo & Herr).
    assert (Hmi : In mi medoids) by (rewrite Hsplit; apply in_or_app; left; exact Hb).
    destruct (Hfo mi Hmi) as (s0 & Es0 & _ & Hf). rewrite Efo in Hf.
    apply (errors_row_ok P M kind d1 d2 sc models (Z.of_nat i0) mi medoids (mo mi) f n et func (err mi)); try (rewrite ?X2, ?Y2; assumption); try congruence; auto.
    - rewrite X2, Y2. intros pt s1 s2 Hg E1 E2. destruct (Herr pt Hg) as (s & f' & a & b & Es & Hff & Ha & Hb' & Hvv).
      destruct (Hs pt s Hg Es) as [ E1' E2' ]. assert (s1 = firstn (length s - n) s) by congruence. assert (s2 = skipn (length s - n) s) by congruence. subst s1 s2. eauto 10. }
  assert (En : forall (A : Type) (l1 l2 : list A), enumerate (app l1 l2) = app (enumerate l1) (combine (seq (length l1) (length l2)) l2)).
  { intros A l1 l2. unfold enumerate. assert (G : forall j, combine (seq j (length (app l1 l2))) (app l1 l2) = app (combine (seq j (length l1)) l1) (combine (seq (j + length l1) (length l2)) l2)).
    { induction l1 as [ | a l1 IH ]; intros j; cbn [app length seq combine]; [ rewrite Nat.add_0_r; reflexivity | ].
      f_equal. replace (j + S (length l1)) with (S j + length l1) by lia. apply IH. }
    apply (G 0). }
  replace (enumerate medoids) with (enumerate (app before after)) by (rewrite <- Hsplit; reflexivity). rewrite En, map_app. unfold enumerate at 1. rewrite (R before 0 (incl_refl _)), append_rows_app.
  fold (enumerate before). cbn [app].
  destruct after as [ | bad after ]; cbn [length seq combine map append_rows].
  - subst rest. reflexivity.
  - subst rest. destruct (Hbad bad eq_refl) as (e & Ebad). rewrite Ebad.
    assert (Hb : In bad medoids) by (rewrite Hsplit; apply in_or_app; right; left; reflexivity).
    destruct (Hfo bad Hb) as (s0 & _ & _ & Hf). unfold errors_row at 1. rewrite Hmod by auto. cbn [bind]. rewrite forecast_cell, Hf, Ebad. cbn [bind append_rows]. reflexivity.
Qed.

(** Row i, column j of the table is the error at medoid j of the forecast of the model trained at medoid i. *)
Theorem C110_errors_between_medoids : forall P M (kind : model_kind P M) d sc x y k medoids ap (mo : point -> option M) fo n et func err,
  qwf d sc -> a3x d = x -> a3y d = y -> n <= a3t d -> get_error_func et = Ok func ->
  Forall (in_grid x y) medoids ->
  (forall med, In med medoids -> forecast_at kind ap d n med (mo med) (Ok (fo med)) /\
     forall pt, in_grid x y pt -> error_of func d sc n (fo med) pt (err med pt)) ->
  exists header rows,
    error_between_medoids kind (full2 x y (Some ap)) k (qregion d sc) medoids n et = (Some (header :: rows), None) /\
    length header = S (Z.to_nat k) /\ length rows = length medoids /\
    forall i mi, nth_error medoids i = Some mi -> exists row, nth_error rows i = Some row /\
      nth_error row 0 = Some (FStr (str_int (Z.of_nat i))) /\ length row = S (length medoids) /\
      forall j mj, nth_error medoids j = Some mj -> nth_error row (S j) = Some (FNum 3 (err mi mj)).
Proof.
  intros P M kind d sc x y k medoids ap mo fo n et func err Hq Hx Hy Hn Ef Hm H.
  eexists _, _. split; [ | split; [ | split ] ].
  - apply (between_medoids P M kind d sc x y k medoids ap mo (fun m => Ok (fo m)) n et func err medoids [] None); auto.
    + intros med Hin. apply (H med Hin).
    + rewrite app_nil_r. reflexivity.
    + intros med Hin. exists (fo med). split; [ reflexivity | apply (H med Hin) ].
    + discriminate.
  - unfold index_header. cbn [length]. rewrite map_length, zrange_length. f_equal. lia.
  - rewrite map_length, enumerate_length. reflexivity.
  - intros i mi Hi. eexists. split; [ rewrite nth_error_map, nth_error_enumerate, Hi; reflexivity | ]. split; [ reflexivity | ].
    split; [ cbn [length]; rewrite map_length; reflexivity | ]. intros j mj Hj. cbn [nth_error]. rewrite nth_error_map, Hj. reflexivity.
Qed.
Print Assumptions C110_errors_between_medoids.

(** When the model of a medoid cannot forecast, the program ends with that exception and the file holds the header and
    the complete rows of the medoids before it, which are the rows it would have held otherwise. *)
Theorem C110_rows_before_a_failure : forall P M (kind : model_kind P M) d sc x y k before bad after ap (mo : point -> option M) fo n et func err e,
  let medoids := app before (bad :: after) in
  qwf d sc -> a3x d = x -> a3y d = y -> n <= a3t d -> get_error_func et = Ok func ->
  Forall (in_grid x y) medoids ->
  (forall med, In med medoids -> forecast_at kind ap d n med (mo med) (fo med)) ->
  (forall med, In med before -> exists f, fo med = Ok f /\ forall pt, in_grid x y pt -> error_of func d sc n f pt (err med pt)) ->
  fo bad = Raise e ->
  exists header rows,
    error_between_medoids kind (full2 x y (Some ap)) k (qregion d sc) medoids n et = (Some (header :: rows), Some e) /\
    length header = S (Z.to_nat k) /\ length rows = length before /\
    forall i mi, nth_error before i = Some mi ->
      nth_error rows i = Some (FStr (str_int (Z.of_nat i)) :: map (fun mj => FNum 3 (err mi mj)) medoids).
Proof.
  intros P M kind d sc x y k before bad after ap mo fo n et func err e medoids Hq Hx Hy Hn Ef Hm Hf Hb Hbad.
  eexists _, _. split; [ | split; [ | split ] ].
  - rewrite (between_medoids P M kind d sc x y k medoids ap mo fo n et func err before (bad :: after) (Some bad)); auto.
    + rewrite Hbad. reflexivity.
    + intros b [= <-]. eauto.
  - unfold index_header. cbn [length]. rewrite map_length, zrange_length. f_equal. lia.
  - rewrite map_length, enumerate_length. reflexivity.
  - intros i mi Hi. rewrite nth_error_map, nth_error_enumerate, Hi. reflexivity.
Qed.
Print Assumptions C110_rows_before_a_failure.

(* ---------------------------------------------------------------- C111 *)
Lemma flat_map_nth : forall {A B} (g : A -> list B) s l n, (forall a, In a l -> length (g a) = s) ->
  nth_error (flat_map g l) n = match nth_error l (n / s) with Some a => nth_error (g a) (n mod s) | None => None end.
Proof.
  intros A B g s l. induction l as [ | a l IH ]; intros n H.
  - cbn. destruct (n / s), n; reflexivity.
  - cbn [flat_map]. pose proof (H a (or_introl eq_refl)) as Ha. destruct (lt_dec n (length (g a))) as [ Hlt | Hge ].
    + rewrite nth_error_app1 by exact Hlt. rewrite Ha in Hlt. rewrite Nat.div_small, Nat.mod_small by exact Hlt. reflexivity.
    + rewrite nth_error_app2 by lia. rewrite Ha in *. rewrite IH by (intros b Hb; apply H; right; exact Hb).
      destruct s as [ | s ].
      * cbn. rewrite Nat.sub_0_r. destruct l as [ | b l ]; [ cbn in *; destruct n, (g a); cbn in *; try reflexivity; discriminate | ].
        cbn [nth_error]. rewrite (proj2 (nth_error_None (g b) n)), (proj2 (nth_error_None (g a) n)); [ reflexivity | | ]; [ lia | ].
        rewrite (H b (or_intror (or_introl eq_refl))). lia.
      * assert (E1 : n / S s = S ((n - S s) / S s)) by (replace n with (n - S s + 1 * S s) at 1 by lia; rewrite Nat.div_add by lia; lia).
        assert (E2 : n mod S s = (n - S s) mod S s) by (replace n with (n - S s + 1 * S s) at 1 by lia; rewrite Nat.mod_add by lia; reflexivity).
        rewrite E1, E2. reflexivity.
Qed.

Lemma flat_map_len : forall {A B} (g : A -> list B) s l, (forall a, In a l -> length (g a) = s) -> length (flat_map g l) = length l * s.
Proof.
  intros A B g s l H. induction l as [ | a l IH ]; [ reflexivity | ]. cbn [flat_map length]. rewrite app_length, IH, (H a (or_introl eq_refl)) by (intros b Hb; apply H; right; exact Hb).
  reflexivity.
Qed.

(** The table has one row for each cluster and each order, clusters first: row i * s + j is what the analysis of cluster i
    with the order j gives.  An analysis that fails ends the program: the file then holds exactly the rows of all earlier
    analyses. *)
Theorem C111_training_error_table : forall p x y k suite analysis, valid_partition p x y -> (k <= pk p)%Z ->
  let s := length suite in
  exists rows outcome,
    training_error_analysis p k suite analysis =
      (map FStr ["cluster"; "size"; "p"; "d"; "q"; "failed"; "t_forecast"; "t_elapsed"; "error_each"; "error_min"; "error_min_local"; "error_medoid"; "error_max"] :: rows, outcome) /\
    (forall r row, nth_error rows r = Some row ->
       exists pp dd qq result members, nth_error suite (r mod s) = Some (pp, dd, qq) /\
         analysis (Z.of_nat (r / s)) (pp, dd, qq) = Ok result /\
         NoDup members /\ (forall pt, In pt members <-> in_grid x y pt /\ label_at p pt (Z.of_nat (r / s))) /\
         row = [FInt (Z.of_nat (r / s)); FInt (Z.of_nat (length members)); FInt pp; FInt dd; FInt qq; FInt (Z.of_nat (ex_failed result));
                FNum 3 (ex_forecast_time result); FNum 3 (ex_compute_time result); FNum 3 (fe_each (ex_errors result));
                FNum 3 (fe_minimum (ex_errors result)); FNum 3 (fe_min_local (ex_errors result)); FNum 3 (fe_centroid (ex_errors result));
                FNum 3 (fe_maximum (ex_errors result))]) /\
    match outcome with
    | None => length rows = Z.to_nat k * s
    | Some e => let r := length rows in r < Z.to_nat k * s /\
        exists params, nth_error suite (r mod s) = Some params /\ analysis (Z.of_nat (r / s)) params = Raise e
    end.
Proof.
  intros p x y k suite analysis Hv Hk s.
  set (g := fun i => map (fun params => x <- analysis i params ;; Ok (cluster_result_row i (cluster_len p i) params x)) suite).
  assert (E0 : training_error_analysis p k suite analysis = append_rows (flat_map g (zrange 0 k)) [cluster_result_header]).
  { unfold training_error_analysis. f_equal. rewrite !flat_map_concat_map. f_equal. apply map_ext_in. intros i Hi. apply in_zrange in Hi.
    replace (i <? pk p)%Z with true by lia. reflexivity. }
  assert (Hlen : forall i, In i (zrange 0 k) -> length (g i) = s) by (intros i _; unfold g; apply map_length).
  assert (Hnth : forall r v, nth_error (flat_map g (zrange 0 k)) r = Some v -> exists params, nth_error suite (r mod s) = Some params /\
             v = (x <- analysis (Z.of_nat (r / s)) params ;; Ok (cluster_result_row (Z.of_nat (r / s)) (cluster_len p (Z.of_nat (r / s))) params x))).
  { intros r v Hr. rewrite (flat_map_nth g s _ r Hlen) in Hr. destruct (nth_error (zrange 0 k) (r / s)) as [ i | ] eqn:Ei; [ | discriminate ].
    assert (Hi : r / s < length (zrange 0 k)) by (apply nth_error_Some; congruence). rewrite zrange_length in Hi.
    rewrite zrange_nth in Ei by (clear - Hi; revert Hi; generalize (r / s); intros; lia). injection Ei as <-. unfold g in Hr. rewrite nth_error_map in Hr.
    destruct (nth_error suite (r mod s)) as [ params | ]; [ | discriminate ]. cbn [option_map] in Hr. injection Hr as <-. exists params. split; [ reflexivity | ].
    reflexivity. }
  assert (Hrows : forall done more, flat_map g (zrange 0 k) = app (map Ok done) more -> forall r row, nth_error done r = Some row ->
       exists pp dd qq result members, nth_error suite (r mod s) = Some (pp, dd, qq) /\
         analysis (Z.of_nat (r / s)) (pp, dd, qq) = Ok result /\
         NoDup members /\ (forall pt, In pt members <-> in_grid x y pt /\ label_at p pt (Z.of_nat (r / s))) /\
         row = [FInt (Z.of_nat (r / s)); FInt (Z.of_nat (length members)); FInt pp; FInt dd; FInt qq; FInt (Z.of_nat (ex_failed result));
                FNum 3 (ex_forecast_time result); FNum 3 (ex_compute_time result); FNum 3 (fe_each (ex_errors result));
                FNum 3 (fe_minimum (ex_errors result)); FNum 3 (fe_min_local (ex_errors result)); FNum 3 (fe_centroid (ex_errors result));
                FNum 3 (fe_maximum (ex_errors result))]).
  { intros done more Ed r row Hr. destruct (Hnth r (Ok row)) as ([ [ pp dd ] qq ] & Es & Ev).
    { rewrite Ed, nth_error_app1, nth_error_map, Hr; [ reflexivity | ]. rewrite map_length. apply nth_error_Some. congruence. }
    destruct (analysis (Z.of_nat (r / s)) (pp, dd, qq)) as [ result | e ] eqn:Ea; cbn [bind] in Ev; [ | discriminate ]. injection Ev as ->.
    exists pp, dd, qq, result, (filter (has_lab p (Z.of_nat (r / s))) (grid x y)). split; [ exact Es | split; [ exact Ea | split; [ apply NoDup_filter, grid_nodup | split; [ exact (members_iff p x y _ Hv) | ] ] ] ].
    - unfold cluster_result_row. rewrite (cluster_len_spec p x y _ Hv).
      rewrite (filter_ext_in _ (has_lab p (Z.of_nat (r / s))) (grid x y)); [ reflexivity | ].
      intros pt Hin. apply in_grid_iff in Hin. symmetry. apply (has_lab_label_of p _ _ pt _ Hv Hin). }
  destruct (append_rows_cases (flat_map g (zrange 0 k)) [cluster_result_header]) as (done & [ [ E Ed ] | (e & more & E & Ed) ]); exists done.
  - exists None. split; [ rewrite E0, E; reflexivity | ]. split; [ apply (Hrows done []); rewrite app_nil_r; exact Ed | ].
    rewrite <- (map_length Ok done). rewrite <- Ed. rewrite (flat_map_len g s _ Hlen), zrange_length. f_equal. lia.
  - exists (Some e). split; [ rewrite E0, E; reflexivity | ]. split; [ apply (Hrows done (Raise e :: more)); exact Ed | ].
    assert (Hr : nth_error (flat_map g (zrange 0 k)) (length done) = Some (Raise e)).
    { rewrite Ed, nth_error_app2; rewrite map_length; [ | lia ]. rewrite Nat.sub_diag. reflexivity. }
    split.
    + assert (length done < length (flat_map g (zrange 0 k))) by (apply nth_error_Some; congruence).
      rewrite (flat_map_len g s _ Hlen), zrange_length in H. replace (Z.to_nat k) with (Z.to_nat (k - 0)) by lia. exact H.
    + destruct (Hnth _ _ Hr) as (params & Es & Ev). exists params. split; [ exact Es | ].
      destruct (analysis _ params); cbn [bind] in Ev; congruence.
Qed.
Print Assumptions C111_training_error_table.

(* ---------------------------------------------------------------- names without the forecast length *)
Definition ex_d : arr3 fnum := mk3 4 1 3 (map (fun z => Fin (inject_Z z)) [1; 10; 2; 3; 20; 2; 5; 30; 4; 7; 40; 6]%Z).
Definition ex_sc : option (arr2 fnum * arr2 fnum) := Some (mk2 1 3 [Fin 0; Fin 100; Fin 0], mk2 1 3 [Fin 10; Fin 300; Fin 1]).
Definition ex_p : crisp := Crisp (mk2 1 3 [0; 1; 0]%Z) 2.
Definition ex_medoids : list point := [(0, 2); (0, 1)]%Z.
Definition ex_D : mat := Mat 3 [[Fin 0; Fin 4; Fin 10]; [Fin 4; Fin 0; Fin 6]; [Fin 10; Fin 6; Fin 0]].
Definition ex_o : dobj := DObj PlainDTW (Some ex_D) false.
Definition ex_env : denv := DEnv (fun _ => Raise IOError) (fun _ _ => NaN) (fun _ _ => NaN) NaN.
Definition ex_smd (n : Z) : smeta := SMeta (RMeta "ex" (Rect 40 41 80 83) 2015 2015 1 true "raw") (PAutoArima 1 1 3 3 None true) n "MSE" (SClustering (CRegular 2) "dtw").
Definition ex_files (n : nat) := distance_errors mean_kind (fun _ => (1, 0, 1)%Z) ex_env None (full2 1 3 (Some 1%Z)) (ex_smd (Z.of_nat n)) (CRegular 2) ex_p ex_medoids (qregion ex_d ex_sc) n "MSE" "outputs" ex_o.

(** Two runs that differ only in the forecast length write to the same files, so the second replaces the tables of the first. *)
Theorem C109_forecast_length_in_name_refuted : ~ (forall P M (kind : model_kind P M) pdq_of env md params smd smd' c p medoids r n n' et home o files files',
  sm_region smd = sm_region smd' -> sm_params smd = sm_params smd' -> sm_error smd = sm_error smd' -> sm_kind smd = sm_kind smd' ->
  sm_test_len smd = Z.of_nat n -> sm_test_len smd' = Z.of_nat n' ->
  distance_errors kind pdq_of env md params smd c p medoids r n et home o = (files, None) ->
  distance_errors kind pdq_of env md params smd' c p medoids r n' et home o = (files', None) ->
  forall path file file', In (path, file) files -> In (path, file') files' -> file = file').
Proof.
  intros H.
  destruct (ex_files 1) as [ files e ] eqn:E1. destruct (ex_files 2) as [ files' e' ] eqn:E2.
  assert (e = None) by (vm_compute in E1; injection E1 as _ <-; reflexivity). assert (e' = None) by (vm_compute in E2; injection E2 as _ <-; reflexivity). subst e e'.
  pose proof (H Z fnum mean_kind (fun _ => (1, 0, 1)%Z) ex_env None (full2 1 3 (Some 1%Z)) (ex_smd 1) (ex_smd 2) (CRegular 2) ex_p ex_medoids (qregion ex_d ex_sc) 1 2 "MSE" "outputs" ex_o files files'
    eq_refl eq_refl eq_refl eq_refl eq_refl eq_refl E1 E2) as H'.
  vm_compute in E1, E2. injection E1 as <-. injection E2 as <-.
  specialize (H' _ _ _ (or_introl eq_refl) (or_introl eq_refl)). discriminate H'.
Qed.
Print Assumptions C109_forecast_length_in_name_refuted.

(** The same holds for the table of the errors between medoids: its path does not depend on the forecast length. *)
Theorem C110_forecast_length_in_name_refuted : ~ (forall P M (kind : model_kind P M) params smd smd' c k medoids r n n' et home file file',
  sm_region smd = sm_region smd' -> sm_params smd = sm_params smd' -> sm_error smd = sm_error smd' -> sm_kind smd = sm_kind smd' ->
  sm_test_len smd = Z.of_nat n -> sm_test_len smd' = Z.of_nat n' ->
  error_between_medoids kind params k r medoids n et = (Some file, None) -> error_between_medoids kind params k r medoids n' et = (Some file', None) ->
  path_join (solver_output_dir smd home) (between_medoids_filename c et) = path_join (solver_output_dir smd' home) (between_medoids_filename c et) ->
  file = file').
Proof.
  intros H. pose proof (H Z fnum mean_kind (full2 1 3 (Some 1%Z)) (ex_smd 1) (ex_smd 2) (CRegular 2) 2%Z ex_medoids (qregion ex_d ex_sc) 1 2 "MSE" "outputs") as H'.
  destruct (error_between_medoids mean_kind (full2 1 3 (Some 1%Z)) 2 (qregion ex_d ex_sc) ex_medoids 1 "MSE") as [ [ f1 | ] [ e1 | ] ] eqn:E1; vm_compute in E1; try discriminate E1.
  destruct (error_between_medoids mean_kind (full2 1 3 (Some 1%Z)) 2 (qregion ex_d ex_sc) ex_medoids 2 "MSE") as [ [ f2 | ] [ e2 | ] ] eqn:E2; vm_compute in E2; try discriminate E2.
  specialize (H' f1 f2 eq_refl eq_refl eq_refl eq_refl eq_refl eq_refl eq_refl eq_refl eq_refl).
  injection E1 as <-. injection E2 as <-. discriminate H'.
Qed.
Print Assumptions C110_forecast_length_in_name_refuted.

(* ---------------------------------------------------------------- concrete tables *)
Definition ex_error (n : nat) (f : list fnum) (pt : point) : fnum :=
  match series3 ex_d (fst pt) (snd pt), get2 (mk2 1 3 [Fin 0; Fin 100; Fin 0]) (fst pt) (snd pt), get2 (mk2 1 3 [Fin 10; Fin 300; Fin 1]) (fst pt) (snd pt) with
  | Ok s, Ok a, Ok b =>
      let sh := map (fun v => fadd (fmul (fsub b a) v) a) in
      match mse (sh f) (sh (skipn (length s - n) s)) (Some (sh (firstn (length s - n) s))) with Ok v => v | Raise _ => NaN end
  | _, _, _ => NaN
  end.
Definition ex_model (pt : point) : fnum := match series3 ex_d (fst pt) (snd pt) with Ok s => mean_of_past 1 (firstn 2 s) | Raise _ => NaN end.
Lemma ex_points : forall pt, in_grid 1 3 pt -> pt = (0, 0)%Z \/ pt = (0, 1)%Z \/ pt = (0, 2)%Z.
Proof. intros [ a b ] [ H1 H2 ]. cbn [fst snd] in *. assert (a = 0)%Z by lia. assert (b = 0 \/ b = 1 \/ b = 2)%Z as [ -> | [ -> | -> ] ] by lia; subst a; auto. Qed.

Example C109_C110_example_hypotheses :
  qwf ex_d ex_sc /\ valid_partition ex_p 1 3 /\ square (1 * 3) ex_D /\ Forall (in_grid 1 3) ex_medoids /\
  forall i med, nth_error ex_medoids i = Some med -> in_grid 1 3 med /\ label_at ex_p med (Z.of_nat i) /\
    forecast_at mean_kind 1%Z ex_d 2 med (Some (ex_model med)) (Ok (repeat (ex_model med) 2)) /\
    forall pt, in_grid 1 3 pt -> error_of mse ex_d ex_sc 2 (repeat (ex_model med) 2) pt (ex_error 2 (repeat (ex_model med) 2) pt).
Proof.
  split; [ repeat split; reflexivity | ]. split.
  { split; [ reflexivity | split; [ reflexivity | split; [ reflexivity | split ] ] ].
    - intros pt l Hg Hl. destruct (ex_points pt Hg) as [ -> | [ -> | -> ] ]; cbv in Hl; injection Hl as <-; cbn; lia.
    - exists (0, 1)%Z. split; [ split; cbn; lia | reflexivity ]. }
  split. { split; [ reflexivity | split; [ reflexivity | ] ]. cbn. intros row [ <- | [ <- | [ <- | [] ] ] ]; reflexivity. }
  split. { repeat constructor; cbn; lia. }
  intros [ | [ | i ] ] med E; cbn in E; try (destruct i; discriminate E); injection E as <-; (split; [ split; cbn; lia | split; [ reflexivity | split ] ]).
  1, 3: eexists; split; [ reflexivity | split; reflexivity ].
  all: intros pt Hg; destruct (ex_points pt Hg) as [ -> | [ -> | -> ] ]; eexists _, _, _, _; (split; [ reflexivity | ]);
    (split; [ eexists _, _; repeat split; reflexivity | ]); (split; [ eexists _, _; repeat split; reflexivity | ]); (split; [ eexists _, _; repeat split; reflexivity | ]); vm_compute; reflexivity.
Qed.

(** cluster 0 holds the first and the last point, its medoid is the last *)
Example C109_example_table : map (fun '(path, file) => (path, map (map (fun c => match c with FNum n (Fin q) => FNum n (Fin (Qred q)) | c => c end)) file)) (fst (ex_files 2)) =
  [("outputs/ex_2015_2015_1spd_scaled/dtw/regular_k2/auto-arima-start_p1-start_q1-max_p3-max_q3-dNone-stepwiseTrue/dist-error__regular_k2__MSE__cluster0__auto-arima-p1-d0-q1.csv",
    [[FStr "position"; FStr "distance_dtw"; FStr "forecast_error"];
     [FPt (40, 80)%Z; FNum 3 (Fin 10); FNum 3 (Fin 1700)];
     [FPt (40, 82)%Z; FNum 3 (Fin 0); FNum 3 (Fin 10)]]);
   ("outputs/ex_2015_2015_1spd_scaled/dtw/regular_k2/auto-arima-start_p1-start_q1-max_p3-max_q3-dNone-stepwiseTrue/dist-error__regular_k2__MSE__cluster1__auto-arima-p1-d0-q1.csv",
    [[FStr "position"; FStr "distance_dtw"; FStr "forecast_error"];
     [FPt (40, 81)%Z; FNum 3 (Fin 0); FNum 3 (Fin 10000000)]])].
Proof. vm_compute. reflexivity. Qed.

Definition red_file (f : csv_file) := map (map (fun c => match c with FNum n (Fin q) => FNum n (Fin (Qred q)) | c => c end)) f.
Example C110_example_table : let '(file, e) := error_between_medoids mean_kind (full2 1 3 (Some 1%Z)) 2 (qregion ex_d ex_sc) ex_medoids 2 "MSE" in (option_map red_file file, e) =
  (Some [[FStr "cluster"; FStr "0"; FStr "1"]; [FStr "0"; FNum 3 (Fin 10); FNum 3 (Fin 44560000)]; [FStr "1"; FNum 3 (Fin 226); FNum 3 (Fin 10000000)]], None).
Proof. vm_compute. reflexivity. Qed.

(** the model of the second medoid cannot forecast *)
Definition ex_kind : model_kind Z fnum :=
  ModelKind (fun past s => Ok (Some (mean_of_past past s)))
            (fun m len => if flt (Fin 10) m then Raise LinAlgError else Ok (mean_forecast m len)) (fun _ => Raise AttributeError).
Example C110_example_failure : let '(file, e) := error_between_medoids ex_kind (full2 1 3 (Some 1%Z)) 2 (qregion ex_d ex_sc) ex_medoids 2 "MSE" in (option_map red_file file, e) =
  (Some [[FStr "cluster"; FStr "0"; FStr "1"]; [FStr "0"; FNum 3 (Fin 10); FNum 3 (Fin 44560000)]], Some LinAlgError).
Proof. vm_compute. reflexivity. Qed.
Example C110_example_failure_hypotheses :
  forecast_at ex_kind 1%Z ex_d 2 (0, 2)%Z (Some (ex_model (0, 2)%Z)) (Ok (repeat (ex_model (0, 2)%Z) 2)) /\
  forecast_at ex_kind 1%Z ex_d 2 (0, 1)%Z (Some (ex_model (0, 1)%Z)) (Raise LinAlgError).
Proof. split; eexists; (split; [ reflexivity | split; reflexivity ]). Qed.

Example C108_example : save_medoid_distances ex_o 3 2 ex_medoids =
  Ok [[FStr "k"; FStr "0"; FStr "1"]; [FStr "0"; FNum 3 (Fin 0); FNum 3 (Fin 6)]; [FStr "1"; FNum 3 (Fin 6); FNum 3 (Fin 0)]].
Proof. vm_compute. reflexivity. Qed.

(** two clusters and two orders; the last analysis fails *)
Definition ex_analysis (i : Z) (params : pdq) : res experiment :=
  if (i =? 1)%Z && (fst (fst params) =? 2)%Z then Raise ValueError
  else Ok (Experiment (FE (Fin 1) (Fin 2) (Fin 3) (Fin 4) (Fin 5)) 1 (Fin 6) (Fin 7)).
Example C111_example : let '(file, e) := training_error_analysis ex_p 2 [(1, 0, 1); (2, 0, 2)]%Z ex_analysis in (map (firstn 6) file, e) =
  ([map FStr ["cluster"; "size"; "p"; "d"; "q"; "failed"]; map FInt [0; 2; 1; 0; 1; 1]%Z; map FInt [0; 2; 2; 0; 2; 1]%Z; map FInt [1; 1; 1; 0; 1; 1]%Z], Some ValueError).
Proof. vm_compute. reflexivity. Qed.
