(** Histograms of the distances to a centroid: one region (C93), the statistics (C94), random points of other clusters
    (C95), one panel per cluster (C96), clusters with their centroids (C97). *)
From Coq Require Import String Sorted.
From Verif Require Import Base.Py Base.Arr Base.Float Base.FloatFacts Base.PyFacts Base.Str Base.StrFacts Model.Region Model.Distance Model.Maths Model.Results Model.TrainInput Model.Variance.
From Verif Require Import Spec.Grid Spec.Partition Spec.Distance Spec.TrainInput Spec.Variance.
From Verif Require Import Proofs.RegionFacts Proofs.PartitionFacts Proofs.MathsFacts Proofs.DistanceFacts Proofs.DistanceObjFacts Proofs.TrainInputFacts Proofs.VarianceFacts.
Close Scope Q_scope.
Local Notation length := List.length.

(** C93: with a distance matrix and a centroid (its own, or that of the region underneath), the histogram of a region shows
    the distance to the centroid of every point of the region, row by row, on an axis that ends at the greatest of them,
    with one text; a region of fewer than two points gives ValueError. *)
Theorem C93_region_histogram : forall env o sqrt M x y h c, d_matrix o = Some M -> square (x * y) M ->
  grid_of (h_region h) x y -> answered_centroid h = Some c -> in_grid x y c ->
  (2 <= length (members (h_region h) x y) ->
   exists calls ds m, histogram_to_centroid env o sqrt h = Ok calls /\
     distances_of M y c (members (h_region h) x y) ds /\ greatest ds m /\
     shown_values calls = [ds] /\ shown_limits calls = limit_calls m /\ length (shown_texts calls) = 1) /\
  (length (members (h_region h) x y) < 2 -> histogram_to_centroid env o sqrt h = Raise ValueError).
Proof.
  intros env o sqrt M x y h c HM Hs Hr Hc Hg. unfold histogram_to_centroid.
  assert (E1 : has_centroid h = true) by (unfold has_centroid, answered_centroid in *; destruct (h_own h); auto; destruct (h_region h); try discriminate; rewrite Hc; auto).
  assert (E2 : get_centroid h false = Ok c) by (unfold get_centroid, answered_centroid in *; destruct (h_own h); [congruence|]; destruct (h_region h); try discriminate; rewrite Hc; auto).
  rewrite E1, E2, HM. cbn [py_assert bind].
  destruct (plain_ok env o M x y HM Hs h c Hr Hg) as (ds & E & Dd & Dl). rewrite E. cbn [bind]. unfold max_distance.
  split; intros Hl.
  - destruct (np_max_ok ds) as (m & Em & Gm); [intros ->; cbn in Dl; lia|]. rewrite Em. cbn [bind].
    assert (En : np_max [m; NInf] = Ok m \/ m = NInf /\ np_max [m; NInf] = Ok NInf).
    { cbn [np_max fold_left]. unfold maximum. destruct m; cbn; auto. }
    assert (En' : np_max [m; NInf] = Ok m) by (destruct En as [En|[-> En]]; auto). rewrite En'. cbn [bind].
    destruct (statistics_ok sqrt x y h ds Hr) as (a & b & Es & _); [lia|]. unfold plot. rewrite Es. cbn [bind].
    eexists _, ds, m. split; [reflexivity|]. split; auto. split; auto. unfold limit_calls, f_true. destruct (feqb m (Fin 0)); auto.
  - destruct ds as [|d0 ds]; [reflexivity|]. destruct (np_max_ok (d0 :: ds)) as (m & Em & Gm); [discriminate|]. rewrite Em. cbn [bind].
    destruct (np_max_ok [m; NInf]) as (m2 & Em2 & _); [discriminate|]. rewrite Em2. cbn [bind]. unfold plot.
    rewrite (statistics_short sqrt h (d0 :: ds)) by lia. reflexivity.
Qed.
Print Assumptions C93_region_histogram.

(** C93: without a centroid or without a distance matrix the histogram is refused. *)
Theorem C93_refused : forall env o sqrt h, (answered_centroid h = None \/ d_matrix o = None) ->
  histogram_to_centroid env o sqrt h = Raise AssertionError.
Proof.
  intros env o sqrt h H. unfold histogram_to_centroid, has_centroid, answered_centroid in *.
  destruct (h_own h); destruct (h_region h); cbn [py_assert bind]; auto;
    try (destruct H as [H|H]; [discriminate|rewrite H; reflexivity]);
    destruct (h_inherited h); cbn [py_assert bind]; auto; destruct H as [H|H]; try discriminate; rewrite H; reflexivity.
Qed.
Print Assumptions C93_refused.

(** C93: get_centroid answers exactly the centroid that has_centroid announces; without one it never computes it: with a
    distance measure the call fails on a method that does not exist. *)
Theorem C93_get_centroid : forall h given,
  (has_centroid h = true <-> exists c, answered_centroid h = Some c) /\
  (forall c, answered_centroid h = Some c -> get_centroid h given = Ok c) /\
  (answered_centroid h = None -> get_centroid h given = Raise (if given then AttributeError else ValueError)).
Proof.
  intros h given. unfold has_centroid, get_centroid, answered_centroid.
  destruct (h_own h) as [c|]; [|destruct (h_region h); [|destruct (h_inherited h) as [c|]|destruct (h_inherited h) as [c|]]];
    (split; [split; [intros E; first [discriminate|eauto]|intros (c' & E); first [discriminate|reflexivity]]|]);
    (split; [intros c' E; congruence|intros E; try discriminate; destruct given; reflexivity]).
Qed.
Print Assumptions C93_get_centroid.

Definition ex_v : arr3 fnum := mk3 1 2 2 [Fin 1; Fin 2; Fin 3; Fin 4].
Definition ex_vm : mat := Mat 4 [[Fin 0; Fin 1; Fin 2; Fin 3]; [Fin 1; Fin 0; Fin 1; Fin 2]; [Fin 2; Fin 1; Fin 0; Fin 1]; [Fin 3; Fin 2; Fin 1; Fin 0]].
Definition ex_vo : dobj := DObj PlainDTW (Some ex_vm) false.
Definition ex_venv : denv := DEnv (fun _ => Raise IOError) (fun _ _ => NaN) (fun _ _ => NaN) NaN.
Definition ex_vp : crisp := Crisp (mk2 2 2 [0; 0; 1; 1]%Z) 2.
Definition ex_vh : hregion := HRegion "r" (TPlain ex_v) (Some (0, 1)%Z) None.
Definition ex_vc : hregion := HRegion "cluster1" (TCluster (TPlain ex_v) ex_vp 1) None (Some (1, 0)%Z).
(** some function in place of the square root *)
Definition ex_root (v : fnum) : fnum := match v with Fin q => Fin (Qred q) | _ => v end.
Example C93_example :
  d_matrix ex_vo = Some ex_vm /\ grid_of (h_region ex_vc) 2 2 /\ answered_centroid ex_vc = Some (1, 0)%Z /\ in_grid 2 2 (1, 0)%Z /\
  histogram_to_centroid ex_venv ex_vo ex_root ex_vh =
    Ok [DrawHist [Fin 1; Fin 0; Fin 1; Fin 2] "r"; DrawXLim (Fin 2);
        DrawText [(""%string, FStr "r"); ("n = "%string, FInt 4); ("min = "%string, FNum 2 (Fin 1)); ("max =  "%string, FNum 2 (Fin 2));
                  ("mean = "%string, FNum 2 (Fin (4 # 4))); ("s = "%string, FNum 2 (Fin (1 # 2))); ("M = "%string, FNum 2 (Fin (2 # 2)))]] /\
  shown_values (match histogram_to_centroid ex_venv ex_vo ex_root ex_vc with Ok l => l | Raise _ => [] end) = [[Fin 0; Fin 1]] /\
  get_centroid (HRegion "r" (TPlain ex_v) None None) true = Raise AttributeError.
Proof.
  split; [reflexivity|]. split.
  - cbn. repeat split; try reflexivity; cbn in *; try lia.
    + destruct pt as [a b]. unfold label_at, in_grid in *. cbn in *. assert ((a = 0 \/ a = 1) /\ (b = 0 \/ b = 1))%Z as [[-> | ->] [-> | ->]] by lia; cbn in *; injection H0 as <-; lia.
    + destruct pt as [a b]. unfold label_at, in_grid in *. cbn in *. assert ((a = 0 \/ a = 1) /\ (b = 0 \/ b = 1))%Z as [[-> | ->] [-> | ->]] by lia; cbn in *; injection H0 as <-; lia.
    + exists (1, 1)%Z. split; [unfold in_grid; cbn; lia|reflexivity].
  - split; [reflexivity|]. split; [unfold in_grid; cbn; lia|]. split; [vm_compute; reflexivity|]. split; vm_compute; reflexivity.
Qed.

(** C94: the text of the statistics, for finite distances: the number of points, the second least distance, the greatest,
    the mean, the root of the mean square deviation and the median. *)
Theorem C94_statistics : forall sqrt x y h q, grid_of (h_region h) x y -> 2 <= length q ->
  let n := inject_Z (Z.of_nat (length q)) in
  let mu := (qsum q / n)%Q in
  exists s lo hi mean v median,
    statistics sqrt h (map Fin q) =
      Ok [(""%string, FStr (h_name h)); ("n = "%string, FInt (Z.of_nat (length (members (h_region h) x y)))); ("min = "%string, FNum 2 lo);
          ("max =  "%string, FNum 2 hi); ("mean = "%string, FNum 2 mean); ("s = "%string, FNum 2 (sqrt v)); ("M = "%string, FNum 2 median)] /\
    in_order (map Fin q) s /\ nth_error s 1 = Some lo /\ In hi (map Fin q) /\ (forall w, In w (map Fin q) -> fle w hi = true) /\
    feqv mean (Fin mu) /\ feqv v (Fin (qsum (map (fun a => (a - mu) * (a - mu)) q) / n))%Q /\
    (forall i, length q = 2 * i + 1 -> nth_error s i = Some median) /\
    (forall i, length q = 2 * i + 2 -> exists a b, nth_error s i = Some (Fin a) /\ nth_error s (i + 1) = Some (Fin b) /\ feqv median (Fin ((a + b) / 2))%Q).
Proof.
  intros sqrt x y h q Hr Hl n mu.
  assert (Hfin : forall w, In w (map Fin q) -> is_nan w = false) by (intros w Hw; apply in_map_iff in Hw; destruct Hw as (z & <- & _); reflexivity).
  destruct (statistics_ok sqrt x y h (map Fin q) Hr) as (lo & hi & E & Elo & _ & Ghi); [rewrite map_length; auto|].
  pose proof (np_sort_sorted _ Hfin) as So. set (s := np_sort (map Fin q)) in *.
  assert (Hn0 : ~ (n == 0)%Q).
  { unfold n. intros H. unfold Qeq in H. cbn in H. clear - H Hl. lia. }
  assert (Hmean : forall l : list Q, length l = length q -> feqv (fmean (map Fin l)) (Fin (qsum l / n))).
  { intros l Hll. unfold fmean. rewrite map_length, Hll. pose proof (fsum_fin l) as F. destruct (fsum (map Fin l)) as [| | |z]; try contradiction.
    unfold fof_nat. fold n. cbn [fdiv]. destruct (Qeq_bool n 0) eqn:Q; [apply Qeq_bool_iff in Q; contradiction|]. cbn in F. cbn [feqv]. rewrite F. reflexivity. }
  pose proof (Hmean q eq_refl) as Hmu. fold mu in Hmu.
  eexists s, lo, hi, (fmean (map Fin q)), _, (np_median (map Fin q)). split; [exact E|]. split; [exact So|]. split; [exact Elo|].
  split; [apply Ghi|]. split; [apply Ghi; exact Hfin|]. split; [exact Hmu|].
  assert (Ls : length s = length q) by (destruct So as [P _]; apply Permutation_length in P; rewrite map_length in P; auto).
  assert (Hx : existsb is_nan (map Fin q) = false).
  { destruct (existsb is_nan (map Fin q)) eqn:X; auto. apply existsb_exists in X. destruct X as (w & Hw & Nw). rewrite (Hfin w Hw) in Nw. discriminate. }
  split; [|split].
  - rewrite map_map. destruct (fmean (map Fin q)) as [| | |z] eqn:Ez; try contradiction. cbn [feqv] in Hmu.
    assert (Hm2 : map (fun a => fmul (fsub (Fin a) (Fin z)) (fsub (Fin a) (Fin z))) q = map Fin (map (fun a => (a + - z) * (a + - z))%Q q)) by (rewrite map_map; reflexivity).
    rewrite Hm2. eapply feqv_trans; [apply Hmean; rewrite map_length; reflexivity|]. cbn [feqv].
    assert (Hq : forall l, (qsum (map (fun a => (a + - z) * (a + - z)) l) == qsum (map (fun a => (a - mu) * (a - mu)) l))%Q).
    { induction l as [|a l IH]; cbn [map qsum fold_right]; [reflexivity|]. unfold qsum in *. cbn [fold_right] in *. rewrite IH, Hmu. reflexivity. }
    rewrite Hq. reflexivity.
  - intros i Hi. unfold np_median. rewrite Hx, map_length. fold s. replace (Nat.odd (length q)) with true by (rewrite Hi, Nat.add_comm, Nat.odd_add_mul_2; reflexivity).
    replace (length q / 2) with i by (rewrite Hi, Nat.add_comm, Nat.mul_comm, Nat.div_add by lia; reflexivity). apply nth_error_nth'. lia.
  - intros i Hi. unfold np_median. rewrite Hx, map_length. fold s. replace (Nat.odd (length q)) with false by (rewrite Hi, Nat.add_comm, Nat.odd_add_mul_2; reflexivity).
    assert (Eh : length q / 2 = i + 1) by (replace (length q) with ((i + 1) * 2) by lia; apply Nat.div_mul; lia). rewrite Eh. replace (i + 1 - 1) with i by lia.
    assert (Hs : forall j, j < length s -> exists a, nth_error s j = Some (Fin a) /\ nth j s NaN = Fin a).
    { intros j Hj. assert (Hin : In (nth j s NaN) s) by (apply nth_In; auto). destruct So as [P _]. apply (Permutation_in _ (Permutation_sym P)) in Hin.
      apply in_map_iff in Hin. destruct Hin as (a & Ea & _). exists a. split; auto. rewrite Ea. apply nth_error_nth'. auto. }
    destruct (Hs i) as (a & Ea & Na); [lia|]. destruct (Hs (i + 1)) as (b & Eb & Nb); [lia|]. exists a, b. split; auto. split; auto.
    destruct q as [|q0 q']; [cbn in Hl; lia|]. cbn [map]. rewrite Na, Nb. unfold fmean, fsum. cbn. rewrite Qplus_0_l. reflexivity.
Qed.
Print Assumptions C94_statistics.

(** C94: the distances include the one of the centroid to itself, which is least; the minimum shown is then the least
    distance of the other points. *)
Theorem C94_least_other : forall sqrt x y h before d0 after lines, grid_of (h_region h) x y ->
  (forall v, In v (before ++ d0 :: after) -> is_nan v = false) -> (forall v, In v (before ++ after) -> fle d0 v = true) ->
  statistics sqrt h (before ++ d0 :: after) = Ok lines ->
  exists lo, In ("min = "%string, FNum 2 lo) lines /\
    (exists v, In v (before ++ after) /\ feqb lo v = true) /\ (forall v, In v (before ++ after) -> fle lo v = true).
Proof.
  intros sqrt x y h before d0 after lines Hr Hn H0 E.
  destruct (le_lt_dec 2 (length (before ++ d0 :: after))) as [L|L]; [|rewrite (statistics_short sqrt h _ L) in E; discriminate].
  destruct (statistics_ok sqrt x y h _ Hr L) as (lo & hi & E' & Elo & _). rewrite E' in E. exists lo.
  assert (lines = _) by (symmetry; exact (f_equal (fun r => match r with Ok l => l | Raise _ => [] end) E)). subst lines.
  split; [cbn; auto|]. apply second_least with (d0 := d0) (s := np_sort (before ++ d0 :: after)); auto.
  - intros Hnil. rewrite app_length in L. cbn [length] in L. apply (f_equal (@length fnum)) in Hnil. rewrite app_length in Hnil. cbn in Hnil. lia.
  - apply np_sort_sorted. auto.
Qed.
Print Assumptions C94_least_other.

(** C94: statistics need two distances. *)
Theorem C94_needs_two : forall sqrt h ds, length ds < 2 -> statistics sqrt h ds = Raise ValueError.
Proof. intros sqrt h ds. apply statistics_short. Qed.
Print Assumptions C94_needs_two.

Example C94_example :
  statistics ex_root ex_vh (map Fin [3; 0; 1; 0]%Q) =
    Ok [(""%string, FStr "r"); ("n = "%string, FInt 4); ("min = "%string, FNum 2 (Fin 0)); ("max =  "%string, FNum 2 (Fin 3)); ("mean = "%string, FNum 2 (Fin (4 # 4)));
        ("s = "%string, FNum 2 (Fin (3 # 2))); ("M = "%string, FNum 2 (Fin (1 # 2)))] /\
  np_median (map Fin [5; 1; 2]%Q) = Fin 2 /\ partition_at_1 (map Fin [5; 1; 2]%Q) = Ok (Fin 2).
Proof. split; [vm_compute; reflexivity|split; reflexivity]. Qed.

(** C95: with random points, the histogram of a cluster also shows the distances to the centroid of different points
    outside the cluster, as many as asked for (0: as many as the cluster has) or as there are; asking again gives as many.
    A cluster that fills the region gives IndexError. *)
Theorem C95_random_points : forall env o set_order choice M x y h c num n, d_matrix o = Some M -> square (x * y) M ->
  any_order set_order -> (forall i, draws (choice i)) ->
  grid_of (h_region h) x y -> in_grid x y c -> (0 <= num)%Z -> members (h_region h) x y <> [] ->
  (outsiders (h_region h) x y <> [] ->
   exists ds rs num', hist_distances env o set_order choice h (WithRandom num) n c = Ok (ds, Some rs, WithRandom num', S n) /\
     distances_of M y c (members (h_region h) x y) ds /\
     outside_distances M x y (h_region h) c (random_count (h_region h) x y num) rs /\
     random_count (h_region h) x y num' = random_count (h_region h) x y num /\ (0 <= num')%Z) /\
  (outsiders (h_region h) x y = [] -> hist_distances env o set_order choice h (WithRandom num) n c = Raise IndexError).
Proof.
  intros env o set_order choice M x y h c num n HM Hs Ho Hd Hr Hc Hn Hm.
  destruct (plain_ok env o M x y HM Hs h c Hr Hc) as (ds & E & Dd & Dl). unfold hist_distances. rewrite E. cbn [bind].
  destruct (random_ok' x y set_order choice Ho Hd n (h_region h) num Hr Hn) as [R0 R]. split; intros Hq.
  - destruct (R Hq) as (pts & Ep & Np & Lp & Ip). rewrite Ep. cbn [bind].
    destruct (at_points env o M x y HM Hs (h_region h) c pts Hr Hc) as (rs & Er & Dr & Lr); [intros p Hp; apply (Ip p Hp)|]. rewrite Er. cbn [bind].
    eexists ds, rs, _. split; [reflexivity|]. split; auto. split; [exists pts; auto|]. split; [|lia]. eapply random_count_again; eauto.
  - rewrite (R0 Hq). reflexivity.
Qed.
Print Assumptions C95_random_points.

(** C95: the count of random points nearer than the farthest point of the cluster. *)
Theorem C95_intersection : forall sqrt x y h ds rs lines, grid_of (h_region h) x y ->
  hist_statistics sqrt h (ds, Some rs) = Ok lines ->
  exists own m, statistics sqrt h ds = Ok own /\ greatest ds m /\
    lines = own ++ [("#rand = "%string, FInt (Z.of_nat (length rs)));
                    ("&rand = "%string, FInt (Z.of_nat (length (filter (fun v => flt v m) rs))))].
Proof.
  intros sqrt x y h ds rs lines Hr. cbn [hist_statistics]. destruct (statistics sqrt h ds) as [own|]; cbn [bind]; [|discriminate].
  destruct (np_max ds) as [m|] eqn:E; cbn [bind]; [|discriminate]. intros H. exists own, m. split; auto. apply np_max_inv in E. split; [tauto|]. congruence.
Qed.
Print Assumptions C95_intersection.

(** draws that take the first values on even calls and the last ones on odd calls *)
Definition ex_draw (i : nat) (l : list Z) (n : Z) : res (list Z) :=
  if (0 <=? n)%Z && (n <=? Z.of_nat (length l))%Z then Ok (firstn (Z.to_nat n) (if Nat.even i then l else rev l)) else Raise ValueError.
Lemma ex_draw_ok i : draws (ex_draw i).
Proof.
  intros l n. unfold ex_draw. split; intros H.
  - replace ((0 <=? n)%Z && (n <=? Z.of_nat (length l))%Z) with true by (symmetry; apply andb_true_iff; split; apply Z.leb_le; lia).
    set (l' := if Nat.even i then l else rev l). assert (P : Permutation l' l) by (unfold l'; destruct (Nat.even i); [reflexivity|apply Permutation_sym, Permutation_rev]).
    pose proof (Permutation_length P) as L. exists (firstn (Z.to_nat n) l'), (skipn (Z.to_nat n) l'). split; auto. rewrite firstn_skipn. split; auto. rewrite firstn_length. lia.
  - destruct ((0 <=? n)%Z && (n <=? Z.of_nat (length l))%Z) eqn:E; auto. apply andb_true_iff in E. destruct E as [E1 E2]. apply Z.leb_le in E1. apply Z.leb_le in E2. lia.
Qed.
Definition ex_v2 : list hregion := [HRegion "cluster0" (TCluster (TPlain ex_v) ex_vp 0) (Some (0, 0)%Z) None; HRegion "cluster1" (TCluster (TPlain ex_v) ex_vp 1) (Some (1, 0)%Z) None].
Example C95_example :
  hist_distances ex_venv ex_vo (fun l => l) ex_draw (HRegion "cluster0" (TCluster (TPlain ex_v) ex_vp 0) (Some (0, 0)%Z) None) (WithRandom 1) 0 (0, 0)%Z =
    Ok ([Fin 0; Fin 1], Some [Fin 2], WithRandom 1, 1) /\
  hist_distances ex_venv ex_vo (fun l => l) ex_draw (HRegion "cluster0" (TCluster (TPlain ex_v) ex_vp 0) (Some (0, 0)%Z) None) (WithRandom 0) 1 (0, 0)%Z =
    Ok ([Fin 0; Fin 1], Some [Fin 3; Fin 2], WithRandom 2, 2) /\
  hist_distances ex_venv ex_vo (fun l => l) ex_draw (HRegion "all" (TPlain ex_v) (Some (0, 0)%Z) None) (WithRandom 3) 0 (0, 0)%Z = Raise IndexError.
Proof. repeat split; vm_compute; reflexivity. Qed.

(** a cluster that can be shown: it covers the grid, has a centroid of its own in the grid and enough points; with random
    points there are points outside it *)
Definition showable (x y : nat) (random_points : option Z) (with_statistics : bool) (h : hregion) : Prop :=
  grid_of (h_region h) x y /\ (exists c, h_own h = Some c /\ in_grid x y c) /\
  (if with_statistics then 2 else 1) <= length (members (h_region h) x y) /\
  match random_points with None => True | Some n => (0 <= n)%Z /\ outsiders (h_region h) x y <> [] end.

(** C96: for two clusters or more, the figure has one panel per cluster, at different places of a grid of panels with as
    many panels as clusters.  The panel of a cluster shows the distances of its points to its centroid and, if random
    points are asked for, those of points outside it.  All panels have the same axis; without random points it ends at the
    greatest of all the distances shown. *)
Theorem C96_panels : forall env o set_order choice sqrt M x y clusters repr random_points with_statistics dir,
  d_matrix o = Some M -> square (x * y) M -> any_order set_order -> (forall i, draws (choice i)) ->
  2 <= length clusters -> Forall (showable x y random_points with_statistics) clusters ->
  exists panels limit dx dy,
    cluster_histograms env o set_order choice sqrt clusters repr random_points with_statistics dir = Ok (panels, figure_name dir repr random_points) /\
    length panels = length clusters /\ NoDup (map fst panels) /\
    (0 < dx)%Z /\ (0 < dy)%Z /\ (dx * dy = Z.of_nat (length clusters))%Z /\
    (forall panel calls, In (panel, calls) panels -> (0 <= fst panel < dx)%Z /\ (0 <= snd panel < dy)%Z /\ shown_limits calls = limit_calls limit) /\
    (forall i h, nth_error clusters i = Some h -> exists c ds calls,
       nth_error panels i = Some ((Z.of_nat i / dy, Z.of_nat i mod dy)%Z, calls) /\ h_own h = Some c /\
       distances_of M y c (members (h_region h) x y) ds /\ length (shown_texts calls) = (if with_statistics then 1 else 0) /\
       match random_points with
       | None => shown_values calls = [ds]
       | Some n => exists rs, shown_values calls = [ds; rs] /\ outside_distances M x y (h_region h) c (random_count (h_region h) x y n) rs
       end) /\
    (random_points = None -> exists all, greatest all limit /\
       forall v, In v all <-> v = NInf \/ exists panel calls, In (panel, calls) panels /\ In v (List.concat (shown_values calls))).
Proof.
  intros env o set_order choice sqrt M x y clusters repr rp ws dir HM Hs Ho Hd Hk F.
  assert (Hcs : Forall (can_show x y rp) clusters).
  { eapply Forall_impl; [|exact F]. intros h (A & B & C & D). split; auto. split; auto. split; auto. destruct (members (h_region h) x y); [destruct ws; cbn in C; lia|discriminate]. }
  unfold cluster_histograms, make_histograms.
  assert (Ea : mapM (fun c => py_assert (has_centroid c)) clusters = Ok (map (fun _ => tt) clusters)).
  { apply mapM_ok. intros h Hin. rewrite Forall_forall in F. destruct (F h Hin) as (_ & (c & Ec & _) & _). unfold has_centroid. rewrite Ec. reflexivity. }
  rewrite Ea. cbn [bind]. set (g0 := match rp with None => Plain | Some n => WithRandom n end).
  assert (Eb : mapM (fun c => _ <- py_assert (match d_matrix o with Some _ => true | None => false end) ;; Ok (c, g0)) clusters = Ok (map (fun c => (c, g0)) clusters)).
  { apply mapM_ok. intros h _. rewrite HM. reflexivity. }
  rewrite Eb. cbn [bind]. set (hs := map (fun c => (c, g0)) clusters).
  assert (Hinv : Forall (hinv x y rp) hs).
  { unfold hs. apply Forall_forall. intros hg Hin. apply in_map_iff in Hin. destruct Hin as (h & <- & Hin). rewrite Forall_forall in Hcs. specialize (Hcs h Hin). split; cbn [fst snd]; auto.
    unfold g0. destruct rp as [num|]; cbn [state_of]; auto. exists num. destruct Hcs as (_ & _ & _ & Hn & _). auto. }
  assert (Lh : length hs = length clusters) by (unfold hs; apply map_length).
  unfold plot_clusters. destruct clusters as [|c0 cl]; [cbn in Hk; lia|]. remember (c0 :: cl) as cls eqn:Ecls.
  assert (E0 : getitem hs 0 = Ok (c0, g0)) by (unfold hs; rewrite Ecls; reflexivity). rewrite E0. cbn [bind fst]. rewrite Lh.
  destruct (order_x_y_spec (Z.of_nat (length cls)) (Z.of_nat (t_x (h_region c0))) (Z.of_nat (t_y (h_region c0))) ltac:(lia)) as (dx & dy & Ed & Hdx & Hdy & Hdd & _).
  rewrite Ed. cbn [bind]. unfold overall_max.
  destruct (overall_loop env o sqrt M x y HM Hs set_order choice Ho Hd rp hs Hinv NInf [] 0) as (m & hs' & n1 & dss & E1 & Ef & Hinv' & F2 & Gm).
  rewrite E1. cbn [bind app].
  assert (Lh' : length hs' = length cls) by (rewrite <- Lh, <- (map_length fst hs'), Ef, map_length; reflexivity).
  assert (Nf : forall i h, nth_error cls i = Some h -> exists g, nth_error hs' i = Some (h, g)).
  { intros i h Hi. assert (E : nth_error (map fst hs') i = Some h) by (rewrite Ef; unfold hs; rewrite map_map, map_id; exact Hi).
    rewrite nth_error_map in E. destruct (nth_error hs' i) as [[h' g]|]; [|discriminate]. cbn in E. exists g. congruence. }
  destruct (plot_loop env o sqrt M x y HM Hs set_order choice Ho Hd rp ws m dx dy (length cls) Hdx Hdy Hdd ltac:(lia) hs' 0 n1 []) as (panels & n2 & E2 & Lp & P).
  { lia. } { exact Hinv'. }
  { intros W hg Hin. assert (Hin' : In (fst hg) cls) by (replace cls with (map fst hs') by (rewrite Ef; unfold hs; rewrite map_map, map_id; reflexivity); apply in_map; auto).
    rewrite Forall_forall in F. destruct (F _ Hin') as (_ & _ & L & _). rewrite W in L. exact L. }
  unfold enumerate. rewrite E2. cbn [bind fst app]. cbn [app] in E2.
  assert (Hpos : forall i pc, nth_error panels i = Some pc -> fst pc = (Z.of_nat i / dy, Z.of_nat i mod dy)%Z /\ shown_limits (snd pc) = limit_calls m /\ i < length cls).
  { intros i pc Hi. assert (Li : i < length cls) by (rewrite <- Lh', <- Lp; apply nth_error_Some; congruence).
    destruct (nth_error hs' i) as [hg|] eqn:Eh; [|apply nth_error_None in Eh; lia]. destruct (P i hg Eh) as (c & d & calls & A & _ & _ & _ & B & _). cbn [Nat.add] in A.
    assert (pc = ((Z.of_nat i / dy, Z.of_nat i mod dy)%Z, calls)) by congruence. subst pc. auto. }
  exists panels, m, dx, dy. split; [reflexivity|]. split; [lia|]. split; [|split; [exact Hdx|split; [exact Hdy|split; [exact Hdd|split; [|split]]]]].
  - apply NoDup_nth_error. intros i j Hi E. rewrite map_length in Hi. rewrite !nth_error_map in E.
    destruct (nth_error panels i) as [pi|] eqn:Ei; [|apply nth_error_None in Ei; lia]. destruct (nth_error panels j) as [pj|] eqn:Ej; [|discriminate].
    destruct (Hpos i pi Ei) as (A & _ & _). destruct (Hpos j pj Ej) as (B & _ & _). cbn in E. assert (Q : (Z.of_nat i / dy, Z.of_nat i mod dy)%Z = (Z.of_nat j / dy, Z.of_nat j mod dy)%Z) by congruence.
    apply divmod_inj in Q; auto. lia.
  - intros panel calls Hin. apply In_nth_error in Hin. destruct Hin as [i Hi]. destruct (Hpos i _ Hi) as (A & B & Li). cbn [fst snd] in A, B. rewrite A. cbn [fst snd]. split; [|split; [|exact B]].
    + split; [apply Z.div_pos; lia|]. apply Z.div_lt_upper_bound; lia.
    + apply Z.mod_pos_bound. auto.
  - intros i h Hi. destruct (Nf i h Hi) as (g & Eg). destruct (P i _ Eg) as (c & d & calls & A & B & C & V & L & T). cbn [fst Nat.add] in *.
    exists c, (fst d), calls. split; auto. split; auto. destruct C as (C1 & C2 & C3). split; auto. split; auto. destruct rp as [num|].
    + destruct C3 as (rs & C3 & _ & C4). rewrite C3 in V. exists rs. auto.
    + rewrite C3 in V. exact V.
  - intros Hrp. subst rp. exists (flat_map values dss ++ [NInf]). split; [exact Gm|]. intros v. rewrite in_app_iff, in_flat_map.
    assert (Same : forall i hg d, nth_error hs i = Some hg -> nth_error dss i = Some d -> exists panel calls, nth_error panels i = Some (panel, calls) /\ shown_values calls = [values d]).
    { intros i hg d Hi Hdi. assert (Hcl : nth_error cls i = Some (fst hg)) by (unfold hs in Hi; rewrite nth_error_map in Hi; destruct (nth_error cls i); cbn in Hi; [|discriminate]; injection Hi as <-; reflexivity).
      destruct (Nf i _ Hcl) as (g & Eg). destruct (P i _ Eg) as (c & d' & calls & A & B & C & V & _). cbn [fst] in *.
      exists (Z.of_nat (0 + i) / dy, Z.of_nat (0 + i) mod dy)%Z, calls. split; auto. destruct C as (C1 & C2 & C3). cbn in C3. rewrite C3 in V.
      assert (Hrel : exists c', h_own (fst hg) = Some c' /\ shows M x y None (fst hg) c' d).
      { clear - F2 Hi Hdi. revert i Hi Hdi. induction F2 as [|a b l l' R F2 IH]; intros [|i] Hi Hdi; try discriminate; cbn in Hi, Hdi.
        - assert (a = hg) by congruence. assert (b = d) by congruence. subst. exact R.
        - eapply IH; eauto. }
      destruct Hrel as (c' & Ec' & D1 & D2 & D3). assert (c' = c) by congruence. subst c'.
      assert (Ed' : fst d = fst d') by (unfold distances_of in *; eapply row_at_unique; eauto). unfold values. cbn in D3. rewrite D3, app_nil_r, Ed'. exact V. }
    assert (Ld : length dss = length hs) by (clear - F2; induction F2; cbn; auto).
    split.
    + intros [(d & Hdin & Hv)|[<-|[]]]; [right|left; reflexivity]. apply In_nth_error in Hdin. destruct Hdin as [i Hi].
      destruct (nth_error hs i) as [hg|] eqn:Eh; [|apply nth_error_None in Eh; assert (nth_error dss i <> None) by congruence; apply nth_error_Some in H; lia].
      destruct (Same i hg d Eh Hi) as (panel & calls & Ep & Ev). exists panel, calls. split; [eapply nth_error_In; eauto|]. rewrite Ev. cbn [List.concat]. rewrite app_nil_r. auto.
    + intros [->|(panel & calls & Hin & Hv)]; [right; left; reflexivity|left]. apply In_nth_error in Hin. destruct Hin as [i Hi].
      assert (Li : i < length hs) by (destruct (Hpos i _ Hi) as (_ & _ & Li); lia).
      destruct (nth_error hs i) as [hg|] eqn:Eh; [|apply nth_error_None in Eh; lia]. destruct (nth_error dss i) as [d|] eqn:Edd; [|apply nth_error_None in Edd; lia].
      destruct (Same i hg d Eh Edd) as (panel' & calls' & Ep & Ev). assert (calls' = calls) by congruence. subst calls'. exists d. split; [eapply nth_error_In; eauto|].
      rewrite Ev in Hv. cbn [List.concat] in Hv. rewrite app_nil_r in Hv. auto.
Qed.
Print Assumptions C96_panels.

(** C96: the random points are drawn again for the picture, after the axis has been chosen: a point can lie beyond the end
    of the axis. *)
Lemma ex_v2_showable rp ws : (rp = None \/ rp = Some 1%Z) -> Forall (showable 2 2 rp ws) ex_v2.
Proof.
  intros Hrp.
  assert (G : forall i, grid_of (TCluster (TPlain ex_v) ex_vp i) 2 2).
  { intros i. split; [repeat split|]. unfold valid_partition. split; [reflexivity|]. split; [reflexivity|]. split; [reflexivity|]. split.
    - intros [a b] l [A B] L. unfold label_at in L. cbn [fst snd] in *. assert ((a = 0 \/ a = 1) /\ (b = 0 \/ b = 1))%Z as [[-> | ->] [-> | ->]] by lia; cbn in L; injection L as <-; cbn; lia.
    - exists (1, 1)%Z. split; [unfold in_grid; cbn; lia|reflexivity]. }
  repeat apply Forall_cons; [| |apply Forall_nil].
  - split; [apply G|]. split; [exists (0, 0)%Z; split; [reflexivity|unfold in_grid; cbn; lia]|]. split; [apply Nat.leb_le; destruct ws; vm_compute; reflexivity|]. destruct Hrp as [-> | ->]; [exact I|]. split; [lia|discriminate].
  - split; [apply G|]. split; [exists (1, 0)%Z; split; [reflexivity|unfold in_grid; cbn; lia]|]. split; [apply Nat.leb_le; destruct ws; vm_compute; reflexivity|]. destruct Hrp as [-> | ->]; [exact I|]. split; [lia|discriminate].
Qed.
Theorem C96_axis_covers_random_points_refuted : exists choice panels panel calls limit v,
  (forall i, draws (choice i)) /\ Forall (showable 2 2 (Some 1%Z) true) ex_v2 /\ square 4 ex_vm /\
  cluster_histograms ex_venv ex_vo (fun l => l) choice ex_root ex_v2 "alg" (Some 1%Z) true None = Ok (panels, None) /\
  In (panel, calls) panels /\ shown_limits calls = [limit] /\ In v (List.concat (shown_values calls)) /\ flt limit v = true.
Proof.
  exists (fun i => ex_draw (if (i <? 2)%nat then 0 else 1)).
  destruct (cluster_histograms ex_venv ex_vo (fun l => l) (fun i => ex_draw (if (i <? 2)%nat then 0 else 1)) ex_root ex_v2 "alg" (Some 1%Z) true None) as [[panels f]|] eqn:E; vm_compute in E; [|discriminate].
  injection E as <- <-. eexists _, _, _, _, (Fin 3).
  split; [intros i; apply ex_draw_ok|]. split; [apply ex_v2_showable; auto|]. split.
  { split; [reflexivity|]. split; [reflexivity|]. intros row Hr. cbn in Hr. destruct Hr as [<-|[<-|[<-|[<-|[]]]]]; reflexivity. }
  split; [reflexivity|]. split; [left; reflexivity|]. split; [reflexivity|]. split; [cbn; auto|reflexivity].
Qed.
Print Assumptions C96_axis_covers_random_points_refuted.

(** C96: a partition with one cluster cannot be shown. *)
Theorem C96_one_cluster : forall env o set_order choice sqrt M x y h repr ws dir, d_matrix o = Some M -> square (x * y) M ->
  showable x y None ws h ->
  cluster_histograms env o set_order choice sqrt [h] repr None ws dir = Raise TypeError.
Proof.
  intros env o set_order choice sqrt M x y h repr ws dir HM Hs (Hr & (c & Ec & Hc) & Hl & _).
  unfold cluster_histograms, make_histograms. cbn [mapM]. unfold has_centroid. rewrite Ec, HM. cbn [py_assert bind]. unfold plot_clusters. cbn [getitem nth_error bind fst length].
  change (getitem [(h, Plain)] 0) with (Ok (h, Plain)). cbn [bind fst].
  assert (E : forall a b, two_balanced_divisors_order_x_y (Z.of_nat 1) a b = Ok (1, 1)%Z).
  { intros a b. destruct (order_x_y_spec 1 a b ltac:(lia)) as (dx & dy & E & Hx & Hy & Hm & _). change (Z.of_nat 1) with 1%Z. rewrite E.
    assert (dx = 1 /\ dy = 1)%Z as [-> ->] by nia. reflexivity. }
  rewrite E. cbn [bind]. unfold overall_max. cbn [foldM]. unfold own_centroid. rewrite Ec. cbn [bind].
  destruct (plain_ok env o M x y HM Hs h c Hr Hc) as (ds & Ep & Dd & Dl). unfold hist_distances. rewrite Ep. cbn [bind hist_max]. unfold max_distance.
  destruct (np_max_ok ds) as (m & Em & _); [intros ->; destruct (members (h_region h) x y); [destruct ws; cbn in Hl; lia|discriminate]|]. rewrite Em. cbn [bind].
  destruct (np_max_ok [m; NInf]) as (m2 & Em2 & _); [discriminate|]. rewrite Em2. reflexivity.
Qed.
Print Assumptions C96_one_cluster.

(** C96: a centroid known only to the region underneath passes the check but the figure then fails. *)
Theorem C96_inherited_centroid_refuted : forall env o set_order choice sqrt M h1 h2 repr rp ws dir c, d_matrix o = Some M ->
  h_own h1 = None -> has_centroid h1 = true -> has_centroid h2 = true -> answered_centroid h1 = Some c ->
  cluster_histograms env o set_order choice sqrt [h1; h2] repr rp ws dir = Raise AttributeError.
Proof.
  intros env o set_order choice sqrt M h1 h2 repr rp ws dir c HM E1 H1 H2 _. unfold cluster_histograms, make_histograms. cbn [mapM]. rewrite H1, H2, HM. cbn [py_assert bind].
  unfold plot_clusters. match goal with |- context [getitem ?l 0] => change (getitem l 0) with (Ok (h1, match rp with None => Plain | Some n => WithRandom n end)) end. cbn [bind fst length].
  destruct (order_x_y_spec (Z.of_nat 2) (Z.of_nat (t_x (h_region h1))) (Z.of_nat (t_y (h_region h1))) ltac:(lia)) as (dx & dy & E & _). rewrite E. cbn [bind].
  unfold overall_max. cbn [foldM]. unfold own_centroid. rewrite E1. reflexivity.
Qed.
Print Assumptions C96_inherited_centroid_refuted.

(** C96: without a distance matrix, or with a cluster without a centroid, the figure is refused. *)
Theorem C96_refused : forall env o set_order choice sqrt clusters repr rp ws dir, clusters <> [] ->
  (d_matrix o = None \/ exists h, In h clusters /\ answered_centroid h = None) ->
  cluster_histograms env o set_order choice sqrt clusters repr rp ws dir = Raise AssertionError.
Proof.
  intros env o set_order choice sqrt clusters repr rp ws dir Hne H. unfold cluster_histograms, make_histograms.
  destruct (mapM (fun c => py_assert (has_centroid c)) clusters) as [u|e] eqn:E; cbn [bind].
  - destruct H as [H|(h & Hin & Hh)].
    + rewrite H. destruct clusters as [|c cl]; [congruence|]. reflexivity.
    + exfalso. assert (Hall : forall h, In h clusters -> has_centroid h = true).
      { clear - E. revert u E. induction clusters as [|a l IH]; intros u E h Hin; [contradiction|]. cbn [mapM] in E. destruct (has_centroid a) eqn:Ha; cbn [py_assert bind] in E; [|discriminate].
        destruct (mapM (fun c => py_assert (has_centroid c)) l) as [u'|] eqn:E'; cbn [bind] in E; [|discriminate]. destruct Hin as [<-|Hin]; auto. eapply IH; eauto. }
      specialize (Hall h Hin). apply (C93_get_centroid h true) in Hall. destruct Hall as [c Hc]. congruence.
  - assert (e = AssertionError).
    { clear - E. revert E. induction clusters as [|a l IH]; cbn [mapM]; [discriminate|]. destruct (has_centroid a); cbn [py_assert bind]; [|congruence].
      destruct (mapM (fun c => py_assert (has_centroid c)) l); cbn [bind]; [discriminate|]. auto. }
    subst e. reflexivity.
Qed.
Print Assumptions C96_refused.

(** C96: figures of one clustering with different numbers of random points go to different files. *)
Theorem C96_file_names : forall dir repr r1 r2, figure_name (Some dir) repr r1 = figure_name (Some dir) repr r2 -> r1 = r2.
Proof.
  intros dir repr r1 r2 E. unfold figure_name in E. assert (E' := f_equal (fun o => match o with Some s => s | None => ""%string end) E). cbv beta iota in E'. clear E. rename E' into E. apply sapp_inj_l in E. apply sapp_inj_l in E. apply sapp_inj_r in E.
  assert (Z : forall s n, (s ++ "__random" ++ str_int n)%string <> s).
  { intros s n H. apply (f_equal slen) in H. rewrite !slen_app in H. cbn [slen String.length] in H. unfold slen in H. cbn in H. lia. }
  destruct r1 as [a|], r2 as [b|]; auto.
  - apply sapp_inj_l in E. apply sapp_inj_l in E. apply str_int_inj in E. congruence.
  - exfalso. exact (Z _ a E).
  - exfalso. symmetry in E. exact (Z _ b E).
Qed.
Print Assumptions C96_file_names.

Example C96_example :
  Forall (showable 2 2 None true) ex_v2 /\
  cluster_histograms ex_venv ex_vo (fun l => l) ex_draw ex_root ex_v2 "alg" None false (Some "plots"%string) =
    Ok ([((0, 0)%Z, [DrawHist [Fin 0; Fin 1] "cluster0"; DrawXLim (Fin 1)]); ((1, 0)%Z, [DrawHist [Fin 0; Fin 1] "cluster1"; DrawXLim (Fin 1)])],
        Some "plots/variance-histograms__alg.pdf"%string) /\
  figure_name (Some "plots"%string) "alg" (Some 0%Z) = Some "plots/variance-histograms__alg__random0.pdf"%string /\
  has_centroid ex_vc = true /\ h_own ex_vc = None.
Proof. split; [apply ex_v2_showable; auto|]. repeat split; vm_compute; reflexivity. Qed.

(** C97: the clusters of a partition are given their centroids in order: the i-th medoid, or the point of the i-th index; a
    list that is too short gives IndexError. *)
Lemma give_centroids p r x y oc (g : Z -> res point) n : valid_partition p x y -> t_x r = x -> t_y r = y ->
  (forall i, (0 <= i < pk p)%Z -> (i < Z.of_nat n)%Z -> exists m, g i = Ok m) ->
  (forall i, (0 <= i < pk p)%Z -> (Z.of_nat n <= i)%Z -> g i = Raise IndexError) ->
  let clusters := mapM (fun i => c <- create_spt_cluster p r i ;; own <- (m <- g i ;; Ok (Some m)) ;; Ok (HRegion ("cluster" ++ str_int i)%string c own oc)) (zrange 0 (pk p)) in
  ((pk p <= Z.of_nat n)%Z -> exists hs, clusters = Ok hs /\ Z.of_nat (length hs) = pk p /\
     forall i h, nth_error hs i = Some h -> (Z.of_nat i < pk p)%Z /\ exists m, g (Z.of_nat i) = Ok m /\
       h = HRegion ("cluster" ++ str_int (Z.of_nat i))%string (TCluster r p (Z.of_nat i)) (Some m) oc) /\
  ((Z.of_nat n < pk p)%Z -> clusters = Raise IndexError).
Proof.
  intros Hv Ex Ey G1 G2 clusters. destruct Hv as (Hx & Hy & Hw & Hl & pt & Hg & Hpt).
  assert (Hk : (0 < pk p)%Z) by (specialize (Hl pt _ Hg Hpt); lia).
  assert (C : forall i, create_spt_cluster p r i = Ok (TCluster r p i)) by (intros i; unfold create_spt_cluster; rewrite Hx, Hy, Ex, Ey, !Nat.eqb_refl; reflexivity).
  unfold clusters. split; intros Hlen.
  - exists (map (fun i => HRegion ("cluster" ++ str_int i)%string (TCluster r p i) (match g i with Ok m => Some m | Raise _ => None end) oc) (zrange 0 (pk p))). split; [|split].
    + apply mapM_ok. intros i Hi. apply in_zrange in Hi. rewrite C. destruct (G1 i) as (m & ->); try lia. reflexivity.
    + rewrite map_length, zrange_length. lia.
    + intros i h Hi. rewrite nth_error_map in Hi. assert (Hlt : (Z.of_nat i < pk p - 0)%Z).
      { destruct (nth_error (zrange 0 (pk p)) i) eqn:Ez; [|discriminate]. assert (Q : nth_error (zrange 0 (pk p)) i <> None) by congruence. apply nth_error_Some in Q. rewrite zrange_length in Q. lia. }
      split; [lia|]. rewrite (zrange_nth 0 (pk p) i Hlt) in Hi. cbn [option_map Z.add] in Hi. destruct (G1 (Z.of_nat i)) as (m & Em); try lia. exists m. split; auto. rewrite Em in Hi. congruence.
  - apply mapM_some_raise with (Z.of_nat n).
    + apply in_zrange. lia.
    + rewrite C, G2 by lia. reflexivity.
    + intros i e Hi. apply in_zrange in Hi. rewrite C. destruct (Z.ltb_spec i (Z.of_nat n)).
      * destruct (G1 i) as (m & ->); try lia. discriminate.
      * rewrite G2 by lia. cbn [bind]. congruence.
Qed.
Theorem C97_medoids : forall p r x y own_centroid medoids, valid_partition p x y -> t_x r = x -> t_y r = y ->
  medoids <> [] ->
  ((pk p <= Z.of_nat (length medoids))%Z ->
   exists hs, clusters_with_centroids p r own_centroid None (Some medoids) = Ok hs /\ Z.of_nat (length hs) = pk p /\
     forall i h, nth_error hs i = Some h -> exists m, nth_error medoids i = Some m /\
       h = HRegion ("cluster" ++ str_int (Z.of_nat i))%string (TCluster r p (Z.of_nat i)) (Some m) own_centroid) /\
  ((Z.of_nat (length medoids) < pk p)%Z -> clusters_with_centroids p r own_centroid None (Some medoids) = Raise IndexError).
Proof.
  intros p r x y oc ms Hv Ex Ey Hne.
  destruct (give_centroids p r x y oc (getitem ms) (length ms) Hv Ex Ey) as [A B].
  { intros i Hi Hl. replace i with (Z.of_nat (Z.to_nat i)) by lia. rewrite ClusteringFacts.getitem_cons_nat. destruct (nth_error ms (Z.to_nat i)) as [m|] eqn:E; eauto. apply nth_error_None in E. lia. }
  { intros i Hi Hl. replace i with (Z.of_nat (Z.to_nat i)) by lia. rewrite ClusteringFacts.getitem_cons_nat. destruct (nth_error ms (Z.to_nat i)) as [m|] eqn:E; eauto. assert (Q : nth_error ms (Z.to_nat i) <> None) by congruence. apply nth_error_Some in Q. lia. }
  unfold clusters_with_centroids. cbn [py_assert bind]. destruct ms as [|m0 ms0]; [congruence|]. split; [|exact B].
  intros Hl. destruct (A Hl) as (hs & E & L & P). exists hs. split; [exact E|]. split; [exact L|].
  intros i h Hi. destruct (P i h Hi) as (_ & m & Em & Eh). exists m. split; auto. rewrite ClusteringFacts.getitem_cons_nat in Em. destruct (nth_error (m0 :: ms0) i); congruence.
Qed.
Print Assumptions C97_medoids.

Theorem C97_indices : forall p r x y own_centroid indices, valid_partition p x y -> t_x r = x -> t_y r = y ->
  indices <> [] -> Forall (fun n => (0 <= n < Z.of_nat (x * y))%Z) indices ->
  ((pk p <= Z.of_nat (length indices))%Z ->
   exists hs, clusters_with_centroids p r own_centroid (Some indices) None = Ok hs /\ Z.of_nat (length hs) = pk p /\
     forall i h, nth_error hs i = Some h -> exists n m, nth_error indices i = Some n /\
       in_grid x y m /\ (fst m * Z.of_nat y + snd m = n)%Z /\
       h = HRegion ("cluster" ++ str_int (Z.of_nat i))%string (TCluster r p (Z.of_nat i)) (Some m) own_centroid) /\
  ((Z.of_nat (length indices) < pk p)%Z -> clusters_with_centroids p r own_centroid (Some indices) None = Raise IndexError).
Proof.
  intros p r x y oc ns Hv Ex Ey Hne F. rewrite Forall_forall in F.
  assert (Hy : a2y (labels p) = y) by apply Hv.
  assert (D : forall i n, nth_error ns i = Some n -> exists m, decode_index y n = Ok m /\ in_grid x y m /\ encode_point y m = n).
  { intros i n Hn. apply PartitionFacts.encode_decode. apply F. eapply nth_error_In; eauto. }
  destruct (give_centroids p r x y oc (fun i => n <- getitem ns i ;; decode_index y n) (length ns) Hv Ex Ey) as [A B].
  { intros i Hi Hl. replace i with (Z.of_nat (Z.to_nat i)) by lia. rewrite ClusteringFacts.getitem_cons_nat. destruct (nth_error ns (Z.to_nat i)) as [n|] eqn:E; [|apply nth_error_None in E; lia].
    cbn [bind]. destruct (D _ _ E) as (m & Em & _). eauto. }
  { intros i Hi Hl. replace i with (Z.of_nat (Z.to_nat i)) by lia. rewrite ClusteringFacts.getitem_cons_nat. destruct (nth_error ns (Z.to_nat i)) as [m|] eqn:E; eauto. assert (Q : nth_error ns (Z.to_nat i) <> None) by congruence. apply nth_error_Some in Q. lia. }
  unfold clusters_with_centroids. cbn [py_assert bind]. destruct ns as [|n0 ns0]; [congruence|]. rewrite Hy.
  remember (n0 :: ns0) as ns eqn:Ens.
  match goal with |- (_ -> exists hs, ?m = _ /\ _) /\ _ => match type of A with (_ -> exists hs, ?m' = _ /\ _) => assert (Em : m = m') end end.
  { apply mapM_ext. intros i _. destruct (create_spt_cluster p r i); cbn [bind]; auto. destruct (getitem ns i) as [n|]; cbn [bind]; auto. }
  rewrite Em. split; [|exact B].
  intros Hl. destruct (A Hl) as (hs & E & L & P). exists hs. split; [exact E|]. split; [exact L|].
  intros i h Hi. destruct (P i h Hi) as (_ & m & Emm & Eh). rewrite ClusteringFacts.getitem_cons_nat in Emm. destruct (nth_error ns i) as [n|] eqn:En; [|discriminate]. cbn [bind] in Emm.
  destruct (D i n En) as (m' & E1 & E2 & E3). assert (m' = m) by congruence. subst m'. exists n, m. auto.
Qed.
Print Assumptions C97_indices.

(** C97: indices and medoids together are refused; without either, or with an empty list, the clusters have no centroid of
    their own and answer with the one of the region underneath. *)
Theorem C97_both_or_none : forall p r x y own_centroid, valid_partition p x y -> t_x r = x -> t_y r = y ->
  (forall ns ms, clusters_with_centroids p r own_centroid (Some ns) (Some ms) = Raise AssertionError) /\
  (forall ns ms, (ns, ms) = (None, None) \/ (ns, ms) = (Some [], None) \/ (ns, ms) = (None, Some []) ->
     exists hs, clusters_with_centroids p r own_centroid ns ms = Ok hs /\ Z.of_nat (length hs) = pk p /\
       forall h, In h hs -> h_own h = None /\ answered_centroid h = own_centroid).
Proof.
  intros p r x y oc Hv Ex Ey. split; [reflexivity|]. intros ns ms H. destruct Hv as (Hx & Hy & Hw & Hl & pt & Hg & Hpt).
  assert (Hk : (0 < pk p)%Z) by (specialize (Hl pt _ Hg Hpt); lia).
  assert (C : forall i, create_spt_cluster p r i = Ok (TCluster r p i)) by (intros i; unfold create_spt_cluster; rewrite Hx, Hy, Ex, Ey, !Nat.eqb_refl; reflexivity).
  exists (map (fun i => HRegion ("cluster" ++ str_int i)%string (TCluster r p i) None oc) (zrange 0 (pk p))). split; [|split].
  - assert (E : py_assert (match ns, ms with Some _, Some _ => false | _, _ => true end) = Ok tt) by (destruct H as [H|[H|H]]; injection H as -> ->; reflexivity).
    unfold clusters_with_centroids. rewrite E. cbn [bind]. apply mapM_ok. intros i _. rewrite C. destruct H as [H|[H|H]]; injection H as -> ->; reflexivity.
  - rewrite map_length, zrange_length. lia.
  - intros h Hin. apply in_map_iff in Hin. destruct Hin as (i & <- & _). split; reflexivity.
Qed.
Print Assumptions C97_both_or_none.

Example C97_example :
  valid_partition ex_vp 2 2 /\
  (hs <- clusters_with_centroids ex_vp (TPlain ex_v) None None (Some [(0, 0); (1, 0)]%Z) ;; Ok (map h_own hs)) = Ok [Some (0, 0); Some (1, 0)]%Z /\
  (hs <- clusters_with_centroids ex_vp (TPlain ex_v) None (Some [1; 2]%Z) None ;; Ok (map h_own hs)) = Ok [Some (0, 1); Some (1, 0)]%Z /\
  clusters_with_centroids ex_vp (TPlain ex_v) None (Some [1]%Z) None = Raise IndexError.
Proof. split; [pose proof (ex_v2_showable None false (or_introl eq_refl)) as F; apply Forall_inv in F; destruct F as ((_ & G) & _); exact G|]. repeat split; vm_compute; reflexivity. Qed.
