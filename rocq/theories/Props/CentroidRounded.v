(** C155: the centroid of a region in floating point. *)
From Coq Require Import Lia Lqa QArith.
From Verif Require Import Base.Py Base.PyFacts Base.Arr Base.ArrFacts Base.Float Base.FloatFacts Model.Region Model.Pool Model.Distance Model.Rounded Model.RoundedErrors Model.CentroidRounded
  Spec.Grid Spec.Partition Spec.Distance Spec.Rounded Spec.Ieee Spec.KMedoidsRounded Proofs.RegionFacts Proofs.PartitionFacts Proofs.SubsetFacts Proofs.DistanceFacts Proofs.DistanceObjFacts
  Proofs.KMedoidsFacts Proofs.RoundedFacts Proofs.IeeeFacts Proofs.SummationFacts Proofs.CentroidRoundedFacts Props.Ieee Props.Distance Props.KMedoidsRounded.
From Coq Require Import ZifyBool ZifyNat.
Local Notation length := List.length.
Local Close Scope Q_scope.
Local Open Scope nat_scope.

(** However the sums are formed, the centroid of a region is the first point of its grid with the least computed sum. *)
Theorem C155_centroid_of_region : forall sum env md o M (d : arr3 fnum), wf3 d ->
  square (a3x d * a3y d) M -> provides env md o M ->
  exists rows best dists, find_centroid_and_distances_r sum env (TPlain d) md true o = Ok (best, dists) /\
    (forall p, In p (grid (a3x d) (a3y d)) -> row_at M (index_of (a3y d) p) (seq 0 (a3x d * a3y d)) (rows p)) /\
    first_least (fun p => sum (rows p)) (grid (a3x d) (a3y d)) best /\
    (forall c, best = Some c -> dists = Some (rows c)).
Proof.
  intros sum env md o M d Hw Hs Hp.
  pose proof (plain_items d Hw) as Hit.
  assert (Hpts : map fst (map (fun p => (p, t_ser (TPlain d) p)) (grid (a3x d) (a3y d))) = grid (a3x d) (a3y d)) by (rewrite map_map; apply map_id).
  destruct (r_centroid_spec sum env (TPlain d) md o M (a3x d * a3y d) (a3x d) (a3y d) _ (seq 0 (a3x d * a3y d)) Hit eq_refl eq_refl) as (Hr & best & dists & E & Hc); auto.
  - rewrite Hpts. intros p Hin. apply in_grid_iff. exact Hin.
  - intros j Hj. apply in_seq in Hj. lia.
  - rewrite Hpts in Hr, Hc.
    eexists _, best, dists. split; [ exact E | split; [ exact Hr | split; [ apply (r_centroid_first_least _ _ _ _ _ Hc) | ] ] ].
    intros c ->. cbn in Hc. apply Hc.
Qed.
Print Assumptions C155_centroid_of_region.

(** and that of a cluster is the first of its members. *)
Theorem C155_centroid_of_cluster : forall sum env md o M (p : crisp) (d : arr3 fnum) x y k, wf3 d ->
  valid_partition p x y -> a3x d = x -> a3y d = y -> square (x * y) M -> provides env md o M ->
  exists members rows best dists, find_centroid_and_distances_r sum env (TCluster (TPlain d) p k) md true o = Ok (best, dists) /\
    NoDup members /\ (forall pt, In pt members <-> in_grid x y pt /\ label_at p pt k) /\
    (forall pt, In pt members -> row_at M (index_of y pt) (map (index_of y) members) (rows pt)) /\
    first_least (fun pt => sum (rows pt)) members best /\
    (forall c, best = Some c -> dists = Some (rows c)).
Proof.
  intros sum env md o M p d x y k Hw Hv Ex Ey Hs Hp.
  destruct (cluster_t_items p d x y k Hv Hw Ex Ey) as (items & E1 & E2 & _).
  destruct (all_point_indices_cluster p (TPlain d) x y k Hv Ex Ey) as (ns & E3 & _ & E4).
  set (members := filter (fun pt => (label_of p pt =? k)%Z) (grid x y)) in *.
  assert (Hm : forall pt, In pt members -> in_grid x y pt) by (intros pt H; apply filter_In in H; apply in_grid_iff, H).
  assert (En : ns = map (index_of y) members).
  { rewrite E4. apply map_ext_in. intros pt H. destruct (index_of_encode _ _ _ (Hm pt H)) as [ Ee _ ]. rewrite Ee. apply Nat2Z.id. }
  destruct (r_centroid_spec sum env (TCluster (TPlain d) p k) md o M (x * y) x y items ns E1 E3 Ey) as (Hr & best & dists & E & Hc); auto.
  - rewrite E2. exact Hm.
  - rewrite En. intros j Hj. apply in_map_iff in Hj. destruct Hj as (pt & <- & H). apply (index_of_encode _ _ _ (Hm pt H)).
  - rewrite E2 in Hr, Hc. rewrite En in Hr, Hc.
    eexists members, _, best, dists. split; [ exact E | split; [ apply NoDup_filter, grid_nodup | split; [ | split; [ exact Hr | split; [ apply (r_centroid_first_least _ _ _ _ _ Hc) | ] ] ] ] ].
    + intros pt. unfold members. rewrite filter_In, in_grid_iff. split.
      * intros [ Hg Hl ]. split; [ exact Hg | ]. destruct (label_of_spec p x y pt Hv Hg) as [ Hla _ ]. 
        replace k with (label_of p pt) by lia. exact Hla.
      * intros [ Hg Hl ]. split; [ exact Hg | ]. destruct (label_of_spec p x y pt Hv Hg) as [ Hla _ ]. unfold label_at in *.
        rewrite Hla in Hl. injection Hl as ->. apply Z.eqb_refl.
    + intros c ->. cbn in Hc. apply Hc.
Qed.
Print Assumptions C155_centroid_of_cluster.

(** A matrix of finite distances, none of them negative. *)
Definition finite_distances (M : mat) : Prop := forall i j v, entry M i j = Some v -> is_fin v = true /\ fle (Fin 0) v = true.

Lemma row_length M i js l : row_at M i js l -> length l = length js.
Proof. intros H. induction H; cbn; congruence. Qed.

Lemma rows_finite M i js l : finite_distances M -> row_at M i js l -> forall v, In v l -> is_fin v = true /\ fle (Fin 0) v = true.
Proof. intros HM H. induction H as [ | j w js l Hj H IH ]; [ intros ? [] | ]. intros v [ <- | Hv ]; [ exact (HM _ _ _ Hj) | auto ]. Qed.

(** With additions of relative error [u] and error [e] near zero, [h] deep: a region without centroid has only sums that overflow,
    and the exact sum of the distances to the centroid exceeds that of any other point by no more than the errors of the sums. *)
Theorem C155_near_least : forall u e rnd ord N h env md o M (d : arr3 fnum),
  (0 <= u <= 1)%Q -> (0 <= e)%Q -> rounding rnd -> accurate u e rnd -> summation ord N h -> a3x d * a3y d <= N ->
  wf3 d -> square (a3x d * a3y d) M -> finite_distances M -> provides env md o M ->
  let z := (e * inject_Z (Z.of_nat (a3x d * a3y d)))%Q in
  exists rows best dists, find_centroid_and_distances_r (sum_by rnd ord) env (TPlain d) md true o = Ok (best, dists) /\
    (forall p, In p (grid (a3x d) (a3y d)) -> row_at M (index_of (a3y d) p) (seq 0 (a3x d * a3y d)) (rows p)) /\
    match best with
    | None => forall p, In p (grid (a3x d) (a3y d)) -> sum_by rnd ord (rows p) = PInf
    | Some c => In c (grid (a3x d) (a3y d)) /\ dists = Some (rows c) /\
        forall p, In p (grid (a3x d) (a3y d)) -> sum_by rnd ord (rows p) = PInf \/
          exists qc qp, fsum (rows c) = Fin qc /\ fsum (rows p) = Fin qp /\ (qpow (1 - u) h * qc <= qpow (1 + u) h * (qp + z) + z)%Q
    end.
Proof.
  intros u e rnd ord N h env md o M d Hu He HR HA Ho HN Hw Hs HM Hp z.
  destruct (C155_centroid_of_region (sum_by rnd ord) env md o M d Hw Hs Hp) as (rows & best & dists & E & Hr & Hf & Hd).
  exists rows, best, dists. split; [ exact E | split; [ exact Hr | ] ].
  pose proof (r_near_least u e rnd ord N h rows (grid (a3x d) (a3y d)) best (a3x d * a3y d) Hu He HR HA Ho HN) as B.
  specialize (B (fun p Hin => eq_trans (row_length _ _ _ _ (Hr p Hin)) (seq_length _ _))).
  specialize (B (fun p v Hin => rows_finite M _ _ _ HM (Hr p Hin) v) Hf).
  destruct best as [ c | ]; [ | exact B ]. destruct B as [ B1 B2 ]. split; [ exact B1 | split; [ apply Hd; reflexivity | exact B2 ] ].
Qed.
Print Assumptions C155_near_least.

(** The same for a cluster. *)
Theorem C155_near_least_of_cluster : forall u e rnd ord N h env md o M (p : crisp) (d : arr3 fnum) x y k,
  (0 <= u <= 1)%Q -> (0 <= e)%Q -> rounding rnd -> accurate u e rnd -> summation ord N h -> x * y <= N ->
  wf3 d -> valid_partition p x y -> a3x d = x -> a3y d = y -> square (x * y) M -> finite_distances M -> provides env md o M ->
  exists members rows best dists, find_centroid_and_distances_r (sum_by rnd ord) env (TCluster (TPlain d) p k) md true o = Ok (best, dists) /\
    NoDup members /\ (forall pt, In pt members <-> in_grid x y pt /\ label_at p pt k) /\
    (forall pt, In pt members -> row_at M (index_of y pt) (map (index_of y) members) (rows pt)) /\
    let z := (e * inject_Z (Z.of_nat (length members)))%Q in
    match best with
    | None => forall pt, In pt members -> sum_by rnd ord (rows pt) = PInf
    | Some c => In c members /\ dists = Some (rows c) /\
        forall pt, In pt members -> sum_by rnd ord (rows pt) = PInf \/
          exists qc qp, fsum (rows c) = Fin qc /\ fsum (rows pt) = Fin qp /\ (qpow (1 - u) h * qc <= qpow (1 + u) h * (qp + z) + z)%Q
    end.
Proof.
  intros u e rnd ord N h env md o M p d x y k Hu He HR HA Ho HN Hw Hv Ex Ey Hs HM Hp.
  destruct (C155_centroid_of_cluster (sum_by rnd ord) env md o M p d x y k Hw Hv Ex Ey Hs Hp) as (members & rows & best & dists & E & Hn & Hm & Hr & Hf & Hd).
  assert (L : length members <= x * y).
  { rewrite <- (grid_length x y). apply NoDup_incl_length; [ exact Hn | ]. intros q Hq. apply in_grid_iff. apply Hm, Hq. }
  exists members, rows, best, dists. split; [ exact E | split; [ exact Hn | split; [ exact Hm | split; [ exact Hr | ] ] ] ]. intros z.
  pose proof (r_near_least u e rnd ord N h rows members best (length members) Hu He HR HA Ho ltac:(lia)) as B.
  specialize (B (fun q Hin => eq_trans (row_length _ _ _ _ (Hr q Hin)) (map_length _ _))).
  specialize (B (fun q v Hin => rows_finite M _ _ _ HM (Hr q Hin) v) Hf).
  destruct best as [ c | ]; [ | exact B ]. destruct B as [ B1 B2 ]. split; [ exact B1 | split; [ apply Hd; reflexivity | exact B2 ] ].
Qed.
Print Assumptions C155_near_least_of_cluster.

(** In double precision. *)
Theorem C155_near_least_double : forall ord N h env md o M (d : arr3 fnum),
  summation ord N h -> a3x d * a3y d <= N ->
  wf3 d -> square (a3x d * a3y d) M -> finite_distances M -> provides env md o M ->
  let u := (/ inject_Z (2 ^ 53))%Q in let z := (inject_Z (Z.of_nat (a3x d * a3y d)) / inject_Z (2 ^ 1074))%Q in
  exists rows best dists, find_centroid_and_distances_r (sum_by double ord) env (TPlain d) md true o = Ok (best, dists) /\
    (forall p, In p (grid (a3x d) (a3y d)) -> row_at M (index_of (a3y d) p) (seq 0 (a3x d * a3y d)) (rows p)) /\
    match best with
    | None => forall p, In p (grid (a3x d) (a3y d)) -> sum_by double ord (rows p) = PInf
    | Some c => In c (grid (a3x d) (a3y d)) /\ dists = Some (rows c) /\
        forall p, In p (grid (a3x d) (a3y d)) -> sum_by double ord (rows p) = PInf \/
          exists qc qp, fsum (rows c) = Fin qc /\ fsum (rows p) = Fin qp /\ (qpow (1 - u) h * qc <= qpow (1 + u) h * (qp + z) + z)%Q
    end.
Proof.
  intros ord N h env md o M d Ho HN Hw Hs HM Hp u z.
  pose proof (inj_pos _ (pow_pos 1074 ltac:(lia))) as P1. pose proof (Qinv_lt_0_compat _ P1) as P2.
  set (e := ((1 # 2) / inject_Z (2 ^ 1074))%Q). assert (Ee : (2 * e == / inject_Z (2 ^ 1074))%Q) by (unfold e; field; lra).
  assert (Acc : accurate u e double) by (apply float_accurate; lia).
  assert (Hu : (0 <= u <= 1)%Q) by (split; vm_compute; discriminate).
  destruct (C155_near_least u e double ord N h env md o M d Hu ltac:(lra) double_rounding Acc Ho HN Hw Hs HM Hp) as (rows & best & dists & E & Hr & B).
  exists rows, best, dists. split; [ exact E | split; [ exact Hr | ] ]. destruct best as [ c | ]; [ | exact B ].
  destruct B as (B1 & B2 & B3). split; [ exact B1 | split; [ exact B2 | ] ]. intros p Hin.
  destruct (B3 p Hin) as [ F | (qc & qp & E1 & E2 & L) ]; [ left; exact F | right ]. exists qc, qp. split; [ exact E1 | split; [ exact E2 | ] ].
  set (n := inject_Z (Z.of_nat (a3x d * a3y d))) in *. assert (Pn : (0 <= n)%Q) by (unfold n; change 0%Q with (inject_Z 0); rewrite <- Zle_Qle; lia).
  assert (Hz : (e * n <= z)%Q). { unfold z, Qdiv. rewrite <- Ee. assert (0 <= e * n)%Q by (apply Qmult_le_0_compat; lra). lra. }
  assert (P3 : (1 <= qpow (1 + u) h)%Q) by (apply qpow_ge1; lra).
  assert (H : (0 <= qpow (1 + u) h * (z - e * n))%Q) by (apply Qmult_le_0_compat; lra). lra.
Qed.
Print Assumptions C155_near_least_double.

(* ---------- examples ---------- *)
(* four points; the exact sums are 18, 32, 17 and 19 *)
Definition four_d : arr3 fnum := mk3 1 1 4 [Fin 0; Fin 0; Fin 0; Fin 0].
Definition four_M : mat := Mat 4 [[Fin 0; Fin 16; Fin 1; Fin 1]; [Fin 16; Fin 0; Fin 7; Fin 9]; [Fin 1; Fin 7; Fin 0; Fin 9]; [Fin 1; Fin 9; Fin 9; Fin 0]].
Definition four_o : dobj := DObj PlainDTW (Some four_M) false.
Lemma four_square : square 4 four_M.
Proof. split; [ reflexivity | split; [ reflexivity | ] ]. intros row [ <- | [ <- | [ <- | [ <- | [] ] ] ] ]; reflexivity. Qed.
Lemma four_finite : finite_distances four_M.
Proof.
  intros i j v H. unfold entry in H. do 4 (destruct i as [ | i ]; [ cbn in H; do 4 (destruct j as [ | j ]; [ cbn in H; injection H as <-; split; reflexivity | ]); destruct j; discriminate | ]).
  destruct i; discriminate.
Qed.
(* the computed sums are 16, 32 (or more), 16 and 20: the first point is taken *)
Lemma four_run : exists ds, find_centroid_and_distances_r (sum_by four_digits one_by_one) ex_env (TPlain four_d) None true four_o = Ok (Some (0, 0)%Z, Some ds).
Proof. eexists. vm_compute. reflexivity. Qed.

Example C155_ex : wf3 four_d /\ square (a3x four_d * a3y four_d) four_M /\ finite_distances four_M /\ provides ex_env None four_o four_M /\
  summation one_by_one 4 4 /\ rounding four_digits /\ accurate (1 # 16) (1 # 8) four_digits /\
  exists ds, find_centroid_and_distances_r (sum_by four_digits one_by_one) ex_env (TPlain four_d) None true four_o = Ok (Some (0, 0)%Z, Some ds).
Proof.
  split; [ reflexivity | split; [ exact four_square | split; [ exact four_finite | split; [ left; reflexivity | split; [ apply one_by_one_summation | split; [ exact four_rounding | split; [ | exact four_run ] ] ] ] ] ] ].
  apply (float_accurate 4 2 10); lia.
Qed.

(** In a binary floating-point format the centroid need not be a point of least exact sum: with four digits the sums 18 and 17 both
    come out as 16. *)
Theorem C155_exact_least_refuted :
  ~ (forall p k2 emax ord N env md o M (d : arr3 fnum) c dists i l,
       rounding (float_round p k2 emax) -> summation ord N N -> a3x d * a3y d <= N -> wf3 d -> square (a3x d * a3y d) M -> finite_distances M -> provides env md o M ->
       find_centroid_and_distances_r (sum_by (float_round p k2 emax) ord) env (TPlain d) md true o = Ok (Some c, Some dists) ->
       i < a3x d * a3y d -> row_at M i (seq 0 (a3x d * a3y d)) l -> fle (fsum dists) (fsum l) = true).
Proof.
  intros H.
  specialize (H 4%Z 2%Z 10%Z one_by_one 4 ex_env None four_o four_M four_d (0, 0)%Z [Fin 0; Fin 16; Fin 1; Fin 1] 2 [Fin 1; Fin 7; Fin 0; Fin 9]
    four_rounding (one_by_one_summation 4) (le_n 4) eq_refl four_square four_finite (or_introl eq_refl)).
  enough (fle (fsum [Fin 0; Fin 16; Fin 1; Fin 1]) (fsum [Fin 1; Fin 7; Fin 0; Fin 9]) = true) as F by (vm_compute in F; discriminate F).
  apply H; [ vm_compute; reflexivity | cbn; lia | repeat constructor ].
Qed.
Print Assumptions C155_exact_least_refuted.

(* a cluster of two points, at distance 10 of each other *)
Example C155_cluster_ex : valid_partition ex_p 1 3 /\ square (1 * 3) ex_matrix /\ finite_distances ex_matrix /\ provides ex_env None (DObj PlainDTW (Some ex_matrix) false) ex_matrix /\
  exists ds, find_centroid_and_distances_r (sum_by four_digits one_by_one) ex_env (TCluster (TPlain ex_d) ex_p 0) None true (DObj PlainDTW (Some ex_matrix) false) = Ok (Some (0, 0)%Z, Some ds).
Proof.
  split; [ apply C34_ex | split; [ exact ex_square | split; [ | split; [ left; reflexivity | eexists; vm_compute; reflexivity ] ] ] ].
  intros i j v H. unfold entry in H. do 3 (destruct i as [ | i ]; [ cbn in H; do 3 (destruct j as [ | j ]; [ cbn in H; injection H as <-; split; reflexivity | ]); destruct j; discriminate | ]).
  destruct i; discriminate.
Qed.
