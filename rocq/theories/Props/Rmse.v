(** Properties C146 and C147: the RMSE distance as a metric, its combination over many series, and grid distances. *)
From Coq Require Import QArith Lqa ZifyBool ZifyNat.
From Verif Require Import Base.Py Base.PyFacts Base.Arr Base.ArrFacts Base.Float Base.FloatFacts Model.Region Model.Distance Model.Errors Model.Rmse
  Spec.Grid Spec.Errors Spec.Rmse Proofs.ErrorFacts Proofs.BarycenterFacts Proofs.BasicsFacts Proofs.DistanceFacts Proofs.PartitionFacts Proofs.RmseFacts.
Local Close Scope Q_scope. Local Open Scope nat_scope.
Local Notation length := List.length.

(** A detour over a third series is never shorter, up to the rounding of the square root. *)
Theorem C146_triangle : forall eps sqrt (a b c : list Q) s t u, (0 <= eps < 1)%Q -> root_within eps sqrt ->
  a <> [] -> length a = length b -> length b = length c ->
  rmse_measure sqrt (map Fin a) (map Fin b) = Fin s -> rmse_measure sqrt (map Fin b) (map Fin c) = Fin t ->
  rmse_measure sqrt (map Fin a) (map Fin c) = Fin u ->
  ((1 - eps) * (u * u) <= (1 + eps) * ((s + t) * (s + t)))%Q.
Proof.
  intros eps sqrt a b c s t u He Hr Ha L1 L2 Es Et Eu.
  assert (Hb : b <> []) by (destruct a, b; cbn in L1; congruence).
  destruct (rmse_is sqrt a b Ha L1) as (q1 & E1 & P1 & M1). destruct (rmse_is sqrt b c Hb L2) as (q2 & E2 & P2 & M2).
  destruct (rmse_is sqrt a c Ha (eq_trans L1 L2)) as (q3 & E3 & P3 & M3). rewrite E1 in Es. rewrite E2 in Et. rewrite E3 in Eu.
  destruct (Hr _ _ P1 Es) as (S0 & S1 & _). destruct (Hr _ _ P2 Et) as (T0 & T1 & _). destruct (Hr _ _ P3 Eu) as (U0 & _ & U1).
  rewrite <- L1 in M2. pose proof (len_pos a Ha) as N. unfold len_q in N. set (n := inject_Z (Z.of_nat (length a))) in *.
  assert (D : (0 < 1 - eps)%Q) by lra.
  assert (B1 : (sqd a b <= (n / (1 - eps)) * (s * s))%Q).
  { rewrite <- M1. apply (Qmult_le_l _ _ (1 - eps) D). assert (E : ((1 - eps) * (n / (1 - eps) * (s * s)) == n * (s * s))%Q) by (field; lra). rewrite E. nra. }
  assert (B2 : (sqd b c <= (n / (1 - eps)) * (t * t))%Q).
  { rewrite <- M2. apply (Qmult_le_l _ _ (1 - eps) D). assert (E : ((1 - eps) * (n / (1 - eps) * (t * t)) == n * (t * t))%Q) by (field; lra). rewrite E. nra. }
  assert (K : (0 <= n / (1 - eps))%Q) by (apply Qle_shift_div_l; lra).
  pose proof (minkowski _ s t a b c K S0 T0 L1 L2 B1 B2) as M. rewrite <- M3 in M.
  apply (Qmult_le_l _ _ (1 - eps) D) in M.
  assert (E : ((1 - eps) * (n / (1 - eps) * ((s + t) * (s + t))) == n * ((s + t) * (s + t)))%Q) by (field; lra). rewrite E in M.
  assert (Q3 : ((1 - eps) * q3 <= (s + t) * (s + t))%Q) by (apply (Qmult_le_l _ _ n N); lra).
  assert (R1 : ((1 - eps) * (u * u) <= (1 - eps) * ((1 + eps) * q3))%Q) by (apply (Qmult_le_l _ _ (1 - eps) D); exact U1).
  assert (R2 : ((1 + eps) * ((1 - eps) * q3) <= (1 + eps) * ((s + t) * (s + t)))%Q) by (apply Qmult_le_l; [lra|exact Q3]).
  lra.
Qed.
Print Assumptions C146_triangle.

(** Combining the distances of pairs of series of one length is the RMSE of all the samples together, up to rounding. *)
Theorem C146_combine : forall eps sqrt n (pairs : list (list Q * list Q)) v, (0 <= eps < 1)%Q -> root_within eps sqrt ->
  pairs <> [] -> 0 < n -> (forall p, In p pairs -> length (fst p) = n /\ length (snd p) = n) ->
  (forall p, In p pairs -> exists d, rmse_measure sqrt (map Fin (fst p)) (map Fin (snd p)) = Fin d) ->
  rmse_combine sqrt (map (fun p => rmse_measure sqrt (map Fin (fst p)) (map Fin (snd p))) pairs) = Fin v ->
  let all := mse_of (concat (map fst pairs)) (concat (map snd pairs)) in
  (0 <= v /\ (1 - eps) * (1 - eps) * all <= v * v /\ v * v <= (1 + eps) * (1 + eps) * all)%Q.
Proof.
  intros eps sqrt n pairs v He Hr Hne Hn Hl Hd E all.
  assert (Hds : exists ds, map (fun p => rmse_measure sqrt (map Fin (fst p)) (map Fin (snd p))) pairs = map Fin ds /\ length ds = length pairs /\
            ((1 - eps) * qsum (map (fun p => sqd (fst p) (snd p)) pairs) <= len_q n * qsum (map (fun d => d * d) ds))%Q /\
            (len_q n * qsum (map (fun d => d * d) ds) <= (1 + eps) * qsum (map (fun p => sqd (fst p) (snd p)) pairs))%Q).
  { clear E all Hne v. induction pairs as [|p ps IH].
    - exists []. cbn. repeat split; lra.
    - destruct (IH (fun q Hq => Hl q (or_intror Hq)) (fun q Hq => Hd q (or_intror Hq))) as (ds & E & L & B1 & B2).
      destruct (Hd p (or_introl eq_refl)) as (d & Ed). destruct (Hl p (or_introl eq_refl)) as (L1 & L2).
      assert (Hp : fst p <> []) by (destruct (fst p); cbn in L1; [lia|discriminate]).
      destruct (rmse_is sqrt (fst p) (snd p) Hp ltac:(congruence)) as (q & Eq & Q0 & Qs). rewrite L1 in Qs. fold (len_q n) in Qs.
      pose proof Ed as Ed'. rewrite Eq in Ed'. destruct (Hr _ _ Q0 Ed') as (D0 & D1 & D2).
      assert (N : (0 < len_q n)%Q) by (apply inject_nat_pos; exact Hn).
      assert (T1 : (len_q n * ((1 - eps) * q) <= len_q n * (d * d))%Q) by (apply Qmult_le_l; assumption).
      assert (T2 : (len_q n * (d * d) <= len_q n * ((1 + eps) * q))%Q) by (apply Qmult_le_l; assumption).
      exists (d :: ds). cbn [map length]. rewrite Ed, E, L. split; [reflexivity|]. split; [reflexivity|].
      change (qsum (sqd (fst p) (snd p) :: ?x)) with (sqd (fst p) (snd p) + qsum x)%Q. cbn [qsum fold_right]. fold (qsum (map (fun d => (d * d)%Q) ds)). fold (qsum (map (fun p => sqd (fst p) (snd p)) ps)).
      rewrite <- Qs. split; lra. }
  destruct Hds as (ds & Ed & Ld & B1 & B2). rewrite Ed in E. unfold rmse_combine, root_mean_squared in E.
  assert (Dne : ds <> []) by (destruct ds, pairs; cbn in Ld; congruence).
  pose proof (mean_squared_fin ds Dne) as M. destruct (mean_squared (map Fin ds)) as [| | |m]; cbn in M; try contradiction.
  set (Sd := qsum (map (fun v => (v * v)%Q) ds)) in *. set (Sp := qsum (map (fun p => sqd (fst p) (snd p)) pairs)) in *.
  pose proof (len_pos ds Dne) as Nd. assert (Nn : (0 < len_q n)%Q) by (apply inject_nat_pos; exact Hn).
  assert (Sd0 : (0 <= Sd)%Q). { apply qsum_nonneg. intros x Hx. apply in_map_iff in Hx. destruct Hx as (d & <- & _). apply sq_nonneg. }
  assert (m0 : (0 <= m)%Q) by (rewrite M; apply Qle_shift_div_l; lra).
  destruct (Hr _ _ m0 E) as (V0 & V1 & V2). split; [exact V0|].
  assert (A : (all * (len_q n * len_q (length ds)) == Sp)%Q).
  { unfold all. assert (L1 : length (concat (map fst pairs)) = length pairs * n).
    { rewrite (concat_length n); [rewrite map_length; reflexivity|]. intros x Hx. apply in_map_iff in Hx. destruct Hx as (p & <- & Hp). apply Hl. exact Hp. }
    assert (L2 : length (concat (map snd pairs)) = length pairs * n).
    { rewrite (concat_length n); [rewrite map_length; reflexivity|]. intros x Hx. apply in_map_iff in Hx. destruct Hx as (p & <- & Hp). apply Hl. exact Hp. }
    rewrite mse_sqd by congruence. rewrite (sqd_concat n pairs Hl). fold Sp. rewrite L1, <- Ld.
    assert (X : (len_q (length ds * n) == len_q n * len_q (length ds))%Q) by (unfold len_q; rewrite Nat2Z.inj_mul, inject_Z_mult; ring).
    rewrite X. field. split; lra. }
  assert (m1 : (m * len_q (length ds) == Sd)%Q) by (rewrite M; field; lra).
  assert (P : (0 < len_q n * len_q (length ds))%Q) by nra.
  assert (C1 : ((1 - eps) * all <= m)%Q).
  { apply (Qmult_le_l _ _ _ P). assert (X : (len_q n * len_q (length ds) * m == len_q n * Sd)%Q) by (rewrite <- m1; ring). rewrite X.
    assert (Y : (len_q n * len_q (length ds) * ((1 - eps) * all) == (1 - eps) * Sp)%Q) by (rewrite <- A; ring). rewrite Y. exact B1. }
  assert (C2 : (m <= (1 + eps) * all)%Q).
  { apply (Qmult_le_l _ _ _ P). assert (X : (len_q n * len_q (length ds) * m == len_q n * Sd)%Q) by (rewrite <- m1; ring). rewrite X.
    assert (Y : (len_q n * len_q (length ds) * ((1 + eps) * all) == (1 + eps) * Sp)%Q) by (rewrite <- A; ring). rewrite Y. exact B2. }
  assert (C3 : ((1 - eps) * ((1 - eps) * all) <= (1 - eps) * m)%Q) by (apply Qmult_le_l; [lra|exact C1]).
  assert (C4 : ((1 + eps) * m <= (1 + eps) * ((1 + eps) * all))%Q) by (apply Qmult_le_l; [lra|exact C2]).
  split; lra.
Qed.
Print Assumptions C146_combine.

(** Distances that are missing are left out. *)
Theorem C146_missing_left_out : forall sqrt distances,
  rmse_combine sqrt distances = rmse_combine sqrt (filter (fun v => negb (is_nan v)) distances).
Proof.
  intros sqrt l. unfold rmse_combine, root_mean_squared, mean_squared, fnanmean. f_equal. f_equal.
  unfold squared. induction l as [|x l IH]; [reflexivity|]. destruct x as [| | |q]; cbn [map filter is_nan negb fmul]; cbn; try (f_equal; exact IH). exact IH.
Qed.
Print Assumptions C146_missing_left_out.

(* an exact root of the squares of integers *)
Definition square_root (v : fnum) : fnum :=
  match v with
  | Fin q => let q' := Qred q in if ((Qden q' =? 1)%positive && (Z.sqrt (Qnum q') * Z.sqrt (Qnum q') =? Qnum q')%Z)%bool then Fin (inject_Z (Z.sqrt (Qnum q'))) else NaN
  | _ => NaN
  end.
Lemma square_root_exact : root_within 0 square_root.
Proof.
  intros q v Hq. cbn [square_root]. destruct ((Qden (Qred q) =? 1)%positive && (Z.sqrt (Qnum (Qred q)) * Z.sqrt (Qnum (Qred q)) =? Qnum (Qred q))%Z)%bool eqn:E; [|discriminate].
  intros H. injection H as <-. apply andb_true_iff in E. destruct E as [E1 E2]. apply Pos.eqb_eq in E1. apply Z.eqb_eq in E2.
  assert (X : (q == inject_Z (Qnum (Qred q)))%Q). { rewrite <- (Qred_correct q) at 1. destruct (Qred q) as [n d]. cbn in E1. subst d. reflexivity. }
  assert (Y : (inject_Z (Z.sqrt (Qnum (Qred q))) * inject_Z (Z.sqrt (Qnum (Qred q))) == q)%Q) by (rewrite <- inject_Z_mult, E2; symmetry; exact X).
  split; [|split; rewrite Y; lra]. change 0%Q with (inject_Z 0). rewrite <- Zle_Qle. apply Z.sqrt_nonneg.
Qed.

(** The series must have one length: short series count as much as long ones. *)
Theorem C146_any_lengths_refuted : exists sqrt (pairs : list (list Q * list Q)) v, root_within 0 sqrt /\
  (forall p, In p pairs -> length (fst p) = length (snd p) /\ fst p <> []) /\
  rmse_combine sqrt (map (fun p => rmse_measure sqrt (map Fin (fst p)) (map Fin (snd p))) pairs) = Fin v /\
  ~ (v * v == mse_of (concat (map fst pairs)) (concat (map snd pairs)))%Q.
Proof.
  exists square_root, [([1], [0]); ([7; 0], [0; 7])]%Q. eexists. split; [exact square_root_exact|].
  split; [intros p [<-|[<-|[]]]; split; [reflexivity|discriminate|reflexivity|discriminate]|].
  split; [vm_compute; reflexivity|]. vm_compute. discriminate.
Qed.
Print Assumptions C146_any_lengths_refuted.

Example C146_ex :
  (let m a b := rmse_measure square_root (map Fin a) (map Fin b) in
  m [0; 0] [3; 3] = Fin 3 /\ m [3; 3] [2; 4] = Fin 1 /\ m [0; 0] [8; 8] = Fin 8 /\ m [3; 3] [8; 8] = Fin 5 /\
  rmse_combine square_root [m [0; 0] [1; 1]; m [0; 0] [7; -7]; NaN] = Fin 5)%Q.
Proof. vm_compute. repeat split. Qed.

(** C147: the distances of all points of a grid to one point, row by row. *)
Theorem C147_grid_distances : forall sqrt i j x_len y_len,
  let ds := distances_to_point_in_2d_region sqrt i j (Z.of_nat x_len) (Z.of_nat y_len) in
  length ds = x_len * y_len /\
  forall x y, x < x_len -> y < y_len -> exists q, nth_error ds (x * y_len + y) = Some (sqrt (Fin q)) /\
    let dx := (Z.of_nat x - i)%Z in let dy := (Z.of_nat y - j)%Z in
    (q == inject_Z (dx * dx + dy * dy))%Q /\ ((q == 0)%Q <-> (i, j) = (Z.of_nat x, Z.of_nat y)).
Proof.
  intros sqrt i j x_len y_len. cbv zeta. unfold distances_to_point_in_2d_region. rewrite list_of_2d_points_grid. split.
  - rewrite map_length. apply (grid_row_major x_len y_len).
  - intros x y Hx Hy.
    assert (G : nth_error (grid x_len y_len) (x * y_len + y) = Some (Z.of_nat x, Z.of_nat y)).
    { apply (grid_row_major x_len y_len); assumption. }
    eexists. split; [erewrite map_nth_error by exact G; reflexivity|].
    cbv zeta. set (dx := (Z.of_nat x - i)%Z). set (dy := (Z.of_nat y - j)%Z).
    assert (X : (0 + inject_Z dx * inject_Z dx + inject_Z dy * inject_Z dy == inject_Z (dx * dx + dy * dy))%Q) by (rewrite inject_Z_plus, !inject_Z_mult; ring).
    split; [exact X|]. rewrite X. change 0%Q with (inject_Z 0). rewrite inject_Z_injective.
    split; [intros H; assert (dx = 0 /\ dy = 0)%Z by nia; unfold dx, dy in *; f_equal; lia|intros H; injection H as -> ->; unfold dx, dy; nia].
Qed.
Print Assumptions C147_grid_distances.
Example C147_ex : distances_to_point_in_2d_region square_root 0 0 4 5 =
  map Fin [0; 1; 2; 3; 4]%Q ++ ([Fin 1; NaN; NaN; NaN; NaN] ++ [Fin 2; NaN; NaN; NaN; NaN] ++ [Fin 3; NaN; NaN; NaN; Fin 5])%Q.
Proof. reflexivity. Qed.
