(** C41-C44, C77: dynamic time warping and DTW barycenter averaging. *)
From Coq Require Import ZifyBool ZifyNat QArith Lqa.
From Verif Require Import Base.Py Base.PyFacts Base.Arr Base.ArrFacts Base.Float Base.FloatFacts Model.DBA Spec.Warping
  Proofs.KMedoidsFacts Proofs.DBAFacts Proofs.WarpingFacts Proofs.BarycenterFacts.
Local Close Scope Q_scope.
Local Open Scope nat_scope.

(* ---------------------------------------------------------------- C41 *)
(** whatever the scratch matrices contain, the result is the least cost of all warping paths *)
Theorem C41_squared_DTW_is_least : forall (s t : list Q) X Y cost delta, s <> [] -> t <> [] -> length s <= X -> length t <= Y ->
  sized cost X Y -> sized delta X Y ->
  exists v cost' delta', squared_DTW (map Fin s) (map Fin t) cost delta = Ok (Fin v, cost', delta') /\
    (exists P, warping_path s t P /\ (path_cost s t P == v)%Q) /\
    (forall P, warping_path s t P -> (v <= path_cost s t P)%Q) /\
    sized cost' X Y /\ sized delta' X Y.
Proof.
  intros s t X Y cost delta Hs Ht HX HY Sc Sd.
  destruct (squared_DTW_ok s t X Y HX HY cost delta) as (v & cost' & delta' & E & (P & [ Hp Hl ] & Ev) & S1 & S2); auto.
  { destruct s; [ congruence | cbn; lia ]. }
  { destruct t; [ congruence | cbn; lia ]. }
  exists v, cost', delta'. split; [ exact E | split; [ eauto | split; [ | auto ] ] ]. intros P' HP'. rewrite <- Ev. auto.
Qed.
Print Assumptions C41_squared_DTW_is_least.

(** scratch matrices that are too small are refused *)
Theorem C41_small_matrix : forall (s t : list fnum) cost delta, a2x delta < length s \/ a2y delta < length t ->
  squared_DTW s t cost delta = Raise ValueError.
Proof.
  intros s t cost delta H. unfold squared_DTW, fill_delta_mat_dtw.
  replace ((length s <=? a2x delta) && (length t <=? a2y delta)) with false by lia. reflexivity.
Qed.
Print Assumptions C41_small_matrix.

Example C41_ex : exists cost' delta',
  squared_DTW [Fin 1; Fin 3; Fin 3] [Fin 1; Fin 2] (full2 3 4 NaN) (full2 3 4 PInf) = Ok (Fin (0 + 1 + 1), cost', delta') /\
  warping_path [1%Q; 3%Q; 3%Q] [1%Q; 2%Q] [(0, 0); (1, 1); (2, 1)] /\ sized (full2 3 4 NaN) 3 4.
Proof.
  eexists _, _. split; [ vm_compute; reflexivity | split; [ | split; [ apply wf2_full | auto ] ] ].
  exists 2, 1. split; [ reflexivity | split; [ reflexivity | ] ].
  apply (path_top 1 1 [(0, 0); (1, 1)]). apply (path_diag 0 0 [(0, 0)]). constructor.
Qed.

(* ---------------------------------------------------------------- C42 *)
Lemma DTW_dtw2 : forall (s t : list Q) X Y cost delta x, s <> [] -> t <> [] -> length s <= X -> length t <= Y ->
  sized cost X Y -> sized delta X Y -> squared_DTW (map Fin s) (map Fin t) cost delta = Ok x -> exists v, fst (fst x) = Fin v /\ dtw2 s t v.
Proof.
  intros s t X Y cost delta x Hs Ht HX HY Sc Sd E.
  destruct (squared_DTW_ok s t X Y HX HY cost delta) as (v & cost' & delta' & E' & Hv & _); auto.
  { destruct s; [ congruence | cbn; lia ]. }
  { destruct t; [ congruence | cbn; lia ]. }
  rewrite E in E'. injection E' as ->. exists v. split; [ reflexivity | exact Hv ].
Qed.

(** symmetric, even with other scratch matrices *)
Theorem C42_symmetric : forall (s t : list Q) X Y cost delta X' Y' cost' delta' u v,
  s <> [] -> t <> [] -> length s <= X -> length t <= Y -> sized cost X Y -> sized delta X Y ->
  length t <= X' -> length s <= Y' -> sized cost' X' Y' -> sized delta' X' Y' ->
  squared_DTW (map Fin s) (map Fin t) cost delta = Ok u -> squared_DTW (map Fin t) (map Fin s) cost' delta' = Ok v ->
  feqv (fst (fst u)) (fst (fst v)).
Proof.
  intros s t X Y cost delta X' Y' cost' delta' u v Hs Ht HX HY S1 S2 HX' HY' S3 S4 E1 E2.
  destruct (DTW_dtw2 _ _ _ _ _ _ _ Hs Ht HX HY S1 S2 E1) as (a & -> & Ha).
  destruct (DTW_dtw2 _ _ _ _ _ _ _ Ht Hs HX' HY' S3 S4 E2) as (b & -> & Hb).
  cbn. apply (dtw2_unique s t); [ exact Ha | apply dtw2_sym; exact Hb ].
Qed.
Print Assumptions C42_symmetric.

Theorem C42_nonnegative : forall (s t : list Q) X Y cost delta x, s <> [] -> t <> [] -> length s <= X -> length t <= Y ->
  sized cost X Y -> sized delta X Y -> squared_DTW (map Fin s) (map Fin t) cost delta = Ok x -> fle (Fin 0) (fst (fst x)) = true.
Proof.
  intros s t X Y cost delta x Hs Ht HX HY Sc Sd E. destruct (DTW_dtw2 _ _ _ _ _ _ _ Hs Ht HX HY Sc Sd E) as (v & -> & P & _ & Ev).
  apply fle_Fin. rewrite <- Ev. apply path_cost_nonneg.
Qed.
Print Assumptions C42_nonnegative.

(** at most the pointwise squared distance of series of the same length; so 0 from a series to itself *)
Theorem C42_at_most_pointwise : forall (s t : list Q) X Y cost delta x, s <> [] -> length s = length t -> length s <= X -> length t <= Y ->
  sized cost X Y -> sized delta X Y -> squared_DTW (map Fin s) (map Fin t) cost delta = Ok x ->
  fle (fst (fst x)) (Fin (qsum (map (fun '(a, b) => (a - b) * (a - b))%Q (combine s t)))) = true.
Proof.
  intros s t X Y cost delta x Hs HL HX HY Sc Sd E.
  assert (Ht : t <> []) by (intros ->; destruct s; [ congruence | discriminate ]).
  destruct (DTW_dtw2 _ _ _ _ _ _ _ Hs Ht HX HY Sc Sd E) as (v & -> & P & [ _ Hl ] & Ev). apply fle_Fin. rewrite <- Ev.
  destruct s as [ | s0 s' ]; [ congruence | ]. set (k := length s') in *.
  assert (Hw : warping_path (s0 :: s') t (map (fun i => (i, i)) (seq 0 (S k)))).
  { exists k, k. split; [ reflexivity | split; [ rewrite <- HL; reflexivity | apply path_diagonal ] ]. }
  eapply Qle_trans; [ apply (Hl _ Hw) | ]. apply Qle_lteq. right. unfold path_cost. rewrite map_map.
  replace (combine (s0 :: s') t) with (map (fun i => (nth i (s0 :: s') 0%Q, nth i t 0%Q)) (seq 0 (S k))).
  { rewrite map_map. reflexivity. }
  apply list_ext_len; [ rewrite map_length, seq_length, combine_length, <- HL; cbn [length]; lia | ].
  intros i Hi. rewrite map_length, seq_length in Hi. rewrite nth_error_map, nth_error_seq.
  replace (i <? S k) with true by lia. cbn [option_map]. rewrite Nat.add_0_l.
  rewrite (nth_error_nth' (combine (s0 :: s') t) (0%Q, 0%Q)) by (rewrite combine_length, <- HL; cbn [length]; fold k; lia).
  rewrite combine_nth by exact HL. reflexivity.
Qed.
Print Assumptions C42_at_most_pointwise.

Theorem C42_zero_to_itself : forall (s : list Q) X Y cost delta x, s <> [] -> length s <= X -> length s <= Y ->
  sized cost X Y -> sized delta X Y -> squared_DTW (map Fin s) (map Fin s) cost delta = Ok x -> feqv (fst (fst x)) (Fin 0).
Proof.
  intros s X Y cost delta x Hs HX HY Sc Sd E.
  pose proof (C42_at_most_pointwise s s X Y cost delta x Hs eq_refl HX HY Sc Sd E) as H1.
  pose proof (C42_nonnegative s s X Y cost delta x Hs Hs HX HY Sc Sd E) as H2.
  destruct (DTW_dtw2 _ _ _ _ _ _ _ Hs Hs HX HY Sc Sd E) as (v & Ev & _). rewrite Ev in *. apply fle_Fin in H1, H2.
  assert (Z0 : (qsum (map (fun '(a, b) => (a - b) * (a - b))%Q (combine s s)) == 0)%Q).
  { clear. induction s as [ | a s IH ]; cbn; [ reflexivity | ]. rewrite IH. ring. }
  rewrite Z0 in H1. cbn. lra.
Qed.
Print Assumptions C42_zero_to_itself.

Example C42_ex : exists x y,
  squared_DTW [Fin 1; Fin 3; Fin 3] [Fin 1; Fin 2; Fin 1] (full2 3 3 NaN) (full2 3 3 NaN) = Ok x /\
  squared_DTW [Fin 1; Fin 2; Fin 1] [Fin 1; Fin 3; Fin 3] (full2 4 5 (Fin 7)) (full2 4 5 NaN) = Ok y /\
  feqv (fst (fst x)) (Fin 5) /\ feqv (fst (fst y)) (Fin 5).
Proof. eexists _, _. split; [ vm_compute; reflexivity | split; [ vm_compute; reflexivity | split; vm_compute; reflexivity ] ]. Qed.

(* ---------------------------------------------------------------- C43 *)
(** the update succeeds; there is a cheapest warping path for every series so that each new value is the mean of the
    samples aligned to its position, at least one for every series *)
Theorem C43_update_is_mean_of_aligned : forall (c : list Q) ss X Y cost path delta, c <> [] -> length c <= X -> ss <> [] -> fits Y ss ->
  sized cost X Y -> sized path X Y -> sized delta X Y ->
  exists new paths cost' path' delta', DBA_update (map Fin c) (fins ss) cost path delta = Ok (map Fin new, cost', path', delta') /\
    length new = length c /\ Forall2 (cheapest c) ss paths /\
    (forall k, k < length c -> length ss <= length (aligned k ss paths) /\
       (nth k new 0 == qsum (aligned k ss paths) / inject_Z (Z.of_nat (length (aligned k ss paths))))%Q) /\
    sized cost' X Y /\ sized path' X Y /\ sized delta' X Y.
Proof.
  intros c ss X Y cost path delta Hc HX Hne Hf Sc Sp Sd. apply update_spec; auto. destruct c; [ congruence | cbn; lia ].
Qed.
Print Assumptions C43_update_is_mean_of_aligned.

(** so it lies between the least and the greatest of all samples *)
Theorem C43_update_in_range : forall (c : list Q) ss X Y cost path delta lo hi, c <> [] -> length c <= X -> ss <> [] -> fits Y ss ->
  sized cost X Y -> sized path X Y -> sized delta X Y ->
  (forall s v, In s ss -> In v s -> lo <= v <= hi)%Q ->
  exists new cost' path' delta', DBA_update (map Fin c) (fins ss) cost path delta = Ok (map Fin new, cost', path', delta') /\
    forall v, In v new -> (lo <= v <= hi)%Q.
Proof.
  intros c ss X Y cost path delta lo hi Hc HX Hne Hf Sc Sp Sd Hb.
  destruct (C43_update_is_mean_of_aligned c ss X Y cost path delta Hc HX Hne Hf Sc Sp Sd) as (new & paths & cost' & path' & delta' & E & L & HF & Hm & _).
  exists new, cost', path', delta'. split; [ exact E | ]. intros v Hv.
  apply (In_nth _ _ 0%Q) in Hv. destruct Hv as (k & Hk & <-). destruct (Hm k) as [ Hlen Ev ]; [ lia | ]. rewrite Ev.
  apply mean_bounds.
  - destruct (aligned k ss paths); [ destruct ss; [ congruence | cbn in Hlen; lia ] | discriminate ].
  - intros w Hw. clear - HF Hb Hw. induction HF as [ | s P ss paths [ (a & b & Ea & Eb & Hp) _ ] HF IH ]; [ destruct Hw | ].
    rewrite aligned_cons in Hw. apply in_app_or in Hw. destruct Hw as [ Hw | Hw ].
    + unfold samples in Hw. apply in_map_iff in Hw. destruct Hw as ([ i j ] & <- & Hin). apply filter_In in Hin. destruct Hin as [ Hin _ ].
      apply (Hb s); [ left; reflexivity | ]. apply (path_bounds _ _ _ Hp) in Hin. apply nth_In. cbn. lia.
    + apply IH; [ | exact Hw ]. intros s' v' Hs'. apply Hb. right. exact Hs'.
Qed.
Print Assumptions C43_update_in_range.

(** no series at all: performDBA raises TypeError, and an update alone would divide by zero *)
Theorem C43_no_series : forall choice n (c : list fnum) cost path delta,
  performDBA choice [] n = Raise TypeError /\
  DBA_update c [] cost path delta = Ok (repeat NaN (length c), cost, path, delta).
Proof.
  intros choice n c cost path delta. split; [ reflexivity | ]. unfold DBA_update. cbn [foldM bind]. do 4 f_equal.
  induction c as [ | x c IH ]; [ reflexivity | ]. cbn [length repeat combine map]. rewrite IH. reflexivity.
Qed.
Print Assumptions C43_no_series.

Definition ex_series : list (list Q) := [[1; 3; 3]; [1; 2]; [0; 0; 4; 4]]%Q.

Example C43_ex : fits 4 ex_series /\ exists cost' path' delta',
  exists new, DBA_update (map Fin [1; 3; 3]%Q) (fins ex_series) (full2 4 4 NaN) (full2 4 4 9%Z) (full2 4 4 NaN) = Ok (new, cost', path', delta') /\
    Forall2 feqv new [Fin (1 # 2); Fin 3; Fin 3].
Proof.
  split.
  - intros s [ <- | [ <- | [ <- | [] ] ] ]; cbn; lia.
  - eexists _, _, _, _. split; [ vm_compute; reflexivity | ]. repeat constructor.
Qed.

(* ---------------------------------------------------------------- C44 *)
(** the first candidate of least total squared distance *)
Theorem C44_medoid_is_best_candidate : forall choice ss X cost delta, ss <> [] -> fits X ss ->
  (50 < length ss -> choice (length ss) <> [] /\ forall i, In i (choice (length ss)) -> (0 <= i < Z.of_nat (length ss))%Z) ->
  sized cost X X -> sized delta X X ->
  exists i cost' delta', approximate_medoid_index choice (fins ss) cost delta = Ok (i, cost', delta') /\
    first_least_inertia ss (if length ss <=? 50 then zrange 0 (Z.of_nat (length ss)) else choice (length ss)) i /\
    (0 <= i < Z.of_nat (length ss))%Z /\ sized cost' X X /\ sized delta' X X.
Proof. exact medoid_candidates. Qed.
Print Assumptions C44_medoid_is_best_candidate.

(** with at most 50 series no series at all has a smaller total *)
Theorem C44_exact_for_few_series : forall choice ss X cost delta, ss <> [] -> fits X ss -> length ss <= 50 ->
  sized cost X X -> sized delta X X ->
  exists i cost' delta', approximate_medoid_index choice (fins ss) cost delta = Ok (Z.of_nat i, cost', delta') /\
    i < length ss /\ forall k v v', k < length ss -> inertia (nth i ss []) ss v -> inertia (nth k ss []) ss v' -> (v <= v')%Q.
Proof.
  intros choice ss X cost delta Hne Hf Hl Sc Sd.
  destruct (medoid_candidates choice ss X cost delta Hne Hf) as (i & cost' & delta' & E & HFL & Hi & _); auto; [ lia | ].
  exists (Z.to_nat i), cost', delta'. rewrite Z2Nat.id by lia. split; [ exact E | split; [ lia | ] ].
  intros k v v' Hk Hv Hv'. replace (length ss <=? 50) with true in HFL by lia. destruct HFL as (before & after & Ez & HB & HA).
  assert (Hin : In (Z.of_nat k) (before ++ i :: after)) by (rewrite <- Ez; apply in_zrange; lia).
  replace k with (Z.to_nat (Z.of_nat k)) in Hv' by lia.
  apply in_app_or in Hin. destruct Hin as [ Hin | [ Heq | Hin ] ].
  - apply Qlt_le_weak. exact (HB _ _ _ Hin Hv Hv').
  - rewrite <- Heq in Hv'. rewrite (inertia_unique _ _ _ _ Hv Hv'). lra.
  - exact (HA _ _ _ Hin Hv Hv').
Qed.
Print Assumptions C44_exact_for_few_series.

Example C44_ex : exists cost' delta',
  approximate_medoid_index (fun _ => []) (fins ex_series) (full2 4 4 (Fin 0)) (full2 4 4 (Fin 0)) = Ok (0%Z, cost', delta').
Proof. eexists _, _. vm_compute. reflexivity. Qed.

(* ---------------------------------------------------------------- C77 *)
(** one update never raises the total squared DTW distance to the series *)
Theorem C77_update_never_worse : forall (c : list Q) ss X Y cost path delta, c <> [] -> length c <= X -> ss <> [] -> fits Y ss ->
  sized cost X Y -> sized path X Y -> sized delta X Y ->
  exists new cost' path' delta', DBA_update (map Fin c) (fins ss) cost path delta = Ok (map Fin new, cost', path', delta') /\
    exists v v', inertia c ss v /\ inertia new ss v' /\ (v' <= v)%Q.
Proof.
  intros c ss X Y cost path delta Hc HX Hne Hf Sc Sp Sd.
  destruct (C43_update_is_mean_of_aligned c ss X Y cost path delta Hc HX Hne Hf Sc Sp Sd) as (new & paths & cost' & path' & delta' & E & L & HF & Hm & _).
  exists new, cost', path', delta'. split; [ exact E | ].
  assert (Hs : forall s, In s ss -> s <> []) by (intros s Hs ->; specialize (Hf [] Hs); cbn in Hf; lia).
  destruct (inertia_exists c ss Hc Hs) as (v & Hv). destruct (inertia_exists new ss) as (v' & Hv'); [ | exact Hs | ].
  { intros ->. destruct c; [ congruence | discriminate ]. }
  exists v, v'. split; [ exact Hv | split; [ exact Hv' | ] ]. exact (descent c new ss paths v v' L HF Hne Hm Hv Hv').
Qed.
Print Assumptions C77_update_never_worse.

(** performDBA succeeds for every number of iterations; more iterations are never worse; the result is at least as good
    as the medoid it starts from *)
Theorem C77_performDBA : forall choice ss, ss <> [] -> (forall s, In s ss -> s <> []) ->
  (50 < length ss -> choice (length ss) <> [] /\ forall i, In i (choice (length ss)) -> (0 <= i < Z.of_nat (length ss))%Z) ->
  exists i, first_least_inertia ss (if length ss <=? 50 then zrange 0 (Z.of_nat (length ss)) else choice (length ss)) i /\
    (0 <= i < Z.of_nat (length ss))%Z /\
    let medoid := nth (Z.to_nat i) ss [] in
    forall k, exists c, performDBA choice (fins ss) k = Ok (map Fin c) /\ length c = length medoid /\
      (forall v v', inertia medoid ss v -> inertia c ss v' -> (v' <= v)%Q) /\
      forall d, exists c', performDBA choice (fins ss) (k + d) = Ok (map Fin c') /\
        forall v v', inertia c ss v -> inertia c' ss v' -> (v' <= v)%Q.
Proof. exact perform_spec. Qed.
Print Assumptions C77_performDBA.

(** the distances compared above exist *)
Theorem C77_inertia_exists : forall c ss, c <> [] -> (forall s, In s ss -> s <> []) -> exists v, inertia c ss v.
Proof. exact inertia_exists. Qed.
Print Assumptions C77_inertia_exists.

Example C77_ex : exists c, performDBA (fun _ => []) (fins ex_series) 2 = Ok c /\ length c = 3 /\ forallb is_fin c = true.
Proof. eexists. split; [ vm_compute; reflexivity | vm_compute; auto ]. Qed.
