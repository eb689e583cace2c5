(** Minkowski's inequality for sums of squares over the rationals, and means of means. *)
From Coq Require Import QArith Lqa ZifyBool ZifyNat.
From Verif Require Import Base.Py Base.PyFacts Base.Float Base.FloatFacts Model.Distance Model.Errors Model.Rmse Spec.Errors Spec.Rmse
  Proofs.ErrorFacts Proofs.BarycenterFacts Proofs.BasicsFacts.
Local Close Scope Q_scope. Local Open Scope nat_scope.
Local Notation length := List.length.

Definition sqd (a b : list Q) : Q := qsum (map (fun '(u, v) => (u - v) * (u - v))%Q (combine a b)).

Lemma sqd_cons u a v b : sqd (u :: a) (v :: b) = ((u - v) * (u - v) + sqd a b)%Q.
Proof. reflexivity. Qed.
Lemma sqd_nonneg a b : (0 <= sqd a b)%Q.
Proof. apply qsum_nonneg. intros v Hv. apply in_map_iff in Hv. destruct Hv as ([u w] & <- & _). apply sq_nonneg. Qed.
Lemma sqd_app a a' b b' : length a = length b -> (sqd (a ++ a') (b ++ b') == sqd a b + sqd a' b')%Q.
Proof.
  revert b. induction a as [|u a IH]; intros [|v b] H; cbn in H; try discriminate.
  - cbn [app]. unfold sqd at 2. cbn. ring.
  - cbn [app]. rewrite !sqd_cons, IH by congruence. ring.
Qed.

(* weights instead of Cauchy-Schwarz *)
Lemma minkowski_weights (s t : Q) a : (0 <= s)%Q -> (0 <= t)%Q -> forall b c, length a = length b -> length b = length c ->
  (s * t * sqd a c <= t * (s + t) * sqd a b + s * (s + t) * sqd b c)%Q.
Proof.
  intros Hs Ht. induction a as [|u a IH]; intros [|v b] [|w c] H1 H2; cbn in H1, H2; try discriminate.
  - unfold sqd. cbn. lra.
  - rewrite !sqd_cons. specialize (IH b c ltac:(congruence) ltac:(congruence)).
    assert (0 <= (t * (u - v) - s * (v - w)) * (t * (u - v) - s * (v - w)))%Q by apply sq_nonneg.
    assert (s * t * ((u - w) * (u - w)) <= t * (s + t) * ((u - v) * (u - v)) + s * (s + t) * ((v - w) * (v - w)))%Q.
    { assert (t * (s + t) * ((u - v) * (u - v)) + s * (s + t) * ((v - w) * (v - w)) - s * t * ((u - w) * (u - w)) == (t * (u - v) - s * (v - w)) * (t * (u - v) - s * (v - w)))%Q by ring. lra. }
    lra.
Qed.

Lemma sqd_zero a : forall b c, (sqd a b == 0)%Q -> length a = length b -> length b = length c -> (sqd a c == sqd b c)%Q.
Proof.
  induction a as [|u a IH]; intros [|v b] [|w c] H H1 H2; cbn in H1, H2; try discriminate; [reflexivity|].
  rewrite !sqd_cons in *. pose proof (sq_nonneg (u - v)). pose proof (sqd_nonneg a b).
  assert (E1 : ((u - v) * (u - v) == 0)%Q) by lra. assert (E2 : (sqd a b == 0)%Q) by lra.
  assert (E : (u == v)%Q) by (destruct (Qmult_integral _ _ E1); lra). rewrite (IH b c E2) by congruence. rewrite E. reflexivity.
Qed.
Lemma sqd_zero_r a : forall b c, (sqd b c == 0)%Q -> length a = length b -> length b = length c -> (sqd a c == sqd a b)%Q.
Proof.
  induction a as [|u a IH]; intros [|v b] [|w c] H H1 H2; cbn in H1, H2; try discriminate; [reflexivity|].
  rewrite !sqd_cons in *. pose proof (sq_nonneg (v - w)). pose proof (sqd_nonneg b c).
  assert (E1 : ((v - w) * (v - w) == 0)%Q) by lra. assert (E2 : (sqd b c == 0)%Q) by lra.
  assert (E : (v == w)%Q) by (destruct (Qmult_integral _ _ E1); lra). rewrite (IH b c E2) by congruence. rewrite E. reflexivity.
Qed.

Lemma minkowski (k s t : Q) a b c : (0 <= k)%Q -> (0 <= s)%Q -> (0 <= t)%Q -> length a = length b -> length b = length c ->
  (sqd a b <= k * (s * s))%Q -> (sqd b c <= k * (t * t))%Q -> (sqd a c <= k * ((s + t) * (s + t)))%Q.
Proof.
  intros Hk Hs Ht L1 L2 H1 H2. destruct (Qlt_le_dec 0 s) as [Ps|Ps].
  2:{ assert (E : (s == 0)%Q) by lra. assert (Z : (sqd a b == 0)%Q). { pose proof (sqd_nonneg a b). rewrite E in H1. lra. }
      rewrite (sqd_zero a b c Z L1 L2). rewrite E. lra. }
  destruct (Qlt_le_dec 0 t) as [Pt|Pt].
  2:{ assert (E : (t == 0)%Q) by lra. assert (Z : (sqd b c == 0)%Q). { pose proof (sqd_nonneg b c). rewrite E in H2. lra. }
      rewrite (sqd_zero_r a b c Z L1 L2). rewrite E. lra. }
  pose proof (minkowski_weights s t a Hs Ht b c L1 L2) as M.
  assert (P : (0 < s * t)%Q) by nra.
  assert (T1 : (t * (s + t) * sqd a b <= t * (s + t) * (k * (s * s)))%Q) by (rewrite !(Qmult_comm (t * (s + t))); apply Qmult_le_compat_r; [exact H1|nra]).
  assert (T2 : (s * (s + t) * sqd b c <= s * (s + t) * (k * (t * t)))%Q) by (rewrite !(Qmult_comm (s * (s + t))); apply Qmult_le_compat_r; [exact H2|nra]).
  apply (Qmult_le_l _ _ (s * t) P).
  assert (E : (s * t * (k * ((s + t) * (s + t))) == t * (s + t) * (k * (s * s)) + s * (s + t) * (k * (t * t)))%Q) by ring.
  rewrite E. lra.
Qed.

Lemma rmse_is sqrt (a b : list Q) : a <> [] -> length a = length b -> exists q, rmse_measure sqrt (map Fin a) (map Fin b) = sqrt (Fin q) /\
  (0 <= q)%Q /\ (q * inject_Z (Z.of_nat (length a)) == sqd a b)%Q.
Proof. intros Ha L. destruct (rmse_numbers sqrt a b Ha L) as (q & E & H & H0 & _). exists q. auto. Qed.

Lemma concat_length {A} n (l : list (list A)) : (forall x, In x l -> length x = n) -> length (concat l) = length l * n.
Proof. induction l as [|x l IH]; intros H; [reflexivity|]. cbn [concat length]. rewrite app_length, (IH (fun y Hy => H y (or_intror Hy))), (H x (or_introl eq_refl)). cbn. lia. Qed.

Lemma sqd_concat n (pairs : list (list Q * list Q)) : (forall p, In p pairs -> length (fst p) = n /\ length (snd p) = n) ->
  (sqd (concat (map fst pairs)) (concat (map snd pairs)) == qsum (map (fun p => sqd (fst p) (snd p)) pairs))%Q.
Proof.
  induction pairs as [|p ps IH]; intros H; [reflexivity|]. cbn [map concat]. destruct (H p (or_introl eq_refl)) as [H1 H2].
  rewrite sqd_app by congruence. rewrite IH by (intros; apply H; right; auto). reflexivity.
Qed.

Lemma present_fin l : filter (fun x => negb (is_nan x)) (squared (map Fin l)) = squared (map Fin l).
Proof. induction l as [|x l IH]; cbn; [reflexivity|]. f_equal. exact IH. Qed.
Lemma mean_squared_fin l : l <> [] -> feqv (mean_squared (map Fin l)) (Fin (qsum (map (fun v => v * v) l) / len_q (length l))%Q).
Proof.
  intros H. unfold mean_squared, fnanmean. rewrite present_fin. unfold squared. rewrite map_map.
  apply (fmean_map_fin (fun x => fmul (Fin x) (Fin x)) (fun v => v * v)%Q l H). intros x _. cbn. reflexivity.
Qed.
Lemma mse_sqd a b : length a = length b -> (mse_of a b == sqd a b / len_q (length a))%Q.
Proof.
  intros L. unfold mse_of, average, differences, len_q. rewrite !map_map, map_length, combine_length, <- L, Nat.min_id.
  apply Qdiv_comp; [|reflexivity]. unfold sqd. rewrite (map_ext (fun x : Q * Q => ((let '(x0, y) := x in x0 - y) * (let '(x0, y) := x in x0 - y))%Q) (fun '(u, v) => ((u - v) * (u - v))%Q)) by (intros []; reflexivity).
  reflexivity.
Qed.
Lemma len_pos {A} (l : list A) : l <> [] -> (0 < len_q (length l))%Q.
Proof. intros H. apply inject_nat_pos. destruct l; [congruence|cbn; lia]. Qed.
Lemma rmse_mse sqrt (a b : list Q) : a <> [] -> length a = length b -> exists q, rmse_measure sqrt (map Fin a) (map Fin b) = sqrt (Fin q) /\
  (0 <= q)%Q /\ (q == mse_of a b)%Q.
Proof.
  intros Ha L. destruct (rmse_is sqrt a b Ha L) as (q & E & H0 & H). exists q. split; [exact E|]. split; [exact H0|].
  rewrite mse_sqd by exact L. rewrite <- H. pose proof (len_pos a Ha). unfold len_q in *. field. lra.
Qed.
