(** The RMSE distance of series of numbers. *)
From Coq Require Import QArith Lqa.
From Verif Require Import Base.Py Base.PyFacts Base.Float Base.FloatFacts Model.Distance Proofs.ErrorFacts Proofs.BarycenterFacts.
From Coq Require Import ZifyBool ZifyNat.
Local Close Scope Q_scope. Local Open Scope nat_scope.
Lemma rmse_numbers sqrt (a b : list Q) : a <> [] -> length a = length b -> exists q,
  rmse_measure sqrt (map Fin a) (map Fin b) = sqrt (Fin q) /\
  (q * inject_Z (Z.of_nat (length a)) == qsum (map (fun '(u, v) => (u - v) * (u - v)) (combine a b)))%Q /\
  (0 <= q)%Q /\ ((q == 0)%Q <-> Forall2 Qeq a b).
Proof.
  intros Hne Hl. unfold rmse_measure.
  assert (N : forall l : list Q, existsb is_nan (map Fin l) = false) by (induction l; auto). rewrite !N. cbn [orb].
  assert (C : combine (map Fin a) (map Fin b) = map (fun '(u, v) => (Fin u, Fin v)) (combine a b)).
  { clear. revert b. induction a as [|u a IH]; intros [|v b]; cbn; auto. rewrite IH. auto. }
  rewrite C, map_map.
  assert (Hc : combine a b <> []) by (destruct a, b; cbn in *; congruence).
  assert (Lc : length (combine a b) = length a) by (rewrite combine_length; lia).
  pose proof (fmean_map_fin (fun x => let '(u, v) := (let '(p, q) := x in (Fin p, Fin q)) in let e := fsub u v in fmul e e)
     (fun '(u, v) => (u - v) * (u - v))%Q (combine a b) Hc) as F.
  assert (Hx : forall x, In x (combine a b) -> feqv (let '(u, v) := (let '(p, q) := x in (Fin p, Fin q)) in let e := fsub u v in fmul e e) (Fin ((fun '(u, v) => (u - v) * (u - v))%Q x))).
  { intros [u v] _. cbn. reflexivity. }
  specialize (F Hx). destruct (fmean _) as [| | |q] eqn:Eq; cbn in F; try contradiction. exists q. split; auto.
  set (S := qsum (map (fun '(u, v) => ((u - v) * (u - v))%Q) (combine a b))) in *. unfold len_q in F. rewrite Lc in F.
  assert (P : (0 < inject_Z (Z.of_nat (length a)))%Q) by (apply inject_nat_pos; destruct a; [congruence|cbn; lia]).
  assert (M : (q * inject_Z (Z.of_nat (length a)) == S)%Q) by (rewrite F; field; lra).
  assert (V : forall v, In v (map (fun '(u, v) => ((u - v) * (u - v))%Q) (combine a b)) -> (0 <= v)%Q).
  { intros v Hv. apply in_map_iff in Hv. destruct Hv as ([u w] & <- & _). apply sq_nonneg. }
  pose proof (qsum_nonneg _ V) as S0. fold S in S0. split; auto. split; [nra|].
  assert (Z : (q == 0 <-> S == 0)%Q) by (split; intros; nra). rewrite Z. unfold S. rewrite (qsum_zero_iff _ V). clear - Hl. split.
  - revert b Hl. induction a as [|u a IH]; intros [|v b] Hl H; cbn in Hl; try discriminate; constructor.
    + assert (H1 : ((u - v) * (u - v) == 0)%Q) by (apply H; left; auto). destruct (Qmult_integral _ _ H1); lra.
    + apply IH; [lia|]. intros x Hx. apply H. right. auto.
  - intros F v Hv. revert v Hv. induction F as [|u w a b E F IH]; cbn; [intros ? []|]. intros v [<-|Hv]; [rewrite E; ring|]. apply IH; auto.
Qed.
