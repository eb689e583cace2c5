From Coq Require Import QArith Lqa ZifyBool ZifyNat.
From Verif Require Import Base.Py Base.Float Base.PyFacts Base.FloatFacts Model.Variance Model.Optimize Spec.Variance Spec.Optimize Proofs.VarianceFacts.
Local Close Scope Q_scope.
Local Open Scope nat_scope.

Lemma perf_pair_ok row t e : has_perf row t e -> perf_pair row = Ok (Fin t, Fin e).
Proof.
  intros [p ->]. unfold perf_pair, perf_point. rewrite app_length. cbn [length]. replace (length p + 2 - 2) with (length p) by lia.
  rewrite skipn_app, skipn_all, Nat.sub_diag. reflexivity.
Qed.
Lemma has_perf_fun row t e t' e' : has_perf row t e -> has_perf row t' e' -> t = t' /\ e = e'.
Proof. intros H H'. apply perf_pair_ok in H, H'. rewrite H in H'. injection H' as -> ->. auto. Qed.

Definition inv (q : Q) : fnum := fdiv (Fin 1) (Fin q).
Lemma inv_cases q : (0 <= q)%Q -> (q == 0 /\ inv q = PInf)%Q \/ (0 < q /\ inv q = Fin (1 / q))%Q.
Proof.
  intros H. unfold inv, fdiv. destruct (Qeq_bool q 0) eqn:E.
  - left. apply Qeq_bool_iff in E. split; auto.
  - right. apply Qeq_bool_neq in E. split; auto. lra.
Qed.
Lemma inv_not_nan q : (0 <= q)%Q -> is_nan (inv q) = false.
Proof. intros H. destruct (inv_cases q H) as [[_ ->]|[_ ->]]; auto. Qed.
Lemma div_lt a b : (0 < a -> 0 < b -> (1 / b < 1 / a <-> a < b))%Q.
Proof.
  intros Ha Hb. assert (E : (1 / a == b * (1 / (a * b)))%Q) by (field; lra). assert (E' : (1 / b == a * (1 / (a * b)))%Q) by (field; lra).
  rewrite E, E'. assert (P : (0 < 1 / (a * b))%Q).
  { apply Qlt_shift_div_l; [|lra]. rewrite <- (Qmult_0_l b). apply Qmult_lt_compat_r; auto. }
  split; intros H; [apply Qmult_lt_r in H; auto|apply Qmult_lt_r; auto].
Qed.
Lemma inv_lt a b : (0 <= a)%Q -> (0 <= b)%Q -> flt (inv b) (inv a) = true <-> (a < b)%Q.
Proof.
  intros Ha Hb. destruct (inv_cases a Ha) as [[Za ->]|[Pa ->]], (inv_cases b Hb) as [[Zb ->]|[Pb ->]]; cbn [flt].
  - split; [discriminate|lra].
  - split; auto. intros _. lra.
  - split; [discriminate|lra].
  - rewrite Qltb_spec. apply div_lt; auto.
Qed.
Lemma inv_le a b : (0 <= a)%Q -> (0 <= b)%Q -> fle (inv b) (inv a) = true <-> (a <= b)%Q.
Proof.
  intros Ha Hb. rewrite fle_iff by (apply inv_not_nan; auto). pose proof (inv_lt b a Hb Ha) as L. destruct (flt (inv a) (inv b)); split; intros H; auto; try discriminate.
  - destruct L as [L _]. specialize (L eq_refl). lra.
  - apply Qnot_lt_le. intros H'. apply L in H'. discriminate.
Qed.
Lemma dominates_beats t e t' e' : (0 <= t)%Q -> (0 <= e)%Q -> (0 <= t')%Q -> (0 <= e')%Q -> dominates (inv t', inv e') (inv t, inv e) <-> beats t' e' t e.
Proof.
  intros. unfold dominates, beats. cbn [fst snd]. rewrite !inv_le, !inv_lt by auto. reflexivity.
Qed.

(** rows of results *)
Definition good_row (row : list fnum) : Prop := exists t e, has_perf row t e /\ (0 <= t)%Q /\ (0 <= e)%Q.
Definition pf (row : list fnum) : Q * Q := match perf_pair row with Ok (Fin t, Fin e) => (t, e) | _ => (0%Q, 0%Q) end.
Lemma pf_perf row t e : has_perf row t e -> pf row = (t, e).
Proof. intros H. unfold pf. rewrite (perf_pair_ok _ _ _ H). reflexivity. Qed.
Lemma good_pf row : good_row row -> has_perf row (fst (pf row)) (snd (pf row)) /\ (0 <= fst (pf row))%Q /\ (0 <= snd (pf row))%Q.
Proof. intros (t & e & H & Ht & He). rewrite (pf_perf _ _ _ H). auto. Qed.
Definition wof (row : list fnum) : fnum * fnum := (inv (fst (pf row)), inv (snd (pf row))).
Lemma ws_ok results : (forall row, In row results -> good_row row) ->
  mapM (fun row => '(time, error) <- perf_pair row ;; Ok (fdiv (Fin 1) time, fdiv (Fin 1) error)) results = Ok (map wof results).
Proof.
  intros H. apply mapM_ok. intros row Hr. destruct (good_pf row (H row Hr)) as (P & _ & _). rewrite (perf_pair_ok _ _ _ P). reflexivity.
Qed.
Lemma ex_min {A} (f : A -> Q) (l : list A) : l <> [] -> exists x, In x l /\ forall y, In y l -> (f x <= f y)%Q.
Proof.
  induction l as [|a l IH]; intros H; [congruence|]. destruct l as [|b l].
  - exists a. split; [left; auto|]. intros y [<-|[]]. lra.
  - destruct IH as (x & Hx & M); [discriminate|]. destruct (Qlt_le_dec (f a) (f x)) as [L|L].
    + exists a. split; [left; auto|]. intros y [<-|Hy]; [lra|]. specialize (M y Hy). lra.
    + exists x. split; [right; auto|]. intros y [<-|Hy]; auto.
Qed.
