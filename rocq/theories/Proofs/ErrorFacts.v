(** The error measures of util/error.py and the root mean square. *)
From Coq Require Import QArith Qabs Lqa Lia.
From Verif Require Import Base.Py Base.PyFacts Base.Arr Base.Float Base.FloatFacts Model.Errors Spec.Forecast Spec.Scaling
  Proofs.KMedoidsFacts Proofs.BarycenterFacts.
From Coq Require Import ZifyBool ZifyNat.
Local Close Scope Q_scope. Local Open Scope nat_scope.

Lemma sq_nonneg : forall d, (0 <= d * d)%Q.
Proof. intros d. nra. Qed.

Definition len_q (n : nat) : Q := inject_Z (Z.of_nat n).

Lemma fmean_fin : forall l, l <> [] -> feqv (fmean (map Fin l)) (Fin (qsum l / len_q (length l))%Q).
Proof.
  intros l H. unfold fmean, fof_nat. rewrite map_length.
  pose proof (fsum_fin l) as E. destruct (fsum (map Fin l)); cbn in E; try contradiction. cbn [fdiv].
  assert (P : (0 < len_q (length l))%Q) by (apply inject_nat_pos; destruct l; [congruence | cbn; lia]).
  unfold len_q in *. destruct (Qeq_bool (inject_Z (Z.of_nat (length l))) 0) eqn:Z.
  - apply Qeq_bool_eq in Z. lra.
  - cbn. rewrite E. reflexivity.
Qed.

Lemma fmean_mor : forall l l', Forall2 feqv l l' -> feqv (fmean l) (fmean l').
Proof.
  intros l l' H. unfold fmean. rewrite (fsum_mor _ _ H). replace (length l') with (length l); [ reflexivity | ].
  clear - H. induction H; cbn; congruence.
Qed.

Lemma fmean_map_fin : forall {A} (f : A -> fnum) (g : A -> Q) l, l <> [] -> (forall x, In x l -> feqv (f x) (Fin (g x))) ->
  feqv (fmean (map f l)) (Fin (qsum (map g l) / len_q (length l))%Q).
Proof.
  intros A f g l Hl H. transitivity (fmean (map Fin (map g l))).
  - apply fmean_mor. clear Hl. induction l as [ | a l IH ]; cbn; constructor; [ apply H; left; auto | apply IH; intros; apply H; right; auto ].
  - rewrite <- (map_length g l). apply fmean_fin. destruct l; [ congruence | discriminate ].
Qed.

Lemma qsum_nonneg : forall l, (forall v, In v l -> 0 <= v)%Q -> (0 <= qsum l)%Q.
Proof. induction l as [ | a l IH ]; intros H; cbn; [ lra | ]. pose proof (H a (or_introl eq_refl)). pose proof (IH (fun v h => H v (or_intror h))). lra. Qed.

Lemma qsum_zero_iff : forall l, (forall v, In v l -> 0 <= v)%Q -> (qsum l == 0 <-> forall v, In v l -> v == 0)%Q.
Proof.
  induction l as [ | a l IH ]; intros H; cbn; [ split; [ intros _ ? [] | reflexivity ] | ].
  pose proof (H a (or_introl eq_refl)). assert (Hl : forall v, In v l -> (0 <= v)%Q) by (intros; apply H; right; auto).
  pose proof (qsum_nonneg l Hl). specialize (IH Hl). split.
  - intros E v [ <- | Hv ]; [ lra | ]. apply IH; [ lra | assumption ].
  - intros E. rewrite (E a (or_introl eq_refl)). assert (qsum l == 0)%Q by (apply IH; intros; apply E; right; assumption). lra.
Qed.

Lemma mean_nonneg : forall n s, (0 <= s -> 0 <= s / len_q n)%Q.
Proof.
  intros n s H. unfold Qdiv. apply Qmult_le_0_compat; [ assumption | ]. apply Qinv_le_0_compat. unfold len_q, Qle. cbn. lia.
Qed.
Lemma mean_zero_iff : forall n s, 0 < n -> (s / len_q n == 0 <-> s == 0)%Q.
Proof.
  intros n s Hn. pose proof (inject_nat_pos n Hn) as P. fold (len_q n) in P. split; intros H.
  - assert (s == s / len_q n * len_q n)%Q by (field; lra). rewrite H0, H. ring.
  - rewrite H. field. lra.
Qed.

(* ---------- element-wise operations ---------- *)
Lemma np_zip_eq : forall f a b, length a = length b -> np_zip f a b = Ok (map (fun '(x, y) => f x y) (combine a b)).
Proof. intros f a b H. unfold np_zip. rewrite H, Nat.eqb_refl. reflexivity. Qed.

Lemma in_combine_nth : forall {A B} (a : list A) (b : list B) x y, In (x, y) (combine a b) <-> exists i, nth_error a i = Some x /\ nth_error b i = Some y.
Proof.
  induction a as [ | u a IH ]; intros b x y.
  - cbn. split; [ intros [] | intros ([ | i ] & H & _); discriminate ].
  - destruct b as [ | v b ]; cbn.
    + split; [ intros [] | intros ([ | i ] & _ & H); discriminate ].
    + rewrite IH. split.
      * intros [ H | (i & H1 & H2) ]; [ injection H as -> ->; exists 0; auto | exists (S i); auto ].
      * intros ([ | i ] & H1 & H2); cbn in *; [ left; congruence | right; eauto ].
Qed.

(* ---------- MSE ---------- *)
Lemma sub_cases : forall a b, is_inf a = false -> is_inf b = false ->
  (is_nan a = true \/ is_nan b = true) /\ fsub a b = NaN \/
  exists x y, a = Fin x /\ b = Fin y /\ fsub a b = Fin (x + - y).
Proof. intros [ | | | x ] [ | | | y ] Ha Hb; try discriminate; cbn; eauto 8. Qed.

Definition pair_sq (p : fnum * fnum) : fnum := let '(x, y) := p in let e := fsub x y in fmul e e.
Definition present (p : fnum * fnum) : bool := (negb (is_nan (fst p)) && negb (is_nan (snd p)))%bool.
Definition qsq (p : fnum * fnum) : Q := let '(x, y) := p in ((qof x - qof y) * (qof x - qof y))%Q.

Lemma mse_filter : forall l : list (fnum * fnum), (forall x y, In (x, y) l -> is_inf x = false /\ is_inf y = false) ->
  filter (fun v => negb (is_nan v)) (map pair_sq l) = map pair_sq (filter present l).
Proof.
  intros l H. rewrite filter_map. f_equal. apply filter_ext_in. intros [ x y ] Hin. destruct (H _ _ Hin) as [ Hx Hy ].
  unfold present. cbn [fst snd]. destruct x, y; try discriminate; reflexivity.
Qed.

Lemma mse_eq : forall f o t, length f = length o -> no_inf f -> no_inf o ->
  mse f o t = Ok (fmean (map pair_sq (filter present (combine f o)))).
Proof.
  intros f o t L Hf Ho. unfold mse. rewrite np_zip_eq by assumption. cbn [bind]. unfold mean_squared, squared, fnanmean.
  rewrite map_map. rewrite (map_ext _ pair_sq) by (intros [ ]; reflexivity). rewrite mse_filter; [ reflexivity | ].
  intros x y H. split; [ apply Hf; eapply in_combine_l; eauto | apply Ho; eapply in_combine_r; eauto ].
Qed.

Lemma mse_spec : forall f o t, length f = length o -> no_inf f -> no_inf o ->
  (exists i a b, nth_error f i = Some a /\ nth_error o i = Some b /\ is_nan a = false /\ is_nan b = false) ->
  exists v, mse f o t = Ok v /\ fle (Fin 0) v = true /\
    (feqb v (Fin 0) = true <->
     forall i a b, nth_error f i = Some a -> nth_error o i = Some b -> is_nan a = false -> is_nan b = false -> feqb a b = true).
Proof.
  intros f o t L Hf Ho (i0 & a0 & b0 & Ha0 & Hb0 & Na0 & Nb0). eexists. split; [ apply mse_eq; assumption | ].
  set (P := filter present (combine f o)).
  assert (Hin : forall x y, In (x, y) P <-> exists i, nth_error f i = Some x /\ nth_error o i = Some y /\ is_nan x = false /\ is_nan y = false).
  { intros x y. unfold P. rewrite filter_In, in_combine_nth. unfold present. cbn [fst snd]. split.
    - intros ((i & H1 & H2) & H). exists i. destruct (is_nan x), (is_nan y); auto; discriminate.
    - intros (i & H1 & H2 & -> & ->). eauto. }
  assert (Hfin : forall x y, In (x, y) P -> exists p q, x = Fin p /\ y = Fin q).
  { intros x y H. apply Hin in H. destruct H as (i & H1 & H2 & Nx & Ny).
    pose proof (Hf x (nth_error_In _ _ H1)). pose proof (Ho y (nth_error_In _ _ H2)). destruct x, y; try discriminate; eauto. }
  assert (Hne : P <> []).
  { intros E. assert (In (a0, b0) P) as H by (apply Hin; eauto). rewrite E in H. destruct H. }
  assert (Hm : feqv (fmean (map pair_sq P)) (Fin (qsum (map qsq P) / len_q (length P))%Q)).
  { apply fmean_map_fin; [ assumption | ]. intros [ x y ] H. destruct (Hfin _ _ H) as (p & q & -> & ->). cbn. ring. }
  assert (Hnn : forall v, In v (map qsq P) -> (0 <= v)%Q).
  { intros v Hv. apply in_map_iff in Hv. destruct Hv as ([ x y ] & <- & _). cbn. apply sq_nonneg. }
  rewrite Hm. split; [ apply fle_Fin; apply mean_nonneg; apply qsum_nonneg; assumption | ].
  cbn [feqb]. rewrite Qeq_bool_iff, mean_zero_iff by (destruct P; [ congruence | cbn; lia ]). rewrite qsum_zero_iff by assumption. split.
  - intros H i a b Ha Hb Na Nb. assert (In (a, b) P) as HP by (apply Hin; eauto).
    destruct (Hfin _ _ HP) as (p & q & -> & ->). cbn. apply Qeq_bool_iff.
    specialize (H _ (in_map qsq _ _ HP)). cbn in H. apply Qmult_integral in H. destruct H; lra.
  - intros H v Hv. apply in_map_iff in Hv. destruct Hv as ([ x y ] & <- & HP). pose proof HP as HP'. apply Hin in HP'.
    destruct HP' as (i & H1 & H2 & Nx & Ny). specialize (H _ _ _ H1 H2 Nx Ny). destruct (Hfin _ _ HP) as (p & q & -> & ->).
    cbn in *. apply Qeq_bool_iff in H. rewrite H. ring.
Qed.

Lemma mse_nothing : forall f o t, length f = length o -> no_inf f -> no_inf o ->
  (forall i a b, nth_error f i = Some a -> nth_error o i = Some b -> is_nan a = true \/ is_nan b = true) -> mse f o t = Ok NaN.
Proof.
  intros f o t L Hf Ho H. rewrite mse_eq by assumption. replace (filter present (combine f o)) with (@nil (fnum * fnum)); [ reflexivity | ].
  symmetry. apply incl_l_nil. intros [ x y ] Hin. apply filter_In in Hin. destruct Hin as [ Hin Hp ].
  apply in_combine_nth in Hin. destruct Hin as (i & H1 & H2). unfold present in Hp. cbn in Hp.
  destruct (H _ _ _ H1 H2) as [ E | E ]; rewrite E in Hp; cbn in Hp; [ discriminate | rewrite andb_false_r in Hp; discriminate ].
Qed.

Lemma mse_length : forall f o t, length f <> length o -> length f <> 1 -> length o <> 1 -> mse f o t = Raise ValueError.
Proof.
  intros f o t H Hf Ho. unfold mse, np_zip. rewrite (proj2 (Nat.eqb_neq _ _) H).
  destruct f as [ | ? [ | ] ], o as [ | ? [ | ] ]; cbn in *; congruence || reflexivity.
Qed.

(* ---------- the pairs of a broadcast ---------- *)
Definition zip_pairs (a b : list fnum) : option (list (fnum * fnum)) :=
  if (length a =? length b) then Some (combine a b)
  else match a, b with
       | [x], _ => Some (map (fun y => (x, y)) b)
       | _, [y] => Some (map (fun x => (x, y)) a)
       | _, _ => None
       end.
Lemma np_zip_pairs : forall f a b, np_zip f a b = match zip_pairs a b with Some l => Ok (map (fun '(x, y) => f x y) l) | None => Raise ValueError end.
Proof.
  intros f a b. unfold np_zip, zip_pairs. destruct (length a =? length b); [ reflexivity | ].
  destruct a as [ | x [ | x' a ] ], b as [ | y [ | y' b ] ]; cbn [map]; try reflexivity; rewrite !map_map; reflexivity.
Qed.
Lemma zip_pairs_map : forall g a b, zip_pairs (map g a) (map g b) = option_map (map (fun '(x, y) => (g x, g y))) (zip_pairs a b).
Proof.
  intros g a b. unfold zip_pairs. rewrite !map_length. destruct (length a =? length b).
  - cbn [option_map]. f_equal. revert b. induction a as [ | x a IH ]; intros [ | y b ]; cbn; try reflexivity. rewrite IH. reflexivity.
  - destruct a as [ | x [ | x' a ] ], b as [ | y [ | y' b ] ]; cbn [map option_map]; try reflexivity; rewrite !map_map; reflexivity.
Qed.
Lemma zip_pairs_swap : forall a b, zip_pairs b a = option_map (map (fun '(x, y) => (y, x))) (zip_pairs a b).
Proof.
  intros a b. unfold zip_pairs. rewrite (Nat.eqb_sym (length b)). destruct (length a =? length b) eqn:E.
  - cbn. f_equal. clear E. revert b. induction a as [ | x a IH ]; intros [ | y b ]; cbn; try reflexivity. rewrite <- IH. reflexivity.
  - destruct a as [ | x [ | x' a ] ], b as [ | y [ | y' b ] ]; try discriminate; cbn [map option_map]; try reflexivity; rewrite !map_map; reflexivity.
Qed.
Lemma zip_pairs_in : forall a b l x y, zip_pairs a b = Some l -> In (x, y) l -> In x a /\ In y b.
Proof.
  intros a b l x y. unfold zip_pairs. destruct (length a =? length b).
  - intros [= <-] H. split; [ eapply in_combine_l; eauto | eapply in_combine_r; eauto ].
  - intros H Hin.
    assert (G : (exists u, a = [u] /\ l = map (fun y => (u, y)) b) \/ (exists v, b = [v] /\ l = map (fun x => (x, v)) a)).
    { destruct a as [ | u [ | u' a ] ]; destruct b as [ | v [ | v' b ] ]; try discriminate; injection H as <-; eauto. }
    destruct G as [ (u & -> & ->) | (v & -> & ->) ]; apply in_map_iff in Hin; destruct Hin as (w & [= <- <-] & Hw); cbn; auto.
Qed.

(* ---------- MASE ---------- *)
Definition steps (t : list fnum) : list fnum := map (fun i => fabs (fsub (nth (S i) t NaN) (nth i t NaN))) (seq 0 (length t - 1)).
Definition qstep (t : list fnum) (i : nat) : Q := Qabs (qof (nth (S i) t NaN) - qof (nth i t NaN))%Q.

Lemma getitem_nth_lt : forall (t : list fnum) i, (i < length t) -> getitem t (Z.of_nat i) = Ok (nth i t NaN).
Proof.
  intros t i H. unfold getitem, norm_index. destruct (Z.of_nat i <? 0)%Z eqn:E; [ lia | ].
  replace (0 <=? Z.of_nat i)%Z with true by lia. replace (Z.of_nat i <? Z.of_nat (length t))%Z with true by lia. cbn [andb].
  rewrite Nat2Z.id. destruct (nth_error t i) eqn:N; [ | apply nth_error_None in N; lia ]. erewrite nth_error_nth by eassumption. reflexivity.
Qed.

Lemma sum_of_steps_eq : forall t, sum_of_steps t = Ok (fsum (steps t)).
Proof.
  intros t. unfold sum_of_steps, steps, fsum.
  assert (G : forall m s acc, s + m < length t \/ m = 0 ->
    foldM (fun s0 i => a <- getitem t i ;; b <- getitem t (i - 1) ;; Ok (fadd s0 (fabs (fsub a b))))
      (map Z.of_nat (seq (S s) m)) acc =
    Ok (fold_left fadd (map (fun i => fabs (fsub (nth (S i) t NaN) (nth i t NaN))) (seq s m)) acc)).
  { induction m as [ | m IH ]; intros s acc H; [ reflexivity | ]. cbn [seq map foldM fold_left].
    rewrite getitem_nth_lt by lia. cbn [bind]. replace (Z.of_nat (S s) - 1)%Z with (Z.of_nat s) by lia.
    rewrite getitem_nth_lt by lia. cbn [bind]. apply IH. lia. }
  replace (zrange 1 (Z.of_nat (length t))) with (map Z.of_nat (seq 1 (length t - 1))).
  - apply G. destruct (length t); [ right | left ]; lia.
  - unfold zrange. replace (Z.to_nat (Z.of_nat (length t) - 1)) with (length t - 1) by lia.
    rewrite <- seq_shift, map_map. apply map_ext. intros. lia.
Qed.

Lemma qof_fin : forall v, is_fin v = true -> v = Fin (qof v).
Proof. intros [ | | | q ] H; try discriminate. reflexivity. Qed.
Lemma finite_nth : forall t i, finite t -> i < length t -> nth i t NaN = Fin (qof (nth i t NaN)).
Proof. intros t i H Hi. apply qof_fin, H, nth_In, Hi. Qed.

Lemma fsum_steps : forall t, finite t -> feqv (fsum (steps t)) (Fin (qsum (map (qstep t) (seq 0 (length t - 1))))).
Proof.
  intros t H. unfold steps. rewrite <- fsum_fin, map_map. apply fsum_mor.
  assert (G : forall i, In i (seq 0 (length t - 1)) -> S i < length t) by (intros i Hi; apply in_seq in Hi; lia).
  induction (seq 0 (length t - 1)) as [ | i l IH ]; cbn; constructor; [ | apply IH; intros; apply G; right; auto ].
  pose proof (G i (or_introl eq_refl)). rewrite (finite_nth t (S i)), (finite_nth t i) by (assumption || lia).
  unfold qstep. cbn. reflexivity.
Qed.

(** the scale of MASE: the mean step of the training series *)
Definition qscale (t : list fnum) : Q := (qsum (map (qstep t) (seq 0 (length t - 1))) / inject_Z (Z.of_nat (length t) - 1))%Q.

Lemma mase_eq : forall f o t, finite t -> length t <> 1 ->
  exists s, (s == qscale t)%Q /\
    mase f o (Some t) = match zip_pairs f o with
                        | Some l => Ok (fmean (map (fun '(x, y) => fabs (fdiv (fsub x y) (Fin s))) l))
                        | None => Raise ValueError
                        end.
Proof.
  intros f o t Ht L. pose proof (fsum_steps t Ht) as E. destruct (fsum (steps t)) as [ | | | S ] eqn:ES; cbn in E; try contradiction.
  exists (S / inject_Z (Z.of_nat (length t) - 1))%Q. split; [ unfold qscale; rewrite E; reflexivity | ].
  unfold mase. rewrite np_zip_pairs. destruct (zip_pairs f o) as [ l | ]; [ | reflexivity ]. cbn [bind].
  rewrite sum_of_steps_eq, ES. cbn [bind]. replace (Z.of_nat (length t) =? 1)%Z with false by lia.
  f_equal. f_equal. rewrite map_map. apply map_ext. intros [ x y ]. f_equal. f_equal. cbn [fdiv].
  destruct (Qeq_bool (inject_Z (Z.of_nat (length t) - 1)) 0) eqn:Z; [ | reflexivity ].
  apply Qeq_bool_eq in Z. unfold inject_Z, Qeq in Z. cbn in Z. lia.
Qed.

Lemma affine_fin : forall a b q, affine a b (Fin q) = Fin (a * q + b)%Q.
Proof. reflexivity. Qed.

Lemma Qabs_scale : forall a q, (Qabs (a * q) == Qabs a * Qabs q)%Q.
Proof. intros. apply Qabs_Qmult. Qed.

Lemma qstep_affine : forall a b t i, finite t -> S i < length t ->
  (qstep (map (affine a b) t) i == Qabs a * qstep t i)%Q.
Proof.
  intros a b t i H Hi. unfold qstep. rewrite (nth_indep (n := S i) (map (affine a b) t) NaN (affine a b NaN)), (nth_indep (n := i) (map (affine a b) t) NaN (affine a b NaN)) by (rewrite map_length; lia).
  rewrite !map_nth. rewrite (finite_nth t (S i)), (finite_nth t i) by (assumption || lia). rewrite !affine_fin. cbn [qof].
  rewrite <- Qabs_scale. apply Qabs_wd. ring.
Qed.

Lemma qscale_affine : forall a b t, finite t -> (qscale (map (affine a b) t) == Qabs a * qscale t)%Q.
Proof.
  intros a b t H. unfold qscale. rewrite map_length.
  assert (E : (qsum (map (qstep (map (affine a b) t)) (seq 0 (length t - 1))) == Qabs a * qsum (map (qstep t) (seq 0 (length t - 1))))%Q).
  { assert (G : forall i, In i (seq 0 (length t - 1)) -> S i < length t) by (intros i Hi; apply in_seq in Hi; lia).
    induction (seq 0 (length t - 1)) as [ | i l IH ]; cbn [map qsum fold_right]; [ ring | ].
    rewrite qstep_affine by (auto; apply G; left; auto). rewrite IH by (intros; apply G; right; auto). ring. }
  rewrite E. unfold Qdiv. ring.
Qed.

Lemma finite_affine : forall a b t, finite t -> finite (map (affine a b) t).
Proof. intros a b t H v Hv. apply in_map_iff in Hv. destruct Hv as (u & <- & Hu). rewrite (qof_fin u) by auto. reflexivity. Qed.

Lemma Qsgn_pos : forall x, (0 < x)%Q -> Qsgn x = Gt.
Proof. intros x H. destruct (Qsgn_cases x) as [ [ _ E ] | [ [ _ E ] | [ E _ ] ] ]; [ lra | lra | exact E ]. Qed.
Lemma Qsgn_neg : forall x, (x < 0)%Q -> Qsgn x = Lt.
Proof. intros x H. destruct (Qsgn_cases x) as [ [ _ E ] | [ [ E _ ] | [ _ E ] ] ]; [ lra | exact E | lra ]. Qed.
Lemma Qsgn_zero : forall x, (x == 0)%Q -> Qsgn x = Eq.
Proof. intros x H. destruct (Qsgn_cases x) as [ [ E _ ] | [ [ _ E ] | [ _ E ] ] ]; [ exact E | lra | lra ]. Qed.

Lemma abs_div_scaled : forall a e e' s s', (~ a == 0)%Q -> (e' == a * e)%Q -> (s' == Qabs a * s)%Q ->
  feqv (fabs (fdiv (Fin e') (Fin s'))) (fabs (fdiv (Fin e) (Fin s))).
Proof.
  intros a e e' s s' Ha He Hs. assert (Pa : (0 < Qabs a)%Q).
  { destruct (Qlt_le_dec 0 (Qabs a)) as [ H | H ]; [ assumption | ]. exfalso. apply Ha.
    pose proof (Qabs_nonneg a). revert H. apply Qabs_case; intros; lra. }
  cbn [fdiv]. destruct (Qeq_bool s 0) eqn:Es.
  - apply Qeq_bool_eq in Es. replace (Qeq_bool s' 0) with true by (symmetry; apply Qeq_bool_iff; rewrite Hs, Es; ring).
    destruct (Qlt_le_dec e 0) as [ H | H ]; [ | destruct (Qlt_le_dec 0 e) as [ H' | H' ] ].
    + rewrite (Qsgn_neg e) by assumption. destruct (Qsgn_cases e') as [ [ E1 E2 ] | [ [ E1 E2 ] | [ E1 E2 ] ] ]; rewrite E1; try exact I.
      exfalso. rewrite He in E2. apply Qmult_integral in E2. destruct E2; [ contradiction | lra ].
    + rewrite (Qsgn_pos e) by assumption. destruct (Qsgn_cases e') as [ [ E1 E2 ] | [ [ E1 E2 ] | [ E1 E2 ] ] ]; rewrite E1; try exact I.
      exfalso. rewrite He in E2. apply Qmult_integral in E2. destruct E2; [ contradiction | lra ].
    + assert (E0 : (e == 0)%Q) by lra. rewrite (Qsgn_zero e), (Qsgn_zero e') by (assumption || (rewrite He, E0; ring)). exact I.
  - assert (Ns : (~ s == 0)%Q) by (intros E; apply Qeq_bool_iff in E; congruence).
    destruct (Qeq_bool s' 0) eqn:Es'.
    + apply Qeq_bool_eq in Es'. rewrite Hs in Es'. apply Qmult_integral in Es'. destruct Es'; [ lra | contradiction ].
    + cbn [fabs feqv]. rewrite He, Hs. unfold Qdiv. rewrite Qinv_mult_distr.
      setoid_replace (a * e * (/ Qabs a * / s))%Q with ((a * / Qabs a) * (e * / s))%Q by ring.
      rewrite (Qabs_Qmult (a * / Qabs a)). setoid_replace (Qabs (a * / Qabs a)) with 1%Q; [ ring | ].
      revert Pa. apply (Qabs_case a (fun z => (0 < z)%Q -> (Qabs (a * / z) == 1)%Q)); intros _ Hp.
      * rewrite Qmult_inv_r by lra. reflexivity.
      * setoid_replace (a * / - a)%Q with (-1)%Q by (field; lra). reflexivity.
Qed.

Lemma mase_affine : forall a b f o t, (~ a == 0)%Q -> finite f -> finite o -> finite t ->
  res_eqv (mase (map (affine a b) f) (map (affine a b) o) (Some (map (affine a b) t))) (mase f o (Some t)).
Proof.
  intros a b f o t Ha Hf Ho Ht. destruct (Nat.eq_dec (length t) 1) as [ L | L ].
  - unfold mase. rewrite !np_zip_pairs, zip_pairs_map. destruct (zip_pairs f o) as [ l | ]; cbn [option_map bind]; [ | reflexivity ].
    rewrite !sum_of_steps_eq, map_length, L. cbn. reflexivity.
  - destruct (mase_eq f o t Ht L) as (s & Es & ->).
    destruct (mase_eq (map (affine a b) f) (map (affine a b) o) (map (affine a b) t)) as (s' & Es' & ->);
      [ apply finite_affine; assumption | rewrite map_length; assumption | ].
    rewrite zip_pairs_map. destruct (zip_pairs f o) as [ l | ] eqn:Z; cbn [option_map]; [ | reflexivity ].
    cbn [res_eqv]. rewrite map_map. apply fmean_mor.
    assert (G : forall x y, In (x, y) l -> In x f /\ In y o) by (intros; eapply zip_pairs_in; eauto).
    clear Z. induction l as [ | [ x y ] l IH ]; cbn [map]; constructor; [ | apply IH; intros; apply G; right; auto ].
    destruct (G x y (or_introl eq_refl)) as [ Hx Hy ]. rewrite (qof_fin x), (qof_fin y) by auto. rewrite !affine_fin.
    unfold fsub. cbn [fopp fadd]. apply (abs_div_scaled a); [ assumption | ring | ].
    rewrite Es', Es. apply qscale_affine. assumption.
Qed.

Lemma mase_spec : forall f o t, length f = length o -> f <> [] -> finite f -> finite o -> finite t ->
  (exists i a b, nth_error t i = Some a /\ nth_error t (S i) = Some b /\ feqb a b = false) ->
  exists v, mase f o (Some t) = Ok v /\ is_fin v = true /\ fle (Fin 0) v = true /\
    (feqb v (Fin 0) = true <-> forall i a b, nth_error f i = Some a -> nth_error o i = Some b -> feqb a b = true).
Proof.
  intros f o t L Hne Hf Ho Ht (i0 & a0 & b0 & Ha0 & Hb0 & N0).
  assert (Lt : S i0 < length t) by (apply nth_error_Some; congruence).
  destruct (mase_eq f o t Ht) as (s & Es & E); [ lia | ].
  unfold zip_pairs in E. rewrite L, Nat.eqb_refl in E. eexists. split; [ exact E | ].
  assert (Ps : (0 < s)%Q).
  { rewrite Es. unfold qscale. apply Qlt_shift_div_l; [ unfold inject_Z, Qlt; cbn; lia | ]. rewrite Qmult_0_l.
    assert (Hn : forall v, In v (map (qstep t) (seq 0 (length t - 1))) -> (0 <= v)%Q).
    { intros v Hv. apply in_map_iff in Hv. destruct Hv as (j & <- & _). apply Qabs_nonneg. }
    pose proof (qsum_nonneg _ Hn) as P. destruct (Qlt_le_dec 0 (qsum (map (qstep t) (seq 0 (length t - 1))))) as [ ? | P' ]; [ assumption | ].
    assert (Z : (qsum (map (qstep t) (seq 0 (length t - 1))) == 0)%Q) by (apply Qle_antisym; assumption).
    rewrite qsum_zero_iff in Z by assumption. specialize (Z (qstep t i0)).
    assert (Z' : (qstep t i0 == 0)%Q) by (apply Z; apply in_map, in_seq; lia). unfold qstep in Z'.
    rewrite (nth_error_nth _ _ NaN Ha0), (nth_error_nth _ _ NaN Hb0) in Z'.
    rewrite (qof_fin a0), (qof_fin b0) in N0 by (eapply Ht, nth_error_In; eauto). cbn in N0.
    exfalso. assert (Qeq_bool (qof a0) (qof b0) = true); [ | congruence ]. apply Qeq_bool_iff.
    revert Z'. apply Qabs_case; intros; lra. }
  set (P := combine f o) in *. set (g := fun p : fnum * fnum => let '(x, y) := p in (Qabs (qof x - qof y) / s)%Q).
  assert (Hin : forall x y, In (x, y) P <-> exists i, nth_error f i = Some x /\ nth_error o i = Some y) by (intros; apply in_combine_nth).
  assert (HP : P <> []).
  { unfold P. destruct f as [ | u f ]; [ congruence | ]. destruct o as [ | w o ]; [ discriminate | ]. discriminate. }
  assert (Hm : feqv (fmean (map (fun '(x, y) => fabs (fdiv (fsub x y) (Fin s))) P)) (Fin (qsum (map g P) / len_q (length P))%Q)).
  { apply fmean_map_fin; [ assumption | ]. intros [ x y ] H. apply Hin in H. destruct H as (i & Hx & Hy).
    rewrite (qof_fin x), (qof_fin y) by ((eapply Hf + eapply Ho); eapply nth_error_In; eauto). unfold fsub. cbn [fopp fadd fdiv].
    destruct (Qeq_bool s 0) eqn:Z; [ apply Qeq_bool_eq in Z; lra | ]. cbn [fabs feqv]. unfold g. cbn [qof]. unfold Qdiv. rewrite Qabs_Qmult.
    rewrite (Qabs_pos (/ s)) by (apply Qlt_le_weak, Qinv_lt_0_compat; assumption). reflexivity. }
  assert (Hnn : forall v, In v (map g P) -> (0 <= v)%Q).
  { intros v Hv. apply in_map_iff in Hv. destruct Hv as ([ x y ] & <- & _). unfold g.
    apply Qle_shift_div_l; [ assumption | ]. rewrite Qmult_0_l. apply Qabs_nonneg. }
  split; [ | split ].
  - revert Hm. destruct (fmean _); cbn; intros; try contradiction; reflexivity.
  - rewrite Hm. apply fle_Fin, mean_nonneg, qsum_nonneg, Hnn.
  - rewrite Hm. cbn [feqb]. rewrite Qeq_bool_iff, mean_zero_iff by (destruct P; [ congruence | cbn; lia ]). rewrite qsum_zero_iff by assumption. split.
    + intros H i a b Ha Hb. assert (In (a, b) P) as Hp by (apply Hin; eauto). specialize (H _ (in_map g _ _ Hp)). unfold g in H.
      rewrite (qof_fin a), (qof_fin b) by ((eapply Hf + eapply Ho); eapply nth_error_In; eauto). cbn. apply Qeq_bool_iff.
      unfold Qdiv in H. apply Qmult_integral in H. destruct H as [ H | H ].
      * revert H. apply Qabs_case; intros; lra.
      * pose proof (Qinv_lt_0_compat s Ps). lra.
    + intros H v Hv. apply in_map_iff in Hv. destruct Hv as ([ x y ] & <- & Hp). apply Hin in Hp. destruct Hp as (i & Hx & Hy).
      specialize (H _ _ _ Hx Hy). rewrite (qof_fin x), (qof_fin y) in H by ((eapply Hf + eapply Ho); eapply nth_error_In; eauto).
      cbn in H. apply Qeq_bool_iff in H. unfold g. setoid_replace (qof x - qof y)%Q with 0%Q by (rewrite H; ring). cbn. reflexivity.
Qed.

(* ---------- sMAPE ---------- *)
Definition smape_term (p : fnum * fnum) : fnum := let '(x, y) := p in fmul (Fin 200) (fdiv (fabs (fsub x y)) (fadd x y)).

Lemma smape_eq : forall f o t, smape f o t = match zip_pairs f o with Some l => Ok (fmean (map smape_term l)) | None => Raise ValueError end.
Proof.
  intros f o t. unfold smape. rewrite !np_zip_pairs. destruct (zip_pairs f o) as [ l | ]; [ | reflexivity ]. cbn [bind].
  rewrite np_zip_eq by (rewrite !map_length; reflexivity). cbn [bind]. f_equal. f_equal. rewrite map_map, map_map.
  induction l as [ | [ x y ] l IH ]; cbn [map combine]; [ reflexivity | ]. f_equal. apply IH.
Qed.

Lemma fabs_fsub_swap : forall x y, feqv (fabs (fsub x y)) (fabs (fsub y x)).
Proof.
  intros [ | | | x ] [ | | | y ]; unfold fsub; cbn [fopp fadd fabs]; try exact I. cbn [feqv].
  rewrite <- (Qabs_opp (y + - x)). apply Qabs_wd. ring.
Qed.

Lemma smape_swap : forall f o t t', res_eqv (smape f o t) (smape o f t').
Proof.
  intros f o t t'. rewrite !smape_eq, (zip_pairs_swap f o). destruct (zip_pairs f o) as [ l | ]; [ | reflexivity ].
  cbn [option_map res_eqv]. rewrite map_map. apply fmean_mor. induction l as [ | [ x y ] l IH ]; cbn [map]; constructor; [ | exact IH ].
  unfold smape_term. rewrite (fabs_fsub_swap x y), (fadd_comm x y). reflexivity.
Qed.

Lemma combine_self : forall {A} (l : list A) x y, In (x, y) (combine l l) -> x = y /\ In x l.
Proof. intros A l x y H. apply in_combine_nth in H. destruct H as (i & H1 & H2). split; [ congruence | eapply nth_error_In; eauto ]. Qed.

Lemma smape_perfect : forall f t, f <> [] -> finite f -> (forall v, In v f -> feqb v (Fin 0) = false) ->
  res_eqv (smape f f t) (Ok (Fin 0)).
Proof.
  intros f t Hne Hf Hz. rewrite smape_eq. unfold zip_pairs. rewrite Nat.eqb_refl. cbn [res_eqv].
  rewrite (fmean_map_fin smape_term (fun _ => 0%Q)).
  - cbn [feqv]. setoid_replace (qsum (map (fun _ : fnum * fnum => 0%Q) (combine f f))) with 0%Q.
    + unfold Qdiv. ring.
    + apply qsum_zero_iff; intros v Hv; apply in_map_iff in Hv; destruct Hv as (? & <- & _); [ lra | reflexivity ].
  - destruct f; [ congruence | discriminate ].
  - intros [ x y ] H. apply combine_self in H. destruct H as [ <- H ]. specialize (Hz x H). specialize (Hf x H). destruct x as [ | | | q ]; try discriminate.
    unfold smape_term, fsub. cbn [fopp fadd fabs fdiv]. cbn [feqb] in Hz.
    destruct (Qeq_bool (q + q) 0) eqn:Z.
    + apply Qeq_bool_eq in Z. assert (Qeq_bool (q) 0 = true) by (apply Qeq_bool_iff; lra). congruence.
    + cbn [fmul feqv]. setoid_replace (q + - q)%Q with 0%Q by ring. cbn [Qabs]. unfold Qdiv. setoid_replace (Qabs 0) with 0%Q by reflexivity. ring.
Qed.

Lemma fmean_nan : forall l, In NaN l -> fmean l = NaN.
Proof. intros l H. unfold fmean. rewrite fsum_nan by assumption. reflexivity. Qed.

Lemma smape_zero_sample : forall f t, In (Fin 0) f -> smape f f t = Ok NaN.
Proof.
  intros f t H. rewrite smape_eq. unfold zip_pairs. rewrite Nat.eqb_refl. f_equal. apply fmean_nan.
  replace NaN with (smape_term (Fin 0, Fin 0)) by reflexivity. apply in_map.
  apply in_combine_nth. apply In_nth_error in H. destruct H as [ i H ]. eauto.
Qed.

Lemma smape_bounds : forall f o t, length f = length o -> f <> [] ->
  (forall v, In v f \/ In v o -> is_fin v = true /\ flt (Fin 0) v = true) ->
  exists v, smape f o t = Ok v /\ fle (Fin 0) v = true /\ fle v (Fin 200) = true.
Proof.
  intros f o t L Hne H. rewrite smape_eq. unfold zip_pairs. rewrite L, Nat.eqb_refl. eexists. split; [ reflexivity | ].
  set (P := combine f o). set (g := fun p : fnum * fnum => let '(x, y) := p in (200 * (Qabs (qof x - qof y) / (qof x + qof y)))%Q).
  assert (HP : P <> []).
  { unfold P. destruct f as [ | u f ]; [ congruence | ]. destruct o as [ | w o ]; [ discriminate | ]. discriminate. }
  assert (Hpos : forall x y, In (x, y) P -> (exists p q, x = Fin p /\ y = Fin q /\ 0 < p /\ 0 < q)%Q).
  { intros x y Hin. destruct (H x) as [ Fx Px ]; [ left; eapply in_combine_l; eauto | ].
    destruct (H y) as [ Fy Py ]; [ right; eapply in_combine_r; eauto | ].
    destruct x as [ | | | p ], y as [ | | | q ]; try discriminate. apply flt_Fin in Px, Py. eauto 6. }
  assert (Hm : feqv (fmean (map smape_term P)) (Fin (qsum (map g P) / len_q (length P))%Q)).
  { apply fmean_map_fin; [ assumption | ]. intros [ x y ] Hin. destruct (Hpos _ _ Hin) as (p & q & -> & -> & Pp & Pq).
    unfold smape_term, fsub. cbn [fopp fadd fabs fdiv]. destruct (Qeq_bool (p + q) 0) eqn:Z; [ apply Qeq_bool_eq in Z; lra | ].
    cbn [fmul feqv]. unfold g. cbn [qof]. reflexivity. }
  assert (Hb : forall v, In v (map g P) -> (0 <= v <= 200)%Q).
  { intros v Hv. apply in_map_iff in Hv. destruct Hv as ([ x y ] & <- & Hin). destruct (Hpos _ _ Hin) as (p & q & -> & -> & Pp & Pq).
    unfold g. cbn [qof]. set (r := (Qabs (p - q) / (p + q))%Q).
    assert (0 <= r /\ r <= 1)%Q.
    { unfold r. split; [ apply Qle_shift_div_l; [ lra | ]; rewrite Qmult_0_l; apply Qabs_nonneg | ].
      apply Qle_shift_div_r; [ lra | ]. rewrite Qmult_1_l. apply Qabs_case; intros; lra. }
    clearbody r. lra. }
  destruct (mean_bounds (map g P) 0 200) as [ B1 B2 ]; [ destruct P; [ congruence | discriminate ] | exact Hb | ].
  rewrite map_length in B1, B2. fold (len_q (length P)) in B1, B2.
  split; rewrite Hm; apply fle_Fin; assumption.
Qed.

(* ---------- root mean square ---------- *)
Definition qsquare (v : fnum) : Q := (qof v * qof v)%Q.
Definition some_value (v : fnum) : bool := negb (is_nan v).

Lemma mean_squared_eq : forall l, no_inf l -> (exists v, In v l /\ is_nan v = false) ->
  feqv (mean_squared l) (Fin (qsum (map qsquare (filter some_value l)) / len_q (length (filter some_value l)))%Q).
Proof.
  intros l Hl (v0 & Hv0 & Nv0). unfold mean_squared, squared, fnanmean. rewrite filter_map.
  replace (filter (fun x => negb (is_nan (fmul x x))) l) with (filter some_value l).
  - apply fmean_map_fin.
    + intros E. assert (In v0 (filter some_value l)) as H by (apply filter_In; unfold some_value; rewrite Nv0; auto). rewrite E in H. destruct H.
    + intros v Hv. apply filter_In in Hv. destruct Hv as [ Hv Nv ]. pose proof (Hl v Hv). destruct v; try discriminate. cbn. reflexivity.
  - apply filter_ext_in. intros v Hv. pose proof (Hl v Hv). destruct v; try discriminate; reflexivity.
Qed.

Lemma mean_squared_none : forall l, (forall v, In v l -> is_nan v = true) -> mean_squared l = NaN.
Proof.
  intros l H. unfold mean_squared, squared, fnanmean. replace (filter _ _) with (@nil fnum); [ reflexivity | ].
  symmetry. apply incl_l_nil. intros v Hv. apply filter_In in Hv. destruct Hv as [ Hv N ]. apply in_map_iff in Hv. destruct Hv as (u & <- & Hu).
  specialize (H u Hu). destruct u; discriminate.
Qed.

Lemma rms_bounds : forall sqrt l lo hi, sqrt_like sqrt -> no_inf l -> (exists v, In v l /\ is_nan v = false) -> (0 <= lo)%Q ->
  (forall v, In v l -> is_nan v = false -> fle (Fin lo) (fabs v) = true /\ fle (fabs v) (Fin hi) = true) ->
  fle (sqrt (Fin (lo * lo)%Q)) (root_mean_squared sqrt l) = true /\ fle (root_mean_squared sqrt l) (sqrt (Fin (hi * hi)%Q)) = true.
Proof.
  intros sqrt l lo hi (_ & Hmono & Hmor) Hl Hex Hlo Hb. unfold root_mean_squared.
  pose proof (mean_squared_eq l Hl Hex) as E. set (P := filter some_value l) in *. pose proof (Hmor _ _ E) as E'.
  assert (HP : P <> []).
  { destruct Hex as (v & Hv & Nv). intros E0. assert (In v P) as H by (apply filter_In; unfold some_value; rewrite Nv; auto). rewrite E0 in H. destruct H. }
  assert (B : forall v, In v (map qsquare P) -> (lo * lo <= v <= hi * hi)%Q).
  { intros v Hv. apply in_map_iff in Hv. destruct Hv as (u & <- & Hu). apply filter_In in Hu. destruct Hu as [ Hu Nu ].
    unfold some_value in Nu. apply negb_true_iff in Nu. destruct (Hb u Hu Nu) as [ B1 B2 ]. pose proof (Hl u Hu).
    destruct u as [ | | | q ]; try discriminate. cbn [fabs] in B1, B2. apply fle_Fin in B1, B2. unfold qsquare. cbn [qof].
    revert B1 B2. apply Qabs_case; intros; split; nra. }
  destruct (mean_bounds (map qsquare P) (lo * lo) (hi * hi)) as [ B1 B2 ]; [ destruct P; [ congruence | discriminate ] | exact B | ].
  rewrite map_length in B1, B2. fold (len_q (length P)) in B1, B2. rewrite E'.
  assert (0 <= lo * lo)%Q by apply sq_nonneg.
  split; apply Hmono; apply fle_Fin; lra.
Qed.

Lemma rms_mono : forall sqrt l l', sqrt_like sqrt -> no_inf l -> no_inf l' -> (exists v, In v l /\ is_nan v = false) ->
  Forall2 (fun a b => is_nan a = is_nan b /\ (is_nan a = false -> fle (fabs a) (fabs b) = true)) l l' ->
  fle (root_mean_squared sqrt l) (root_mean_squared sqrt l') = true.
Proof.
  intros sqrt l l' (_ & Hmono & Hmor) Hl Hl' Hex F. unfold root_mean_squared.
  assert (Hex' : exists v, In v l' /\ is_nan v = false).
  { destruct Hex as (v & Hv & Nv). clear - F Hv Nv. induction F as [ | a b l l' [ N _ ] F IH ]; [ destruct Hv | ].
    destruct Hv as [ <- | Hv ]; [ exists b; split; [ left; auto | congruence ] | ]. destruct (IH Hv) as (w & Hw & ?). exists w. split; [ right | ]; auto. }
  pose proof (mean_squared_eq l Hl Hex) as E. pose proof (mean_squared_eq l' Hl' Hex') as E'.
  rewrite (Hmor _ _ E), (Hmor _ _ E').
  assert (G : length (filter some_value l) = length (filter some_value l') /\ (qsum (map qsquare (filter some_value l)) <= qsum (map qsquare (filter some_value l')))%Q).
  { clear - F Hl Hl'. induction F as [ | a b l l' [ N G ] F IH ]; [ split; [ reflexivity | apply Qle_refl ] | ].
    destruct IH as [ IL IQ ]; [ intros v Hv; apply Hl; right; exact Hv | intros v Hv; apply Hl'; right; exact Hv | ].
    pose proof (Hl a (or_introl eq_refl)) as Ia. pose proof (Hl' b (or_introl eq_refl)) as Ib.
    destruct a as [ | | | x ], b as [ | | | y ]; try discriminate; [ split; assumption | ].
    cbn [filter some_value is_nan negb map qsum length]. split; [ f_equal; exact IL | ].
    specialize (G eq_refl). cbn [fabs] in G. apply fle_Fin in G. unfold qsquare at 1 3. cbn [qof].
    assert (x * x <= y * y)%Q; [ | lra ]. revert G. apply Qabs_case; apply Qabs_case; intros; nra. }
  destruct G as [ GL GQ ]. rewrite GL.
  assert (Nn : forall m, (0 <= qsum (map qsquare (filter some_value m)))%Q).
  { intros m. apply qsum_nonneg. intros v Hv. apply in_map_iff in Hv. destruct Hv as (u & <- & _). apply sq_nonneg. }
  apply Hmono; apply fle_Fin; [ apply mean_nonneg, Nn | ].
  unfold Qdiv. apply Qmult_le_compat_r; [ exact GQ | ]. apply Qinv_le_0_compat. unfold len_q, Qle. cbn. lia.
Qed.
