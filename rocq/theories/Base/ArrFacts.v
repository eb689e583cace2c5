(** Facts about the arrays of [Arr]. *)
From Coq Require Import ZifyBool ZifyNat.
From Verif Require Import Base.Py Base.PyFacts Base.Arr.

Lemma flat_lt x y i j : i < x -> j < y -> i * y + j < x * y.
Proof. intros Hi Hj. assert (S i * y <= x * y) by (apply Nat.mul_le_mono_r; lia). lia. Qed.

Lemma flat_div y i j : j < y -> (i * y + j) / y = i.
Proof. intros H. rewrite Nat.div_add_l by lia. rewrite Nat.div_small by auto. lia. Qed.

Lemma flat_mod y i j : j < y -> (i * y + j) mod y = j.
Proof. intros H. rewrite Nat.add_comm, Nat.mod_add by lia. apply Nat.mod_small; auto. Qed.

Lemma flat_div_lt x y n : n < x * y -> n / y < x.
Proof. intros H. destruct y; [lia|]. apply Nat.div_lt_upper_bound; lia. Qed.

Lemma flat_mod_lt x y n : n < x * y -> n mod y < y.
Proof. intros H. destruct y; [lia|]. apply Nat.mod_upper_bound; lia. Qed.

Lemma flat_recompose y n : y <> 0 -> n / y * y + n mod y = n.
Proof. intros H. rewrite Nat.mul_comm. symmetry. apply Nat.div_mod; auto. Qed.

Lemma flat_inj y i j i' j' : j < y -> j' < y -> i * y + j = i' * y + j' -> i = i' /\ j = j'.
Proof.
  intros H1 H2 E.
  assert (i = i').
  { rewrite <- (flat_div y i j H1), <- (flat_div y i' j' H2). rewrite E; reflexivity. }
  subst; split; auto; lia.
Qed.

(** pure in-range access *)
Definition at2 {A} (a : arr2 A) (i j : nat) : option A := nth_error (a2d a) (i * a2y a + j).

Lemma get2_nat {A} (a : arr2 A) i j :
  i < a2x a -> j < a2y a ->
  get2 a (Z.of_nat i) (Z.of_nat j) = match at2 a i j with Some x => Ok x | None => Raise IndexError end.
Proof. intros Hi Hj; unfold get2. rewrite !norm_index_of_nat by auto. reflexivity. Qed.

Lemma at2_some {A} (a : arr2 A) i j : wf2 a -> i < a2x a -> j < a2y a -> exists x, at2 a i j = Some x.
Proof. intros Hw Hi Hj. apply nth_error_lt_some. rewrite Hw. apply flat_lt; auto. Qed.

Lemma get2_ok {A} (a : arr2 A) i j :
  wf2 a -> (0 <= i < Z.of_nat (a2x a))%Z -> (0 <= j < Z.of_nat (a2y a))%Z ->
  exists x, get2 a i j = Ok x /\ at2 a (Z.to_nat i) (Z.to_nat j) = Some x.
Proof.
  intros Hw Hi Hj. destruct (at2_some a (Z.to_nat i) (Z.to_nat j)) as [x Hx]; auto; try lia.
  exists x; split; auto. unfold get2. rewrite !norm_index_in by auto.
  unfold at2 in Hx; rewrite Hx; reflexivity.
Qed.

Lemma get2_raise {A} (a : arr2 A) i j e : get2 a i j = Raise e -> e = IndexError.
Proof.
  unfold get2. destruct (norm_index (a2x a) i), (norm_index (a2y a) j); try congruence.
  destruct (nth_error _ _); congruence.
Qed.

Lemma arr2_ext {A} (a b : arr2 A) :
  wf2 a -> wf2 b -> a2x a = a2x b -> a2y a = a2y b ->
  (forall i j, i < a2x a -> j < a2y a -> at2 a i j = at2 b i j) -> a = b.
Proof.
  intros Ha Hb Hx Hy H. destruct a as [x y d], b as [x' y' d']; unfold wf2, at2 in *; cbn in *; subst.
  f_equal. apply list_ext_len; [congruence|].
  intros n Hn. rewrite Ha in Hn.
  assert (y' <> 0) by (intros ->; lia).
  rewrite <- (flat_recompose y' n) by auto. apply H.
  - apply flat_div_lt; auto.
  - apply flat_mod_lt with x'; auto.
Qed.

Lemma arr2_ext_get {A} (a b : arr2 A) :
  wf2 a -> wf2 b -> a2x a = a2x b -> a2y a = a2y b ->
  (forall i j, (0 <= i < Z.of_nat (a2x a))%Z -> (0 <= j < Z.of_nat (a2y a))%Z ->
               get2 a i j = get2 b i j) -> a = b.
Proof.
  intros Ha Hb Hx Hy H. apply arr2_ext; auto. intros i j Hi Hj.
  specialize (H (Z.of_nat i) (Z.of_nat j) ltac:(lia) ltac:(lia)).
  rewrite !get2_nat in H by lia.
  destruct (at2_some a i j) as [u Hu]; auto.
  destruct (at2_some b i j) as [v Hv]; auto; try lia.
  rewrite Hu, Hv in *. congruence.
Qed.

Lemma wf2_full {A} x y (v : A) : wf2 (full2 x y v).
Proof. unfold wf2, full2; cbn. apply repeat_length. Qed.

Lemma at2_full {A} x y (v : A) i j : i < x -> j < y -> at2 (full2 x y v) i j = Some v.
Proof.
  intros Hi Hj. unfold at2, full2; cbn. rewrite nth_error_repeat_eq.
  pose proof (flat_lt x y i j Hi Hj). replace (i * y + j <? x * y)%nat with true by lia. reflexivity.
Qed.

Lemma set2_nat {A} (a : arr2 A) i j v :
  i < a2x a -> j < a2y a ->
  set2 a (Z.of_nat i) (Z.of_nat j) v
  = Ok (mk2 (a2x a) (a2y a) (replace_nth (a2d a) (i * a2y a + j) v)).
Proof. intros Hi Hj; unfold set2. rewrite !norm_index_of_nat by auto. reflexivity. Qed.

Lemma set2_spec {A} (a : arr2 A) i j v :
  wf2 a -> (0 <= i < Z.of_nat (a2x a))%Z -> (0 <= j < Z.of_nat (a2y a))%Z ->
  exists a', set2 a i j v = Ok a' /\ wf2 a' /\ a2x a' = a2x a /\ a2y a' = a2y a /\
    forall i' j', i' < a2x a -> j' < a2y a ->
      at2 a' i' j' = if ((Z.of_nat i' =? i) && (Z.of_nat j' =? j))%Z then Some v else at2 a i' j'.
Proof.
  intros Hw Hi Hj.
  exists (mk2 (a2x a) (a2y a) (replace_nth (a2d a) (Z.to_nat i * a2y a + Z.to_nat j) v)).
  split; [|split; [|split; [|split]]]; auto.
  - unfold set2. rewrite !norm_index_in by auto. reflexivity.
  - unfold wf2; cbn. rewrite replace_nth_length. exact Hw.
  - intros i' j' Hi' Hj'. unfold at2; cbn. rewrite nth_error_replace_nth.
    assert (Z.to_nat i * a2y a + Z.to_nat j < length (a2d a))
      by (rewrite Hw; apply flat_lt; lia).
    destruct (Nat.eqb_spec (Z.to_nat i * a2y a + Z.to_nat j) (i' * a2y a + j')) as [E|E].
    + apply flat_inj in E; try lia.
      replace (Z.to_nat i * a2y a + Z.to_nat j <? length (a2d a))%nat with true by lia.
      replace ((Z.of_nat i' =? i) && (Z.of_nat j' =? j))%Z with true by lia. reflexivity.
    + destruct ((Z.of_nat i' =? i) && (Z.of_nat j' =? j))%Z eqn:E2; auto.
      exfalso. apply E. assert (i' = Z.to_nat i /\ j' = Z.to_nat j) as [-> ->] by lia. reflexivity.
Qed.

(** loops writing a result at a list of points *)
Lemma fold_set2 {A B} (key : B -> Z * Z) (val : B -> res A) (a : arr2 A) l :
  wf2 a ->
  (forall b, In b l -> (0 <= fst (key b) < Z.of_nat (a2x a))%Z /\
                       (0 <= snd (key b) < Z.of_nat (a2y a))%Z) ->
  NoDup (map key l) ->
  forall vals, mapM val l = Ok vals ->
  exists a', foldM (fun m b => v <- val b ;; set2 m (fst (key b)) (snd (key b)) v) l a = Ok a' /\
    wf2 a' /\ a2x a' = a2x a /\ a2y a' = a2y a /\
    (forall b v, In (b, v) (combine l vals) ->
        get2 a' (fst (key b)) (snd (key b)) = Ok v) /\
    (forall i j, i < a2x a -> j < a2y a -> ~ In (Z.of_nat i, Z.of_nat j) (map key l) ->
        at2 a' i j = at2 a i j).
Proof.
  revert a; induction l as [|b bs IH]; intros a Hw Hr Hnd vals Hv.
  - exists a; cbn in *; repeat split; auto. inversion Hv; subst; cbn; tauto.
  - cbn in Hv. destruct (val b) as [v|] eqn:Ev; cbn in Hv; try discriminate.
    destruct (mapM val bs) as [vs|] eqn:Evs; cbn in Hv; try discriminate.
    inversion Hv; subst; clear Hv.
    cbn [map] in Hnd; inversion Hnd; subst.
    destruct (Hr b) as [R1 R2]; [left; auto|].
    destruct (set2_spec a (fst (key b)) (snd (key b)) v Hw R1 R2) as (a1 & E1 & W1 & X1 & Y1 & P1).
    destruct (IH a1 W1) with (vals := vs) as (a2 & E2 & W2 & X2 & Y2 & P2 & Q2).
    + intros b' Hb'; rewrite X1, Y1; apply Hr; right; auto.
    + auto.
    + reflexivity.
    + exists a2. cbn [foldM]. rewrite Ev; cbn [bind]. rewrite E1; cbn [bind].
      split; [exact E2|]. split; [auto|]. split; [congruence|]. split; [congruence|].
      split.
      * intros b' v' Hin. cbn [combine] in Hin. destruct Hin as [E|Hin].
        -- inversion E; subst.
           destruct (get2_ok a2 (fst (key b')) (snd (key b'))) as (u & Hu & Hat); auto.
           { rewrite X2, X1; auto. } { rewrite Y2, Y1; auto. }
           rewrite Hu. rewrite Q2 in Hat; try lia.
           ++ rewrite P1 in Hat by lia.
              replace (Z.of_nat (Z.to_nat (fst (key b'))) =? fst (key b'))%Z with true in Hat by lia.
              replace (Z.of_nat (Z.to_nat (snd (key b'))) =? snd (key b'))%Z with true in Hat by lia.
              cbn in Hat. congruence.
           ++ rewrite !Z2Nat.id by lia. destruct (key b'); auto.
        -- apply P2; auto.
      * intros i j Hi Hj Hn. cbn [map] in Hn. rewrite Q2; try lia.
        -- rewrite P1 by auto.
           destruct ((Z.of_nat i =? fst (key b)) && (Z.of_nat j =? snd (key b)))%Z eqn:E; auto.
           exfalso; apply Hn; left. destruct (key b); cbn in *. f_equal; lia.
        -- intros Hin; apply Hn; right; auto.
Qed.

(* ---------- slices ---------- *)
Lemma firstn_skipn_len {A} (l : list A) n m : m + n <= length l -> length (firstn n (skipn m l)) = n.
Proof. intros; rewrite firstn_length, skipn_length; lia. Qed.

Lemma slice2_shape {A} (a : arr2 A) x1 x2 y1 y2 :
  (0 <= x1 <= x2)%Z -> (x2 <= Z.of_nat (a2x a))%Z -> (0 <= y1 <= y2)%Z -> (y2 <= Z.of_nat (a2y a))%Z ->
  a2x (slice2 a x1 x2 y1 y2) = Z.to_nat (x2 - x1) /\ a2y (slice2 a x1 x2 y1 y2) = Z.to_nat (y2 - y1).
Proof. intros. unfold slice2; cbn. rewrite !slice_bound_in by lia. lia. Qed.

Lemma slice2_chunk_len {A} (a : arr2 A) i1 i2 j1 j2 :
  wf2 a -> i2 <= a2x a -> j2 <= a2y a -> j1 <= j2 ->
  forall i, In i (seq i1 (i2 - i1)) ->
  length (firstn (j2 - j1) (skipn (i * a2y a + j1) (a2d a))) = j2 - j1.
Proof.
  intros Hw H1 H2 H3 i Hi. apply in_seq in Hi. apply firstn_skipn_len. rewrite Hw.
  assert (S i * a2y a <= a2x a * a2y a) by (apply Nat.mul_le_mono_r; lia). lia.
Qed.

Lemma wf2_slice2 {A} (a : arr2 A) x1 x2 y1 y2 : wf2 a -> wf2 (slice2 a x1 x2 y1 y2).
Proof.
  intros Hw. unfold wf2, slice2; cbn.
  set (i1 := slice_bound (a2x a) x1). set (i2 := slice_bound (a2x a) x2).
  set (j1 := slice_bound (a2y a) y1). set (j2 := slice_bound (a2y a) y2).
  assert (i2 <= a2x a) by apply slice_bound_le. assert (j2 <= a2y a) by apply slice_bound_le.
  destruct (Nat.le_gt_cases j1 j2).
  - rewrite flat_map_const_length with (w := j2 - j1).
    + rewrite seq_length; auto.
    + apply slice2_chunk_len; auto.
  - replace (j2 - j1) with 0 by lia. cbn. rewrite Nat.mul_0_r.
    rewrite flat_map_const_length with (w := 0); [lia|]. reflexivity.
Qed.

Lemma slice2_at {A} (a : arr2 A) x1 x2 y1 y2 i j :
  wf2 a ->
  (0 <= x1 <= x2)%Z -> (x2 <= Z.of_nat (a2x a))%Z -> (0 <= y1 <= y2)%Z -> (y2 <= Z.of_nat (a2y a))%Z ->
  (Z.of_nat i < x2 - x1)%Z -> (Z.of_nat j < y2 - y1)%Z ->
  at2 (slice2 a x1 x2 y1 y2) i j = at2 a (Z.to_nat x1 + i) (Z.to_nat y1 + j).
Proof.
  intros Hw H1 H2 H3 H4 Hi Hj. unfold at2, slice2; cbn. rewrite !slice_bound_in by lia.
  rewrite nth_error_flat_map_const with (x := Z.to_nat x1 + i).
  - rewrite nth_error_firstn, nth_error_skipn.
    replace (j <? Z.to_nat y2 - Z.to_nat y1)%nat with true by lia. f_equal; lia.
  - apply slice2_chunk_len; auto; lia.
  - rewrite nth_error_seq. replace (i <? Z.to_nat x2 - Z.to_nat x1)%nat with true by lia. reflexivity.
  - lia.
Qed.

Lemma wf2_assign_block {A} (a : arr2 A) x1 x2 y1 y2 v : wf2 a -> wf2 (assign_block a x1 x2 y1 y2 v).
Proof. unfold wf2, assign_block; cbn. rewrite map_length, enumerate_length. auto. Qed.

Lemma at2_assign_block {A} (a : arr2 A) x1 x2 y1 y2 v i j :
  wf2 a -> i < a2x a -> j < a2y a ->
  at2 (assign_block a x1 x2 y1 y2 v) i j =
  if ((x1 <=? i) && (i <? x2) && (y1 <=? j) && (j <? y2))%nat then Some v else at2 a i j.
Proof.
  intros Hw Hi Hj. unfold at2, assign_block; cbn.
  rewrite nth_error_map, nth_error_enumerate.
  destruct (nth_error_lt_some (a2d a) (i * a2y a + j)) as [o Ho].
  { rewrite Hw; apply flat_lt; auto. }
  rewrite Ho; cbn. rewrite flat_div, flat_mod by auto.
  destruct (_ && _); reflexivity.
Qed.

(* ---------- 3-d ---------- *)
Definition at3 {A} (a : arr3 A) (t i j : nat) : option A :=
  nth_error (a3d a) ((t * a3x a + i) * a3y a + j).

Lemma flat3_lt t x y k i j : k < t -> i < x -> j < y -> (k * x + i) * y + j < t * x * y.
Proof. intros. apply flat_lt; auto. apply flat_lt; auto. Qed.

Lemma at3_some {A} (a : arr3 A) t i j :
  wf3 a -> t < a3t a -> i < a3x a -> j < a3y a -> exists x, at3 a t i j = Some x.
Proof. intros Hw Ht Hi Hj. apply nth_error_lt_some. rewrite Hw. apply flat3_lt; auto. Qed.

Lemma get3_nat {A} (a : arr3 A) t i j :
  t < a3t a -> i < a3x a -> j < a3y a ->
  get3 a (Z.of_nat t) (Z.of_nat i) (Z.of_nat j)
  = match at3 a t i j with Some x => Ok x | None => Raise IndexError end.
Proof. intros Ht Hi Hj; unfold get3. rewrite !norm_index_of_nat by auto. reflexivity. Qed.

Lemma arr3_ext {A} (a b : arr3 A) :
  wf3 a -> wf3 b -> a3t a = a3t b -> a3x a = a3x b -> a3y a = a3y b ->
  (forall t i j, t < a3t a -> i < a3x a -> j < a3y a -> at3 a t i j = at3 b t i j) -> a = b.
Proof.
  intros Ha Hb Ht Hx Hy H. destruct a as [t x y d], b as [t' x' y' d'].
  unfold wf3, at3 in *; cbn in *; subst.
  f_equal. apply list_ext_len; [congruence|].
  intros n Hn. rewrite Ha in Hn.
  assert (y' <> 0) by (intros ->; lia). assert (x' <> 0) by (intros ->; lia).
  pose proof (flat_div_lt (t' * x') y' n Hn) as Hd.
  rewrite <- (flat_recompose y' n) by auto.
  rewrite <- (flat_recompose x' (n / y')) by auto. apply H.
  - apply flat_div_lt; auto.
  - apply flat_mod_lt with t'; auto.
  - apply flat_mod_lt with (t' * x'); auto.
Qed.

Lemma series3_ok {A} (a : arr3 A) i j :
  wf3 a -> (0 <= i < Z.of_nat (a3x a))%Z -> (0 <= j < Z.of_nat (a3y a))%Z ->
  exists s, series3 a i j = Ok s /\ length s = a3t a /\
    forall t, t < a3t a -> nth_error s t = at3 a t (Z.to_nat i) (Z.to_nat j).
Proof.
  intros Hw Hi Hj. unfold series3. rewrite !norm_index_in by auto.
  set (d := fun t => match at3 a t (Z.to_nat i) (Z.to_nat j) with Some x => Ok x | None => Raise IndexError end).
  assert (E : mapM (fun t => get3 a (Z.of_nat t) i j) (seq 0 (a3t a)) = mapM d (seq 0 (a3t a))).
  { apply mapM_ext. intros t Ht. apply in_seq in Ht. unfold d.
    rewrite <- (get3_nat a) by lia. f_equal; lia. }
  rewrite E.
  destruct (mapM d (seq 0 (a3t a))) as [s|e] eqn:Em.
  - exists s. split; auto. split.
    + rewrite (mapM_length _ _ _ Em), seq_length; auto.
    + intros t Ht. destruct (mapM_nth _ _ _ Em t t) as (y & Hy & Hn).
      { rewrite nth_error_seq. replace (t <? a3t a)%nat with true by lia. reflexivity. }
      rewrite Hn. unfold d in Hy. destruct (at3 a t _ _); congruence.
  - exfalso. apply mapM_raise in Em. destruct Em as (t & Ht & Hd). apply in_seq in Ht.
    unfold d in Hd. destruct (at3_some a t (Z.to_nat i) (Z.to_nat j)) as [x Hx]; auto; try lia.
    rewrite Hx in Hd; discriminate.
Qed.

Lemma series3_ext {A} (a b : arr3 A) :
  wf3 a -> wf3 b -> a3t a = a3t b -> a3x a = a3x b -> a3y a = a3y b ->
  (forall i j, (0 <= i < Z.of_nat (a3x a))%Z -> (0 <= j < Z.of_nat (a3y a))%Z ->
     series3 a i j = series3 b i j) -> a = b.
Proof.
  intros Ha Hb Ht Hx Hy H. apply arr3_ext; auto. intros t i j Hti Hi Hj.
  specialize (H (Z.of_nat i) (Z.of_nat j) ltac:(lia) ltac:(lia)).
  destruct (series3_ok a (Z.of_nat i) (Z.of_nat j)) as (s & Es & Ls & Ps); auto; try lia.
  destruct (series3_ok b (Z.of_nat i) (Z.of_nat j)) as (s' & Es' & Ls' & Ps'); auto; try lia.
  rewrite Es, Es' in H. inversion H; subst s'. rewrite !Nat2Z.id in *.
  rewrite <- Ps by auto. rewrite <- Ps' by lia. reflexivity.
Qed.

Lemma series3_raise {A} (a : arr3 A) i j :
  norm_index (a3x a) i = None \/ norm_index (a3y a) j = None -> series3 a i j = Raise IndexError.
Proof.
  unfold series3. intros [H|H]; rewrite H; auto. destruct (norm_index (a3x a) i); auto.
Qed.

(** general slice, in range *)
Definition srng (n : nat) (s : option (Z * Z)) : nat * nat :=
  match s with Some (l, h) => (Z.to_nat l, Z.to_nat h) | None => (0, n) end.
Definition sok (n : nat) (s : option (Z * Z)) : Prop :=
  match s with Some (l, h) => (0 <= l <= h)%Z /\ (h <= Z.of_nat n)%Z | None => True end.

Lemma slice3_eq {A} (a : arr3 A) st sx sy :
  sok (a3t a) st -> sok (a3x a) sx -> sok (a3y a) sy ->
  slice3 a st sx sy =
  let '(t1, t2) := srng (a3t a) st in let '(i1, i2) := srng (a3x a) sx in let '(j1, j2) := srng (a3y a) sy in
  mk3 (t2 - t1) (i2 - i1) (j2 - j1)
      (flat_map (fun t =>
         flat_map (fun i => firstn (j2 - j1) (skipn ((t * a3x a + i) * a3y a + j1) (a3d a)))
                  (seq i1 (i2 - i1)))
         (seq t1 (t2 - t1))).
Proof.
  intros H1 H2 H3. unfold slice3, srng, sok in *.
  destruct st as [[l h]|], sx as [[l' h']|], sy as [[l'' h'']|];
    rewrite ?slice_bound_in by lia; reflexivity.
Qed.

Lemma srng_le n s : sok n s -> fst (srng n s) <= snd (srng n s) <= n.
Proof. destruct s as [[l h]|]; cbn; lia. Qed.

Section Slice3.
  Context {A : Type} (a : arr3 A) (t1 t2 i1 i2 j1 j2 : nat).
  Hypothesis Hw : wf3 a.
  Hypothesis Ht : t1 <= t2 <= a3t a.
  Hypothesis Hi : i1 <= i2 <= a3x a.
  Hypothesis Hj : j1 <= j2 <= a3y a.
  Let inner (t : nat) :=
    flat_map (fun i => firstn (j2 - j1) (skipn ((t * a3x a + i) * a3y a + j1) (a3d a))) (seq i1 (i2 - i1)).

  Lemma slice3_inner_chunk t i :
    t < t2 -> In i (seq i1 (i2 - i1)) ->
    length (firstn (j2 - j1) (skipn ((t * a3x a + i) * a3y a + j1) (a3d a))) = j2 - j1.
  Proof.
    intros Hlt Hin. apply in_seq in Hin. apply firstn_skipn_len. rewrite Hw.
    assert (S (t * a3x a + i) <= a3t a * a3x a) by (apply flat_lt; lia).
    assert (S (t * a3x a + i) * a3y a <= a3t a * a3x a * a3y a) by (apply Nat.mul_le_mono_r; auto).
    lia.
  Qed.

  Lemma slice3_inner_len t : In t (seq t1 (t2 - t1)) -> length (inner t) = (i2 - i1) * (j2 - j1).
  Proof.
    intros Hin. apply in_seq in Hin. unfold inner.
    rewrite flat_map_const_length with (w := j2 - j1); [rewrite seq_length; auto|].
    intros i; apply slice3_inner_chunk; lia.
  Qed.

  Lemma slice3_data_len :
    length (flat_map inner (seq t1 (t2 - t1))) = (t2 - t1) * (i2 - i1) * (j2 - j1).
  Proof.
    rewrite flat_map_const_length with (w := (i2 - i1) * (j2 - j1)).
    - rewrite seq_length; lia.
    - apply slice3_inner_len.
  Qed.

  Lemma slice3_data_nth t i j :
    t < t2 - t1 -> i < i2 - i1 -> j < j2 - j1 ->
    nth_error (flat_map inner (seq t1 (t2 - t1))) ((t * (i2 - i1) + i) * (j2 - j1) + j)
    = at3 a (t1 + t) (i1 + i) (j1 + j).
  Proof.
    intros H1 H2 H3.
    replace ((t * (i2 - i1) + i) * (j2 - j1) + j)
      with (t * ((i2 - i1) * (j2 - j1)) + (i * (j2 - j1) + j)) by lia.
    rewrite nth_error_flat_map_const with (x := t1 + t).
    - unfold inner. rewrite nth_error_flat_map_const with (x := i1 + i).
      + rewrite nth_error_firstn, nth_error_skipn.
        replace (j <? j2 - j1)%nat with true by lia. unfold at3. f_equal; lia.
      + intros; apply slice3_inner_chunk; auto; lia.
      + rewrite nth_error_seq. replace (i <? i2 - i1)%nat with true by lia. reflexivity.
      + auto.
    - apply slice3_inner_len.
    - rewrite nth_error_seq. replace (t <? t2 - t1)%nat with true by lia. reflexivity.
    - apply flat_lt; auto.
  Qed.
End Slice3.

Lemma slice3_spec {A} (a : arr3 A) st sx sy :
  wf3 a -> sok (a3t a) st -> sok (a3x a) sx -> sok (a3y a) sy ->
  wf3 (slice3 a st sx sy) /\
  a3t (slice3 a st sx sy) = snd (srng (a3t a) st) - fst (srng (a3t a) st) /\
  a3x (slice3 a st sx sy) = snd (srng (a3x a) sx) - fst (srng (a3x a) sx) /\
  a3y (slice3 a st sx sy) = snd (srng (a3y a) sy) - fst (srng (a3y a) sy) /\
  (forall t i j, t < a3t (slice3 a st sx sy) -> i < a3x (slice3 a st sx sy) -> j < a3y (slice3 a st sx sy) ->
     at3 (slice3 a st sx sy) t i j
     = at3 a (fst (srng (a3t a) st) + t) (fst (srng (a3x a) sx) + i) (fst (srng (a3y a) sy) + j)).
Proof.
  intros Hw H1 H2 H3. pose proof (srng_le _ _ H1) as L1. pose proof (srng_le _ _ H2) as L2.
  pose proof (srng_le _ _ H3) as L3.
  rewrite slice3_eq by auto.
  destruct (srng (a3t a) st) as [t1 t2], (srng (a3x a) sx) as [i1 i2], (srng (a3y a) sy) as [j1 j2].
  cbn [fst snd] in *. cbn [a3t a3x a3y]. repeat split.
  - unfold wf3; cbn [a3d a3t a3x a3y]. apply slice3_data_len; auto.
  - intros t i j Ht Hi Hj. unfold at3 at 1; cbn [a3d a3t a3x a3y]. apply slice3_data_nth; auto.
Qed.

Lemma slice3_series {A} (a : arr3 A) st sx sy i j s :
  wf3 a -> sok (a3t a) st -> sok (a3x a) sx -> sok (a3y a) sy ->
  (0 <= i < Z.of_nat (a3x (slice3 a st sx sy)))%Z -> (0 <= j < Z.of_nat (a3y (slice3 a st sx sy)))%Z ->
  series3 a (Z.of_nat (fst (srng (a3x a) sx)) + i) (Z.of_nat (fst (srng (a3y a) sy)) + j) = Ok s ->
  series3 (slice3 a st sx sy) i j
  = Ok (firstn (snd (srng (a3t a) st) - fst (srng (a3t a) st)) (skipn (fst (srng (a3t a) st)) s)).
Proof.
  intros Hw H1 H2 H3 Hi Hj Hs.
  destruct (slice3_spec a st sx sy) as (W & T & X & Y & P); auto.
  pose proof (srng_le _ _ H1) as L1. pose proof (srng_le _ _ H2) as L2. pose proof (srng_le _ _ H3) as L3.
  destruct (series3_ok (slice3 a st sx sy) i j) as (s1 & E1 & Len1 & P1); auto.
  destruct (series3_ok a (Z.of_nat (fst (srng (a3x a) sx)) + i) (Z.of_nat (fst (srng (a3y a) sy)) + j))
    as (s2 & E2 & Len2 & P2); auto; try lia.
  rewrite E1. f_equal. assert (s2 = s) by congruence; subst s2.
  apply list_ext_len.
  - rewrite Len1, firstn_length, skipn_length, T, Len2. lia.
  - intros n Hn. rewrite Len1 in Hn. rewrite P1 by auto. rewrite P by lia.
    rewrite nth_error_firstn, nth_error_skipn. rewrite T in Hn.
    match goal with |- context [(?u <? ?v)%nat] => replace (u <? v)%nat with true by lia end.
    rewrite P2 by lia. f_equal; lia.
Qed.

Lemma wf3_full {A} t x y (v : A) : wf3 (full3 t x y v).
Proof. unfold wf3, full3; cbn. apply repeat_length. Qed.

Lemma at3_full {A} t x y (v : A) k i j : k < t -> i < x -> j < y -> at3 (full3 t x y v) k i j = Some v.
Proof.
  intros Hk Hi Hj. unfold at3, full3; cbn. rewrite nth_error_repeat_eq.
  pose proof (flat3_lt t x y k i j Hk Hi Hj).
  match goal with |- context [(?u <? ?v)%nat] => replace (u <? v)%nat with true by lia end. reflexivity.
Qed.

(** assignment of a series *)
Lemma fold_replace_spec {A} (pos : nat -> nat) (s : list A) k d :
  (forall t t', pos t = pos t' -> t = t') ->
  (forall t, k <= t < k + length s -> pos t < length d) ->
  let d' := fold_left (fun d '(t, v) => replace_nth d (pos t) v) (combine (seq k (length s)) s) d in
  length d' = length d /\
  (forall t v, nth_error s t = Some v -> nth_error d' (pos (k + t)) = Some v) /\
  (forall n, (forall t, k <= t < k + length s -> pos t <> n) -> nth_error d' n = nth_error d n).
Proof.
  intros Hinj. revert k d; induction s as [|v vs IH]; intros k d Hr; cbn.
  - repeat split; auto. intros t w; destruct t; discriminate.
  - destruct (IH (S k) (replace_nth d (pos k) v)) as (L & P & Q).
    { intros t Ht. rewrite replace_nth_length. apply Hr. cbn; lia. }
    rewrite replace_nth_length in L. split; [exact L|]. split.
    + intros t w Hw. destruct t; cbn in Hw.
      * inversion Hw; subst. rewrite Nat.add_0_r. rewrite Q.
        -- apply replace_nth_same. apply Hr; cbn; lia.
        -- intros t Ht E. apply Hinj in E. lia.
      * replace (k + S t) with (S k + t) by lia. apply P; auto.
    + intros n Hn. rewrite Q.
      * apply replace_nth_other. apply Hn; cbn; lia.
      * intros t Ht. apply Hn; cbn; lia.
Qed.

Lemma setseries3_spec {A} (a : arr3 A) i j s :
  wf3 a -> (0 <= i < Z.of_nat (a3x a))%Z -> (0 <= j < Z.of_nat (a3y a))%Z -> length s = a3t a ->
  exists a', setseries3 a i j s = Ok a' /\ wf3 a' /\ a3t a' = a3t a /\ a3x a' = a3x a /\ a3y a' = a3y a /\
    series3 a' i j = Ok s /\
    (forall i' j', (0 <= i' < Z.of_nat (a3x a))%Z -> (0 <= j' < Z.of_nat (a3y a))%Z -> (i', j') <> (i, j) ->
       series3 a' i' j' = series3 a i' j').
Proof.
  intros Hw Hi Hj Hs. unfold setseries3. rewrite !norm_index_in by auto.
  assert (Es : match s with [v] => repeat v (a3t a) | _ => s end = s).
  { destruct s as [|v [|w ws]]; auto. cbn in Hs. rewrite <- Hs; reflexivity. }
  rewrite Es, Hs, Nat.eqb_refl.
  set (pos := fun t => (t * a3x a + Z.to_nat i) * a3y a + Z.to_nat j).
  assert (Hinj : forall t t', pos t = pos t' -> t = t').
  { intros t t' E. unfold pos in E. apply flat_inj in E; [|lia|lia]. destruct E as [E _].
    apply flat_inj in E; lia. }
  unfold enumerate.
  destruct (fold_replace_spec pos s 0 (a3d a) Hinj) as (L & P & Q).
  { intros t Ht. unfold pos. rewrite Hw. apply flat3_lt; lia. }
  set (d' := fold_left _ _ _) in *.
  change (fold_left (fun (d : list A) '(t, v) => replace_nth d ((t * a3x a + Z.to_nat i) * a3y a + Z.to_nat j) v)
                    (combine (seq 0 (length s)) s) (a3d a)) with d'.
  eexists; split; [reflexivity|].
  assert (W' : wf3 (mk3 (a3t a) (a3x a) (a3y a) d')) by (unfold wf3; cbn [a3d a3t a3x a3y]; rewrite L; exact Hw).
  split; [exact W'|]. cbn [a3t a3x a3y]. split; [auto|]. split; [auto|]. split; [auto|]. split.
  - destruct (series3_ok _ i j W') as (s1 & E1 & Len1 & P1); auto.
    rewrite E1. f_equal. cbn [a3t] in *. apply list_ext_len; [lia|].
    intros n Hn. rewrite P1 by lia. unfold at3; cbn [a3d a3t a3x a3y].
    destruct (nth_error_lt_some s n) as [v Hv]; [lia|].
    rewrite Hv. apply P in Hv. exact Hv.
  - intros i' j' Hi' Hj' Hne.
    destruct (series3_ok _ i' j' W') as (s1 & E1 & Len1 & P1); auto.
    destruct (series3_ok a i' j' Hw) as (s2 & E2 & Len2 & P2); auto.
    rewrite E1, E2. f_equal. cbn [a3t] in *. apply list_ext_len; [lia|].
    intros n Hn. rewrite P1, P2 by lia. unfold at3; cbn [a3d a3t a3x a3y].
    apply Q. intros t Ht E. unfold pos in E. apply flat_inj in E; [|lia|lia].
    destruct E as [E Ej]. apply flat_inj in E; [|lia|lia]. apply Hne. f_equal; lia.
Qed.

(** reading index (t, i, j) of a flat reshape *)
Lemma reshape2_ok {A} (l : list A) x y a : reshape2 l x y = Ok a -> wf2 a /\ a = mk2 x y l.
Proof.
  unfold reshape2. destruct (Nat.eqb_spec (length l) (x * y)); intros H; inversion H; subst.
  split; auto.
Qed.
