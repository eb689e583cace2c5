(** Facts about the Python primitives of [Py]. *)
From Coq Require Import ZifyBool ZifyNat.
From Verif Require Import Base.Py.

Lemma bind_ok {A B} (x : res A) (f : A -> res B) b :
  bind x f = Ok b <-> exists a, x = Ok a /\ f a = Ok b.
Proof.
  destruct x as [a|e]; cbn; split.
  - intros H; exists a; auto.
  - intros (a' & E & H); inversion E; subst; exact H.
  - discriminate.
  - intros (a' & E & _); discriminate.
Qed.

(* ---------- mapM ---------- *)
Lemma mapM_ok {A B} (f : A -> res B) (g : A -> B) l :
  (forall x, In x l -> f x = Ok (g x)) -> mapM f l = Ok (map g l).
Proof.
  induction l as [|x xs IH]; cbn; intros H; auto.
  rewrite (H x) by auto. cbn. rewrite IH by (intros; apply H; auto). reflexivity.
Qed.

Lemma mapM_length {A B} (f : A -> res B) l r : mapM f l = Ok r -> length r = length l.
Proof.
  revert r; induction l as [|x xs IH]; cbn; intros r H.
  - inversion H; reflexivity.
  - destruct (f x); cbn in H; try discriminate.
    destruct (mapM f xs); cbn in H; try discriminate.
    inversion H; subst; cbn; f_equal; auto.
Qed.

Lemma mapM_nth {A B} (f : A -> res B) l r :
  mapM f l = Ok r ->
  forall n x, nth_error l n = Some x -> exists y, f x = Ok y /\ nth_error r n = Some y.
Proof.
  revert r; induction l as [|x xs IH]; cbn; intros r H n z Hn.
  - destruct n; discriminate.
  - destruct (f x) as [y|] eqn:E; cbn in H; try discriminate.
    destruct (mapM f xs) as [ys|] eqn:E2; cbn in H; try discriminate.
    inversion H; subst. destruct n; cbn in *.
    + inversion Hn; subst; eauto.
    + eapply IH; eauto.
Qed.

Lemma mapM_raise {A B} (f : A -> res B) l e :
  mapM f l = Raise e -> exists x, In x l /\ f x = Raise e.
Proof.
  induction l as [|x xs IH]; cbn; intros H; try discriminate.
  destruct (f x) as [y|e'] eqn:E; cbn in H.
  - destruct (mapM f xs) as [ys|e''] eqn:E2; cbn in H; try discriminate.
    destruct IH as (z & Hz & Hf); [congruence|]. exists z; auto.
  - inversion H; subst; exists x; auto.
Qed.

Lemma mapM_some_raise {A B} (f : A -> res B) l x e :
  In x l -> f x = Raise e -> (forall y e', In y l -> f y = Raise e' -> e' = e) ->
  mapM f l = Raise e.
Proof.
  induction l as [|y ys IH]; cbn; intros Hin Hx Hall; [contradiction|].
  destruct (f y) as [z|e'] eqn:E; cbn.
  - rewrite IH; auto.
    + destruct Hin as [->|H]; auto. congruence.
    + intros w e' Hw; apply Hall; auto.
  - f_equal; apply (Hall y e'); auto.
Qed.

Lemma mapM_ext {A B} (f g : A -> res B) l :
  (forall x, In x l -> f x = g x) -> mapM f l = mapM g l.
Proof.
  induction l as [|x xs IH]; cbn; intros H; auto.
  rewrite H by auto. destruct (g x); cbn; auto. rewrite IH; auto.
Qed.

Lemma mapM_map {A B C} (f : B -> res C) (g : A -> B) l :
  mapM f (map g l) = mapM (fun x => f (g x)) l.
Proof. induction l as [|x xs IH]; cbn; auto. rewrite IH; auto. Qed.

Lemma mapM_Forall2 {A B} (f : A -> res B) l r :
  mapM f l = Ok r <-> Forall2 (fun x y => f x = Ok y) l r.
Proof.
  revert r; induction l as [|x xs IH]; cbn; intros r; split; intros H.
  - inversion H; constructor.
  - inversion H; reflexivity.
  - destruct (f x) eqn:E; cbn in H; try discriminate.
    destruct (mapM f xs) eqn:E2; cbn in H; try discriminate.
    inversion H; subst; constructor; auto. apply IH; auto.
  - inversion H; subst. rewrite H2; cbn. apply IH in H4. rewrite H4; reflexivity.
Qed.

(* ---------- foldM ---------- *)
Lemma foldM_ok {A S} (f : S -> A -> res S) (g : S -> A -> S) l s :
  (forall s x, In x l -> f s x = Ok (g s x)) -> foldM f l s = Ok (fold_left g l s).
Proof.
  revert s; induction l as [|x xs IH]; cbn; intros s H; auto.
  rewrite H by auto. cbn. apply IH. intros; apply H; auto.
Qed.

Lemma foldM_inv {A S} (P : S -> Prop) (f : S -> A -> res S) l s s' :
  (forall s x s', In x l -> P s -> f s x = Ok s' -> P s') ->
  P s -> foldM f l s = Ok s' -> P s'.
Proof.
  revert s; induction l as [|x xs IH]; cbn; intros s H Hs Hf.
  - inversion Hf; subst; auto.
  - destruct (f s x) as [s1|] eqn:E; cbn in Hf; try discriminate.
    eapply IH; [| |exact Hf]; eauto.
Qed.

Lemma foldM_app {A S} (f : S -> A -> res S) l1 l2 s :
  foldM f (l1 ++ l2) s = (s' <- foldM f l1 s ;; foldM f l2 s').
Proof.
  revert s; induction l1 as [|x xs IH]; cbn; intros s; auto.
  destruct (f s x); cbn; auto.
Qed.

(* ---------- ranges ---------- *)
Lemma zrange_length a b : length (zrange a b) = Z.to_nat (b - a).
Proof. unfold zrange; rewrite map_length, seq_length; reflexivity. Qed.

Lemma in_zrange a b x : In x (zrange a b) <-> (a <= x < b)%Z.
Proof.
  unfold zrange; rewrite in_map_iff; split.
  - intros (i & <- & Hi). apply in_seq in Hi. lia.
  - intros H. exists (Z.to_nat (x - a)). split; [lia|]. apply in_seq; lia.
Qed.

Lemma zrange_nodup a b : NoDup (zrange a b).
Proof.
  unfold zrange. apply FinFun.Injective_map_NoDup; [|apply seq_NoDup].
  intros x y H; lia.
Qed.

Lemma zrange_nth a b n : (Z.of_nat n < b - a)%Z -> nth_error (zrange a b) n = Some (a + Z.of_nat n)%Z.
Proof.
  intros H. unfold zrange.
  rewrite nth_error_map, nth_error_nth' with (d := 0) by (rewrite seq_length; lia).
  rewrite seq_nth by lia. reflexivity.
Qed.

(* ---------- norm_index / getitem / replace_nth ---------- *)
Lemma norm_index_in n i : (0 <= i < Z.of_nat n)%Z -> norm_index n i = Some (Z.to_nat i).
Proof.
  intros H; unfold norm_index.
  replace ((0 <=? i) && (i <? Z.of_nat n))%Z with true by lia. reflexivity.
Qed.

Lemma norm_index_of_nat n i : i < n -> norm_index n (Z.of_nat i) = Some i.
Proof. intros H; rewrite norm_index_in by lia. f_equal; lia. Qed.

Lemma norm_index_lt n i m : norm_index n i = Some m -> m < n.
Proof.
  unfold norm_index.
  destruct ((0 <=? i) && (i <? Z.of_nat n))%Z eqn:E1.
  - intros H; inversion H; subst; lia.
  - destruct ((- Z.of_nat n <=? i) && (i <? 0))%Z eqn:E2; intros H; inversion H; subst; lia.
Qed.

Lemma norm_index_none n i : norm_index n i = None <-> (i < - Z.of_nat n \/ Z.of_nat n <= i)%Z.
Proof.
  unfold norm_index.
  destruct ((0 <=? i) && (i <? Z.of_nat n))%Z eqn:E1.
  - split; [discriminate|lia].
  - destruct ((- Z.of_nat n <=? i) && (i <? 0))%Z eqn:E2; split; try discriminate; try lia; auto.
Qed.

Lemma nth_error_lt_some {A} (l : list A) n : n < length l -> exists x, nth_error l n = Some x.
Proof.
  intros H. destruct (nth_error l n) eqn:E; eauto. apply nth_error_None in E; lia.
Qed.

Lemma getitem_in {A} (l : list A) n x :
  nth_error l n = Some x -> getitem l (Z.of_nat n) = Ok x.
Proof.
  intros H. unfold getitem.
  assert (n < length l) by (apply nth_error_Some; congruence).
  rewrite norm_index_of_nat by auto. rewrite H; reflexivity.
Qed.

Lemma getitem_Z_in {A} (l : list A) (i : Z) :
  (0 <= i < Z.of_nat (length l))%Z ->
  exists x, getitem l i = Ok x /\ nth_error l (Z.to_nat i) = Some x.
Proof.
  intros H. destruct (nth_error_lt_some l (Z.to_nat i)) as [x Hx]; [lia|].
  exists x; split; auto. unfold getitem. rewrite norm_index_in by auto. rewrite Hx; auto.
Qed.

Lemma replace_nth_length {A} (l : list A) n x : length (replace_nth l n x) = length l.
Proof. revert n; induction l as [|y ys IH]; destruct n; cbn; auto. Qed.

Lemma replace_nth_same {A} (l : list A) n x : n < length l -> nth_error (replace_nth l n x) n = Some x.
Proof. revert n; induction l as [|y ys IH]; destruct n; cbn; intros; try lia; auto. apply IH; lia. Qed.

Lemma replace_nth_other {A} (l : list A) n m x :
  n <> m -> nth_error (replace_nth l n x) m = nth_error l m.
Proof.
  revert n m; induction l as [|y ys IH]; destruct n, m; cbn; intros; try lia; auto.
Qed.

Lemma nth_error_replace_nth {A} (l : list A) n m x :
  nth_error (replace_nth l n x) m =
  if (n =? m)%nat then (if (n <? length l)%nat then Some x else None) else nth_error l m.
Proof.
  destruct (Nat.eqb_spec n m).
  - subst. destruct (Nat.ltb_spec m (length l)).
    + apply replace_nth_same; auto.
    + apply nth_error_None. rewrite replace_nth_length; auto.
  - apply replace_nth_other; auto.
Qed.

Lemma in_replace_nth {A} (l : list A) n x y : In y (replace_nth l n x) -> y = x \/ In y l.
Proof.
  revert n; induction l as [|z zs IH]; destruct n; cbn; intros H; auto.
  - destruct H; auto.
  - destruct H as [->|H]; auto. apply IH in H; destruct H; auto.
Qed.

(* ---------- list extensionality ---------- *)
Lemma list_ext {A} (l1 l2 : list A) :
  (forall n, nth_error l1 n = nth_error l2 n) -> l1 = l2.
Proof.
  revert l2; induction l1 as [|x xs IH]; intros [|y ys] H; auto.
  - specialize (H 0); discriminate.
  - specialize (H 0); discriminate.
  - f_equal; [specialize (H 0); cbn in H; congruence|].
    apply IH. intros n; exact (H (S n)).
Qed.

Lemma list_ext_len {A} (l1 l2 : list A) :
  length l1 = length l2 ->
  (forall n, n < length l1 -> nth_error l1 n = nth_error l2 n) -> l1 = l2.
Proof.
  intros Hl H; apply list_ext; intros n.
  destruct (Nat.lt_ge_cases n (length l1)); auto.
  transitivity (@None A).
  - apply nth_error_None; lia.
  - symmetry; apply nth_error_None; lia.
Qed.

Lemma nth_error_firstn {A} (l : list A) n m : nth_error (firstn n l) m = if (m <? n)%nat then nth_error l m else None.
Proof.
  revert n m; induction l as [|x xs IH]; destruct n, m; cbn; auto.
  - match goal with |- context [if ?b then _ else _] => destruct b end; reflexivity.
  - rewrite IH. reflexivity.
Qed.

Lemma nth_error_skipn {A} (l : list A) n m : nth_error (skipn n l) m = nth_error l (n + m).
Proof.
  revert n; induction l as [|x xs IH]; destruct n; cbn; auto.
  - destruct m; reflexivity.
Qed.

Lemma nth_error_repeat_eq {A} (x : A) n m :
  nth_error (repeat x n) m = if (m <? n)%nat then Some x else None.
Proof.
  revert m; induction n; destruct m; cbn; auto.
  rewrite IHn; reflexivity.
Qed.

Lemma nth_error_seq s n m : nth_error (seq s n) m = if (m <? n)%nat then Some (s + m) else None.
Proof.
  destruct (Nat.ltb_spec m n).
  - rewrite nth_error_nth' with (d := 0) by (rewrite seq_length; auto).
    rewrite seq_nth; auto.
  - apply nth_error_None; rewrite seq_length; auto.
Qed.

Lemma nth_error_enumerate {A} (l : list A) n :
  nth_error (enumerate l) n = option_map (fun x => (n, x)) (nth_error l n).
Proof.
  unfold enumerate.
  assert (G : forall s, nth_error (combine (seq s (length l)) l) n
                        = option_map (fun x => (s + n, x)) (nth_error l n)).
  { revert n; induction l as [|x xs IH]; intros n s; destruct n; cbn; auto.
    - f_equal; f_equal; lia.
    - rewrite IH. destruct (nth_error xs n); cbn; auto. f_equal; f_equal; lia. }
  rewrite G; reflexivity.
Qed.

Lemma enumerate_length {A} (l : list A) : length (enumerate l) = length l.
Proof. unfold enumerate; rewrite combine_length, seq_length; lia. Qed.

(* ---------- slices ---------- *)
Lemma slice_bound_in n i : (0 <= i <= Z.of_nat n)%Z -> slice_bound n i = Z.to_nat i.
Proof. intros H; unfold slice_bound. replace (i <? 0)%Z with false by lia. lia. Qed.

Lemma slice_bound_le n i : slice_bound n i <= n.
Proof. unfold slice_bound; destruct (i <? 0)%Z eqn:E; lia. Qed.

Lemma py_slice_in {A} (l : list A) a b :
  (0 <= a <= b)%Z -> (b <= Z.of_nat (length l))%Z ->
  py_slice a b l = firstn (Z.to_nat (b - a)) (skipn (Z.to_nat a) l).
Proof.
  intros H1 H2. unfold py_slice. rewrite !slice_bound_in by lia.
  f_equal; lia.
Qed.

Lemma py_slice_length {A} (l : list A) a b :
  (0 <= a <= b)%Z -> (b <= Z.of_nat (length l))%Z -> length (py_slice a b l) = Z.to_nat (b - a).
Proof.
  intros H1 H2. rewrite py_slice_in by auto. rewrite firstn_length, skipn_length. lia.
Qed.

Lemma py_slice_nth {A} (l : list A) a b n :
  (0 <= a <= b)%Z -> (b <= Z.of_nat (length l))%Z -> (Z.of_nat n < b - a)%Z ->
  nth_error (py_slice a b l) n = nth_error l (Z.to_nat a + n).
Proof.
  intros H1 H2 H3. rewrite py_slice_in by auto. rewrite nth_error_firstn, nth_error_skipn.
  replace (n <? Z.to_nat (b - a))%nat with true by lia. reflexivity.
Qed.

(* ---------- flat_map over equal-length chunks ---------- *)
Lemma flat_map_const_length {A B} (f : A -> list B) l w :
  (forall x, In x l -> length (f x) = w) -> length (flat_map f l) = length l * w.
Proof.
  induction l as [|x xs IH]; cbn; intros H; auto.
  rewrite app_length, H by auto. rewrite IH by auto. lia.
Qed.

Lemma nth_error_flat_map_const {A B} (f : A -> list B) l w q r x :
  (forall x, In x l -> length (f x) = w) -> nth_error l q = Some x -> r < w ->
  nth_error (flat_map f l) (q * w + r) = nth_error (f x) r.
Proof.
  revert q; induction l as [|y ys IH]; cbn; intros q H Hq Hr.
  - destruct q; discriminate.
  - destruct q; cbn in *.
    + inversion Hq; subst. rewrite nth_error_app1; auto. rewrite H; auto.
    + rewrite nth_error_app2 by (rewrite H by auto; lia).
      rewrite H by auto. replace (w + q * w + r - w) with (q * w + r) by lia.
      apply IH; auto.
Qed.

Lemma NoDup_nth_error_inj {A} (l : list A) n m x :
  NoDup l -> nth_error l n = Some x -> nth_error l m = Some x -> n = m.
Proof.
  intros H Hn Hm. rewrite NoDup_nth_error in H. apply H; [|congruence].
  apply nth_error_Some; congruence.
Qed.

Lemma Forall2_nth {A B} (R : A -> B -> Prop) l1 l2 :
  Forall2 R l1 l2 <->
  length l1 = length l2 /\
  forall n x y, nth_error l1 n = Some x -> nth_error l2 n = Some y -> R x y.
Proof.
  split.
  - induction 1 as [|x y xs ys Hxy H IH]; cbn; split; auto.
    + intros n; destruct n; discriminate.
    + destruct IH; lia.
    + intros [|n] a b Ha Hb; cbn in *; [congruence|]. destruct IH as [_ IH]; eauto.
  - revert l2; induction l1 as [|x xs IH]; intros [|y ys] [Hl H]; cbn in *; try lia; constructor.
    + apply (H 0); auto.
    + apply IH; split; [lia|]. intros n; apply (H (S n)).
Qed.

Lemma foldM_ext {A S} (f g : S -> A -> res S) l s :
  (forall s x, In x l -> f s x = g s x) -> foldM f l s = foldM g l s.
Proof.
  revert s; induction l as [|x xs IH]; cbn; intros s H; auto.
  rewrite H by auto. destruct (g s x); cbn; auto.
Qed.

Lemma bind_assoc {A B C} (x : res A) (f : A -> res B) (g : B -> res C) :
  bind (bind x f) g = bind x (fun a => bind (f a) g).
Proof. destruct x; reflexivity. Qed.

Lemma in_combine_map {A B} (f : A -> B) l x y : In (x, y) (combine l (map f l)) <-> In x l /\ y = f x.
Proof.
  induction l as [|a l IH]; cbn; [tauto|]. split.
  - intros [E|H]; [inversion E; auto|]. apply IH in H; tauto.
  - intros [[->|H] ->]; auto. right; apply IH; auto.
Qed.

Lemma filter_all {A} (f : A -> bool) l : (forall x, In x l -> f x = true) -> filter f l = l.
Proof.
  induction l as [|a l IH]; cbn; intros H; auto. rewrite (H a) by auto. f_equal. auto.
Qed.

Lemma skipn_skipn' {A} (l : list A) n m : skipn n (skipn m l) = skipn (m + n) l.
Proof.
  revert m l. intros m. induction m as [|m IH]; intros l; cbn [skipn plus]; auto.
  destruct l; auto. destruct n; reflexivity.
Qed.
Lemma firstn_In' {A} (l : list A) n x : In x (firstn n l) -> In x l.
Proof. revert l. induction n as [|n IH]; intros [|a l]; cbn; tauto || (intros [->|H]; auto). Qed.
Lemma skipn_In' {A} (l : list A) n x : In x (skipn n l) -> In x l.
Proof. revert l. induction n as [|n IH]; intros [|a l]; cbn; auto. Qed.
