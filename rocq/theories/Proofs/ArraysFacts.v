(** Facts for Model/Arrays.v. *)
From Coq Require Import Sorted ZifyBool ZifyNat.
From Verif Require Import Base.Py Base.PyFacts Base.Arr Base.ArrFacts Base.Float Base.FloatFacts
     Spec.Grid Spec.Partition Spec.Extrema Model.Region Model.Maths Model.Arrays
     Proofs.RegionFacts Proofs.PartitionFacts Proofs.MathsFacts.

(* ---------- first position ---------- *)
Lemma find_pos_some {A} (f : A -> bool) l s n :
  find_pos f l s = Some n ->
  s <= n < s + length l /\ (exists x, nth_error l (n - s) = Some x /\ f x = true) /\
  forall m y, m < n - s -> nth_error l m = Some y -> f y = false.
Proof.
  revert s; induction l as [|x xs IH]; cbn; intros s H; [discriminate|].
  destruct (f x) eqn:E.
  - inversion H; subst. split; [lia|]. rewrite Nat.sub_diag. split; [cbn; eauto|]. intros; lia.
  - apply IH in H. destruct H as (R & (y & Hy & Fy) & Q).
    assert (Hs : n - s = S (n - S s)) by lia.
    split; [lia|]. rewrite Hs. split; [cbn; eauto|].
    intros [|m] z Hm Hz; cbn in Hz; [congruence|]. eapply Q; eauto. lia.
Qed.
Lemma find_pos_none {A} (f : A -> bool) l s : find_pos f l s = None -> forall x, In x l -> f x = false.
Proof.
  revert s; induction l as [|x xs IH]; cbn; intros s H y Hy; [tauto|].
  destruct (f x) eqn:E; [discriminate|]. destruct Hy as [<-|Hy]; eauto.
Qed.

Lemma unravel_ravel shape n : n < fold_right Nat.mul 1 shape ->
  ravel shape (unravel shape n) = n /\ Forall2 (fun c len => c < len) (unravel shape n) shape.
Proof.
  revert n; induction shape as [|s rest IH]; cbn; intros n Hn; [split; [lia|constructor]|].
  set (size := fold_right Nat.mul 1 rest) in *. assert (size <> 0) by (intros E; rewrite E in Hn; lia).
  destruct (IH (n mod size)) as [E F]; [apply Nat.mod_upper_bound; auto|].
  split.
  - rewrite E. rewrite Nat.mul_comm. symmetry. apply Nat.div_mod; auto.
  - constructor; auto. apply Nat.div_lt_upper_bound; auto. lia.
Qed.

Lemma minimum_value_and_index_spec shape data v idx :
  length data = fold_right Nat.mul 1 shape ->
  minimum_value_and_index shape data = Ok (v, idx) ->
  is_nan v = false /\ In v data /\ (forall y, In y data -> is_nan y = false -> fle v y = true) /\
  Forall2 (fun c len => c < len) idx shape /\
  (exists w, nth_error data (ravel shape idx) = Some w /\ feqb w v = true) /\
  (forall m w, m < ravel shape idx -> nth_error data m = Some w -> feqb w v = false).
Proof.
  intros Hlen H. unfold minimum_value_and_index in H. apply bind_ok in H. destruct H as (mn & E & H).
  destruct (find_pos (fun w => feqb w mn) data 0) as [n|] eqn:F; [|discriminate].
  inversion H; subst. apply find_pos_some in F. destruct F as (R & (w & Hw & Fw) & Q).
  rewrite Nat.sub_0_r in *. destruct (unravel_ravel shape n) as [Er Ef]; [lia|].
  destruct (nanmin_spec _ _ E) as [(N & _ & _)|(N & I & M)].
  - exfalso. destruct v; try discriminate. destruct w; discriminate.
  - rewrite Er. repeat split; eauto.
Qed.

Lemma maximum_value_and_index_spec shape data v idx :
  length data = fold_right Nat.mul 1 shape ->
  maximum_value_and_index shape data = Ok (v, idx) ->
  is_nan v = false /\ In v data /\ (forall y, In y data -> is_nan y = false -> fle y v = true) /\
  Forall2 (fun c len => c < len) idx shape /\
  (exists w, nth_error data (ravel shape idx) = Some w /\ feqb w v = true) /\
  (forall m w, m < ravel shape idx -> nth_error data m = Some w -> feqb w v = false).
Proof.
  intros Hlen H. unfold maximum_value_and_index in H. apply bind_ok in H. destruct H as (mn & E & H).
  destruct (find_pos (fun w => feqb w mn) data 0) as [n|] eqn:F; [|discriminate].
  inversion H; subst. apply find_pos_some in F. destruct F as (R & (w & Hw & Fw) & Q).
  rewrite Nat.sub_0_r in *. destruct (unravel_ravel shape n) as [Er Ef]; [lia|].
  destruct (nanmax_spec _ _ E) as [(N & _ & _)|(N & I & M)].
  - exfalso. destruct v; try discriminate. destruct w; discriminate.
  - rewrite Er. repeat split; eauto.
Qed.

Lemma feqb_refl_notnan v : is_nan v = false -> feqb v v = true.
Proof. destruct v; cbn; try discriminate; auto. intros _. apply Qeq_bool_iff. reflexivity. Qed.

Lemma minimum_value_and_index_ok shape data :
  (exists y, In y data /\ is_nan y = false) -> exists v idx, minimum_value_and_index shape data = Ok (v, idx).
Proof.
  intros (y & Hy & Ny). unfold minimum_value_and_index.
  destruct (nanmin_ok data) as [mn E]; [intros ->; auto|]. rewrite E. cbn [bind].
  destruct (nanmin_spec _ _ E) as [(N & _ & A)|(N & I & M)]; [rewrite A in Ny by auto; discriminate|].
  destruct (find_pos (fun w => feqb w mn) data 0) eqn:F; [eauto|].
  exfalso. pose proof (find_pos_none _ _ _ F mn I) as G. cbn in G. rewrite feqb_refl_notnan in G by auto. discriminate.
Qed.
Lemma maximum_value_and_index_ok shape data :
  (exists y, In y data /\ is_nan y = false) -> exists v idx, maximum_value_and_index shape data = Ok (v, idx).
Proof.
  intros (y & Hy & Ny). unfold maximum_value_and_index.
  destruct (nanmax_ok data) as [mn E]; [intros ->; auto|]. rewrite E. cbn [bind].
  destruct (nanmax_spec _ _ E) as [(N & _ & A)|(N & I & M)]; [rewrite A in Ny by auto; discriminate|].
  destruct (find_pos (fun w => feqb w mn) data 0) eqn:F; [eauto|].
  exfalso. pose proof (find_pos_none _ _ _ F mn I) as G. cbn in G. rewrite feqb_refl_notnan in G by auto. discriminate.
Qed.

Lemma extrema_all_nan shape data :
  data <> [] -> (forall y, In y data -> is_nan y = true) ->
  minimum_value_and_index shape data = Raise IndexError /\ maximum_value_and_index shape data = Raise IndexError.
Proof.
  intros Hne H. unfold minimum_value_and_index, maximum_value_and_index.
  destruct (nanmin_ok data Hne) as [mn E]. destruct (nanmax_ok data Hne) as [mx E']. rewrite E, E'. cbn [bind].
  assert (G : forall m, find_pos (fun w => feqb w m) data 0 = None).
  { intros m. destruct (find_pos _ data 0) as [n|] eqn:F; auto. exfalso.
    apply find_pos_some in F. destruct F as (_ & (w & Hw & Fw) & _).
    apply nth_error_In in Hw. apply H in Hw. destruct w; discriminate. }
  rewrite !G. auto.
Qed.

(* ---------- find_minimum / find_maximum ---------- *)
Lemma nflt_cases a b : flt a b = false -> fle b a = true \/ is_nan a = true \/ is_nan b = true.
Proof.
  intros H. destruct (is_nan a) eqn:Na; auto. destruct (is_nan b) eqn:Nb; auto. left.
  destruct (fle_total a b) as [L|L]; auto.
  unfold fle in *. apply orb_true_iff in L. destruct L as [L|L]; [congruence|].
  apply orb_true_iff. right. rewrite feqb_sym; auto.
Qed.

Lemma min_fold items : first_least items (fold_left min_step items (None, PInf)).
Proof.
  rewrite <- (rev_involutive items). set (l := rev items). clearbody l. clear items.
  induction l as [|it l IH]; [cbn; split; [auto|intros it []]|].
  cbn [rev]. rewrite fold_left_app. cbn [fold_left].
  set (r := fold_left min_step (rev l) (None, PInf)) in *. clearbody r.
  unfold min_step. destruct (flt (snd it) (snd r)) eqn:E.
  - unfold first_least; cbn [fst snd]. destruct it as [q v]; cbn [fst snd] in *.
    exists (rev l), []. split; auto. split; [|split; [|intros it []]].
    + unfold first_least in IH. destruct (fst r) as [p|].
      * destruct IH as (pre & post & _ & Hr & _). eapply flt_trans; eauto.
      * destruct IH as [Er _]. rewrite Er in E; auto.
    + intros it Hin. destruct (is_nan (snd it)) eqn:N; auto. left.
      unfold first_least in IH. destruct (fst r) as [p|].
      * destruct IH as (pre & post & El & Hr & H1 & H2). rewrite El in Hin. apply in_app_or in Hin. destruct Hin as [Hin|[<-|Hin]].
        -- destruct (H1 it Hin) as [L|L]; [|congruence]. eapply flt_trans; eauto.
        -- auto.
        -- destruct (H2 it Hin) as [L|L]; [|congruence]. eapply flt_le_trans; eauto.
      * destruct IH as [Er H1]. rewrite Er in E. specialize (H1 it Hin).
        apply nflt_cases in H1. destruct H1 as [L|[L|L]]; try congruence; [|discriminate].
        eapply flt_le_trans; eauto.
  - unfold first_least in *. destruct (fst r) as [p|].
    + destruct IH as (pre & post & El & Hr & H1 & H2). exists pre, (post ++ [it]).
      split; [rewrite El, <- app_assoc; reflexivity|]. split; auto. split; auto.
      intros it' Hin. apply in_app_or in Hin. destruct Hin as [Hin|[<-|[]]]; auto.
      apply nflt_cases in E. destruct E as [L|[L|L]]; auto. destruct (snd r); discriminate.
    + destruct IH as [Er H1]. split; auto. intros it' Hin. apply in_app_or in Hin.
      destruct Hin as [Hin|[<-|[]]]; auto. rewrite Er in E; auto.
Qed.

Lemma max_fold items : first_greatest items (fold_left max_step items (None, NInf)).
Proof.
  rewrite <- (rev_involutive items). set (l := rev items). clearbody l. clear items.
  induction l as [|it l IH]; [cbn; split; [auto|intros it []]|].
  cbn [rev]. rewrite fold_left_app. cbn [fold_left].
  set (r := fold_left max_step (rev l) (None, NInf)) in *. clearbody r.
  unfold max_step. destruct (flt (snd r) (snd it)) eqn:E.
  - unfold first_greatest; cbn [fst snd]. destruct it as [q v]; cbn [fst snd] in *.
    exists (rev l), []. split; auto. split; [|split; [|intros it []]].
    + unfold first_greatest in IH. destruct (fst r) as [p|].
      * destruct IH as (pre & post & _ & Hr & _). eapply flt_trans; eauto.
      * destruct IH as [Er _]. rewrite Er in E; auto.
    + intros it Hin. destruct (is_nan (snd it)) eqn:N; auto. left.
      unfold first_greatest in IH. destruct (fst r) as [p|].
      * destruct IH as (pre & post & El & Hr & H1 & H2). rewrite El in Hin. apply in_app_or in Hin. destruct Hin as [Hin|[<-|Hin]].
        -- destruct (H1 it Hin) as [L|L]; [|congruence]. eapply flt_trans; eauto.
        -- auto.
        -- destruct (H2 it Hin) as [L|L]; [|congruence]. eapply fle_lt_trans; eauto.
      * destruct IH as [Er H1]. rewrite Er in E. specialize (H1 it Hin).
        apply nflt_cases in H1. destruct H1 as [L|[L|L]]; try congruence; [|discriminate].
        eapply fle_lt_trans; eauto.
  - unfold first_greatest in *. destruct (fst r) as [p|].
    + destruct IH as (pre & post & El & Hr & H1 & H2). exists pre, (post ++ [it]).
      split; [rewrite El, <- app_assoc; reflexivity|]. split; auto. split; auto.
      intros it' Hin. apply in_app_or in Hin. destruct Hin as [Hin|[<-|[]]]; auto.
      apply nflt_cases in E. destruct E as [L|[L|L]]; auto. destruct (snd r); discriminate.
    + destruct IH as [Er H1]. split; auto. intros it' Hin. apply in_app_or in Hin.
      destruct Hin as [Hin|[<-|[]]]; auto. rewrite Er in E; auto.
Qed.

(* ---------- sliding windows ---------- *)
Lemma sliding_window_spec {A} (array : list A) w stride :
  (0 <= w)%Z -> (1 <= stride)%Z ->
  exists ws, sliding_window array w stride = Ok ws /\
    Z.of_nat (length ws) = (if (w <=? Z.of_nat (length array)) then (Z.of_nat (length array) - w) / stride + 1 else 0)%Z /\
    forall n win, nth_error ws n = Some win ->
      (Z.of_nat n * stride + w <= Z.of_nat (length array))%Z /\
      win = firstn (Z.to_nat w) (skipn (n * Z.to_nat stride) array) /\ length win = Z.to_nat w.
Proof.
  intros Hw Hs. unfold sliding_window, py_range.
  replace (stride =? 0)%Z with false by lia. replace (0 <? stride)%Z with true by lia. cbn [bind].
  set (L := Z.of_nat (length array)).
  assert (Hcount : Z.of_nat (Z.to_nat ((L - w + 1 - 0 + stride - 1) / stride))
                   = (if (w <=? L) then (L - w) / stride + 1 else 0)%Z).
  { destruct (w <=? L)%Z eqn:E.
    - replace (L - w + 1 - 0 + stride - 1)%Z with (L - w + 1 * stride)%Z by lia.
      rewrite Z.div_add by lia. pose proof (Z.div_pos (L - w) stride ltac:(lia) ltac:(lia)). lia.
    - assert ((L - w + 1 - 0 + stride - 1) / stride <= 0)%Z; [|lia].
      apply Z.lt_succ_r. apply Z.div_lt_upper_bound; lia. }
  eexists; split; [reflexivity|]. rewrite !map_length, seq_length. split; [exact Hcount|].
  intros n win Hn. rewrite !nth_error_map, nth_error_seq in Hn.
  destruct (n <? _)%nat eqn:E in Hn; cbn in Hn; [|discriminate]. inversion Hn as [Hwin]. clear Hn.
  assert (Hb : (Z.of_nat n * stride + w <= L)%Z).
  { assert (Z.of_nat n < (if (w <=? L) then (L - w) / stride + 1 else 0))%Z by lia.
    destruct (w <=? L)%Z eqn:E'; [|lia].
    assert (Z.of_nat n <= (L - w) / stride)%Z by lia.
    pose proof (Z.mul_div_le (L - w) stride ltac:(lia)). nia. }
  split; auto.
  assert (Hslice : py_slice (0 + Z.of_nat n * stride) (0 + Z.of_nat n * stride + w) array
                   = firstn (Z.to_nat w) (skipn (n * Z.to_nat stride) array)).
  { rewrite py_slice_in by (unfold L in *; nia). f_equal; [lia|]. f_equal. nia. }
  split; [exact Hslice|]. rewrite py_slice_length by (unfold L in *; nia). lia.
Qed.

(* ---------- regular partitioning ---------- *)
Section Blocks.
  Variables (len div : nat).
  Hypothesis Hdiv : 0 < div.
  Hypothesis Hle : div <= len.

  Definition lr := lines_and_residue (Z.of_nat len) (Z.of_nat div).
  Definition bound (i : nat) : nat := if i =? div then len else Z.to_nat (fst lr) * i.

  Lemma lr_spec : (0 < fst lr)%Z /\ (snd lr = Z.of_nat len - fst lr * Z.of_nat div)%Z /\
                  (fst lr * (Z.of_nat div - 1) < Z.of_nat len)%Z.
  Proof using Hdiv Hle.
    unfold lr, lines_and_residue, can_increase_lines.
    set (q := (Z.of_nat len / Z.of_nat div)%Z). set (r := (Z.of_nat len mod Z.of_nat div)%Z).
    assert (E : (Z.of_nat len = Z.of_nat div * q + r)%Z) by (apply Z.div_mod; lia).
    assert (R : (0 <= r < Z.of_nat div)%Z) by (apply Z.mod_pos_bound; lia).
    assert (Q : (1 <= q)%Z) by (apply Z.div_le_lower_bound; lia).
    clearbody q r.
    destruct ((q <? 2 * r) && (Z.of_nat div * (Z.of_nat div - q - 1) <? r))%bool%Z eqn:C; cbn [fst snd].
    - split; [lia|]. split; [lia|].
      assert (Hc : (Z.of_nat div * (Z.of_nat div - q - 1) < r)%Z) by lia.
      assert (Z.of_nat div - q - 1 < r)%Z.
      { destruct (Z.lt_ge_cases (Z.of_nat div - q - 1) 0); [lia|]. nia. }
      nia.
    - split; [lia|]. split; [lia|]. nia.
  Qed.

  Lemma bound_0 : bound 0 = 0.
  Proof using Hdiv Hle. unfold bound. replace (0 =? div) with false by lia. lia. Qed.
  Lemma bound_end : bound div = len.
  Proof using. unfold bound. rewrite Nat.eqb_refl. reflexivity. Qed.
  Lemma bound_lt i : i < div -> bound i < bound (S i).
  Proof using Hdiv Hle.
    intros H. destruct lr_spec as (L1 & L2 & L3). unfold bound. replace (i =? div) with false by lia.
    destruct (Nat.eqb_spec (S i) div).
    - replace i with (div - 1) by lia. nia.
    - nia.
  Qed.
  Lemma bound_le i j : i <= j -> j <= div -> bound i <= bound j.
  Proof using Hdiv Hle.
    intros H. induction H as [|j H IH]; intros Hj; auto.
    pose proof (bound_lt j ltac:(lia)). lia.
  Qed.
  Lemma bound_code i : i < div ->
    slice_bound len (fst lr * Z.of_nat i) = bound i /\
    slice_bound len (fst lr * Z.of_nat i + fst lr + (if (Z.of_nat i =? Z.of_nat div - 1)%Z then snd lr else 0)) = bound (S i).
  Proof using Hdiv Hle.
    intros H. destruct lr_spec as (L1 & L2 & L3).
    assert (B1 : bound i <= len) by (rewrite <- bound_end; apply bound_le; lia).
    assert (B2 : bound (S i) <= len) by (rewrite <- bound_end; apply bound_le; lia).
    unfold bound in *. replace (i =? div) with false in * by lia.
    split.
    - rewrite slice_bound_in by nia. nia.
    - destruct (Nat.eqb_spec (S i) div).
      + replace (Z.of_nat i =? Z.of_nat div - 1)%Z with true by lia.
        rewrite slice_bound_in by nia. nia.
      + replace (Z.of_nat i =? Z.of_nat div - 1)%Z with false by lia.
        rewrite slice_bound_in by nia. nia.
  Qed.
  (** every line is in one block *)
  Lemma bound_find n : n < len -> exists i, i < div /\ bound i <= n < bound (S i).
  Proof using Hdiv Hle.
    intros Hn. assert (G : forall m, m <= div -> n < bound m -> exists i, i < m /\ bound i <= n < bound (S i)).
    { induction m as [|m IH]; intros Hm Hlt; [rewrite bound_0 in Hlt; lia|].
      destruct (Nat.lt_ge_cases n (bound m)) as [H|H].
      - destruct IH as (i & Hi & Hb); auto; [lia|]. exists i; split; auto; lia.
      - exists m; split; auto; lia. }
    apply G; auto. rewrite bound_end; auto.
  Qed.
  Lemma bound_unique i j n : i < div -> j < div -> bound i <= n < bound (S i) -> bound j <= n < bound (S j) -> i = j.
  Proof using Hdiv Hle.
    intros Hi Hj B1 B2. destruct (Nat.lt_trichotomy i j) as [H|[H|H]]; auto; exfalso.
    - pose proof (bound_le (S i) j ltac:(lia) ltac:(lia)). lia.
    - pose proof (bound_le (S j) i ltac:(lia) ltac:(lia)). lia.
  Qed.
End Blocks.

(** writing all blocks *)
Lemma assign_blocks (xb yb : nat -> nat) (label : nat -> nat -> Z) x y :
  forall (bs : list (nat * nat)) (m : arr2 Z),
  a2x m = x -> a2y m = y -> wf2 m ->
  let m' := fold_left (fun m '(r, c) => assign_block m (xb r) (xb (S r)) (yb c) (yb (S c)) (label r c)) bs m in
  a2x m' = x /\ a2y m' = y /\ wf2 m' /\
  forall i j, i < x -> j < y ->
    (forall r c r' c', In (r, c) bs -> In (r', c') bs ->
        xb r <= i < xb (S r) -> yb c <= j < yb (S c) -> xb r' <= i < xb (S r') -> yb c' <= j < yb (S c') ->
        (r, c) = (r', c')) ->
    (forall r c, In (r, c) bs -> xb r <= i < xb (S r) -> yb c <= j < yb (S c) -> at2 m' i j = Some (label r c)) /\
    ((forall r c, In (r, c) bs -> ~ (xb r <= i < xb (S r) /\ yb c <= j < yb (S c))) -> at2 m' i j = at2 m i j).
Proof.
  induction bs as [|[r c] bs IH]; intros m Hx Hy Hw; cbn [fold_left].
  - repeat split; auto. intros r c [].
  - destruct (IH (assign_block m (xb r) (xb (S r)) (yb c) (yb (S c)) (label r c))) as (X & Y & W & P);
      auto using wf2_assign_block.
    split; auto. split; auto. split; auto. intros i j Hi Hj Hu.
    destruct (P i j Hi Hj) as [P1 P2].
    { intros; eapply Hu; eauto; right; auto. }
    pose proof (at2_assign_block m (xb r) (xb (S r)) (yb c) (yb (S c)) (label r c) i j Hw ltac:(lia) ltac:(lia)) as A.
    split.
    + intros r' c' [E|Hin] Bx By.
      * inversion E; subst r' c'.
        assert (Dec : {In (r, c) bs} + {~ In (r, c) bs}) by (apply in_dec; decide equality; apply Nat.eq_dec).
        destruct Dec as [Hin|Hnin].
        -- apply P1; auto.
        -- rewrite P2.
           ++ rewrite A. replace ((xb r <=? i) && (i <? xb (S r)) && (yb c <=? j) && (j <? yb (S c)))%nat with true by lia. reflexivity.
           ++ intros r' c' Hin [B1 B2]. apply Hnin.
              replace (r, c) with (r', c'); auto. symmetry. eapply Hu; eauto; [left; auto|right; auto].
      * apply P1; auto.
    + intros Hn. rewrite P2.
      * rewrite A. pose proof (Hn r c (or_introl eq_refl)).
        replace ((xb r <=? i) && (i <? xb (S r)) && (yb c <=? j) && (j <? yb (S c)))%nat with false by lia. reflexivity.
      * intros; apply Hn; right; auto.
Qed.

Lemma fold_nested {A B C} (f : C -> A -> B -> C) (l1 : list A) (l2 : list B) c :
  fold_left (fun c a => fold_left (fun c b => f c a b) l2 c) l1 c
  = fold_left (fun c '(a, b) => f c a b) (flat_map (fun a => map (fun b => (a, b)) l2) l1) c.
Proof.
  revert c; induction l1 as [|a l1 IH]; intros c; cbn [fold_left flat_map]; auto.
  rewrite fold_left_app, <- IH. f_equal. clear. revert c. induction l2; intros c; cbn; auto.
Qed.

Lemma fold_left_map' {A B C} (f : C -> B -> C) (h : A -> B) l c :
  fold_left f (map h l) c = fold_left (fun c a => f c (h a)) l c.
Proof. revert c; induction l; intros c; cbn; auto. Qed.

Lemma fold_left_ext_in {A C} (f g : C -> A -> C) l c :
  (forall c a, In a l -> f c a = g c a) -> fold_left f l c = fold_left g l c.
Proof.
  revert c; induction l as [|a l IH]; intros c H; cbn; auto. rewrite H by (left; auto). apply IH.
  intros; apply H; right; auto.
Qed.

Lemma regular_partitioning_spec x y k m :
  (1 <= k)%Z -> regular_partitioning x y k = Ok m ->
  exists dx dy (xb yb : nat -> nat),
    two_balanced_divisors_order_x_y k (Z.of_nat x) (Z.of_nat y) = Ok (Z.of_nat dx, Z.of_nat dy) /\
    Z.of_nat (dx * dy) = k /\
    a2x m = x /\ a2y m = y /\ wf2 m /\
    xb 0 = 0 /\ xb dx = x /\ (forall i, i < dx -> xb i < xb (S i)) /\
    yb 0 = 0 /\ yb dy = y /\ (forall i, i < dy -> yb i < yb (S i)) /\
    forall r c i j, r < dx -> c < dy -> xb r <= i < xb (S r) -> yb c <= j < yb (S c) ->
      get2 m (Z.of_nat i) (Z.of_nat j) = Ok (Z.of_nat (r * dy + c)).
Proof.
  intros Hk H. unfold regular_partitioning in H.
  destruct (order_x_y_spec k (Z.of_nat x) (Z.of_nat y) Hk) as (zx & zy & E & Px & Py & Pm & _).
  rewrite E in H. cbn [bind] in H.
  destruct ((Z.of_nat x <? zx) || (Z.of_nat y <? zy))%bool%Z eqn:B; [discriminate|].
  replace ((zx =? 0) || (zy =? 0))%bool%Z with false in H by lia.
  set (dx := Z.to_nat zx). set (dy := Z.to_nat zy).
  assert (Ex : zx = Z.of_nat dx) by lia. assert (Ey : zy = Z.of_nat dy) by lia.
  rewrite Ex, Ey in *. clear Ex Ey. clearbody dx dy.
  fold (lr x dx) (lr y dy) in H.
  pose proof (bound_code x dx ltac:(lia) ltac:(lia)) as BX.
  pose proof (bound_code y dy ltac:(lia) ltac:(lia)) as BY.
  destruct (lr x dx) as [lrow rrow] eqn:Lx. destruct (lr y dy) as [lcol rcol] eqn:Ly. cbn [fst snd] in *.
  injection H as Hm.
  set (bs := flat_map (fun r => map (fun c => (r, c)) (seq 0 dy)) (seq 0 dx)).
  assert (Hbs : forall r c, In (r, c) bs <-> r < dx /\ c < dy).
  { intros r c. unfold bs. rewrite in_flat_map. split.
    - intros (r' & H1 & H2). apply in_map_iff in H2. destruct H2 as (c' & E2 & H2). inversion E2; subst.
      apply in_seq in H1, H2. lia.
    - intros [H1 H2]. exists r. split; [apply in_seq; lia|]. apply in_map_iff. exists c. split; auto. apply in_seq; lia. }
  assert (Hm' : m = fold_left (fun m '(r, c) => assign_block m (bound x dx r) (bound x dx (S r)) (bound y dy c) (bound y dy (S c)) (Z.of_nat (r * dy + c))) bs (full2 x y 0%Z)).
  { rewrite <- Hm. rewrite fold_nested.
    unfold zrange. rewrite !Z.sub_0_r, !Nat2Z.id.
    assert (Ebs : flat_map (fun a : Z => map (fun b : Z => (a, b)) (map (fun i => (0 + Z.of_nat i)%Z) (seq 0 dy)))
                    (map (fun i => (0 + Z.of_nat i)%Z) (seq 0 dx))
                  = map (fun '(r, c) => (Z.of_nat r, Z.of_nat c)) bs).
    { unfold bs. generalize (seq 0 dx). intros l. induction l as [|a l IH]; cbn [map flat_map]; auto.
      rewrite map_app, <- IH. f_equal. rewrite !map_map. apply map_ext. intros; reflexivity. }
    rewrite Ebs, fold_left_map'. apply fold_left_ext_in. intros mm [r c] Hin. apply Hbs in Hin. destruct Hin as [Hr Hc].
    destruct (BX r Hr) as [-> ->]. destruct (BY c Hc) as [-> ->]. f_equal. lia. }
  destruct (assign_blocks (bound x dx) (bound y dy) (fun r c => Z.of_nat (r * dy + c)) x y bs (full2 x y 0%Z)
              eq_refl eq_refl (wf2_full x y 0%Z)) as (X & Y & W & P).
  rewrite <- Hm' in *. clear Hm Hm'.
  exists dx, dy, (bound x dx), (bound y dy).
  split; [exact E|]. split; [lia|]. split; [auto|]. split; [auto|]. split; [auto|].
  split; [apply bound_0; lia|]. split; [unfold bound; rewrite Nat.eqb_refl; reflexivity|]. split; [intros; apply bound_lt; lia|].
  split; [apply bound_0; lia|]. split; [unfold bound; rewrite Nat.eqb_refl; reflexivity|]. split; [intros; apply bound_lt; lia|].
  intros r c i j Hr Hc Bi Bj.
  assert (Hi : i < x) by (pose proof (bound_le x dx ltac:(lia) ltac:(lia) (S r) dx ltac:(lia) ltac:(lia)); rewrite (bound_end x dx) in *; lia).
  assert (Hj : j < y) by (pose proof (bound_le y dy ltac:(lia) ltac:(lia) (S c) dy ltac:(lia) ltac:(lia)); rewrite (bound_end y dy) in *; lia).
  destruct (P i j Hi Hj) as [P1 _].
  { intros r1 c1 r2 c2 I1 I2 A1 A2 A3 A4. apply Hbs in I1, I2.
    f_equal; [apply (bound_unique x dx) with i|apply (bound_unique y dy) with j]; tauto || lia. }
  rewrite get2_nat by lia. rewrite (P1 r c); auto. apply Hbs; auto.
Qed.

Lemma regular_partitioning_ok_iff x y k : (1 <= k)%Z ->
  exists dx dy, two_balanced_divisors_order_x_y k (Z.of_nat x) (Z.of_nat y) = Ok (dx, dy) /\
    ((dx <= Z.of_nat x /\ dy <= Z.of_nat y)%Z -> exists m, regular_partitioning x y k = Ok m) /\
    (~ (dx <= Z.of_nat x /\ dy <= Z.of_nat y)%Z -> regular_partitioning x y k = Raise ValueError).
Proof.
  intros Hk. destruct (order_x_y_spec k (Z.of_nat x) (Z.of_nat y) Hk) as (zx & zy & E & Px & Py & Pm & _).
  exists zx, zy. split; auto. unfold regular_partitioning. rewrite E. cbn [bind]. split; intros H.
  - replace ((Z.of_nat x <? zx) || (Z.of_nat y <? zy))%bool%Z with false by lia.
    replace ((zx =? 0) || (zy =? 0))%bool%Z with false by lia.
    destruct (lines_and_residue _ zx), (lines_and_residue _ zy). eauto.
  - replace ((Z.of_nat x <? zx) || (Z.of_nat y <? zy))%bool%Z with true by lia. reflexivity.
Qed.

(** a strictly increasing sequence of bounds has a block around every line *)
Lemma block_of (b : nat -> nat) d n : b 0 = 0 -> n < b d -> exists r, r < d /\ b r <= n < b (S r).
Proof.
  intros H0. induction d as [|d IH]; intros H; [lia|].
  destruct (Nat.lt_ge_cases n (b d)).
  - destruct IH as (r & Hr & B); auto. exists r; split; auto; lia.
  - exists d; split; auto; lia.
Qed.

Lemma np_max_int_spec l m : np_max_int l = Ok m -> In m l /\ forall x, In x l -> (x <= m)%Z.
Proof.
  destruct l as [|a l]; [discriminate|]. cbn. intros H; inversion H; clear H H1.
  revert a; induction l as [|b l IH]; intros a; cbn; [split; auto; intros x [<-|[]]; lia|].
  destruct (IH (Z.max a b)) as [I J]. split.
  - destruct I as [I|I]; [|right; right; auto]. destruct (Z.max_spec a b) as [[_ E]|[_ E]]; rewrite E in I at 1; auto.
  - intros x [<-|[<-|Hx]]; [| |apply J; right; auto]; pose proof (J (Z.max a b) (or_introl eq_refl));
      cbn in *; lia.
Qed.

Lemma bounds_le (b : nat -> nat) d i : (forall i, i < d -> b i < b (S i)) -> i <= d -> b i <= b d.
Proof.
  intros H Hi. remember (d - i) as n eqn:En. revert i Hi En. induction n as [|n IH]; intros i Hi En.
  - replace i with d by lia. auto.
  - pose proof (H i ltac:(lia)). pose proof (IH (S i) ltac:(lia) ltac:(lia)). lia.
Qed.

Lemma regular_partition_valid x y k :
  (1 <= k)%Z -> (exists m, regular_partitioning x y k = Ok m) ->
  exists p, with_regular_partition k x y = Ok p /\ pk p = k /\ valid_partition p x y /\
    (forall c, (0 <= c < k)%Z -> exists pt, in_grid x y pt /\ label_at p pt c).
Proof.
  intros Hk [m Hm]. destruct (regular_partitioning_spec x y k m Hk Hm)
    as (dx & dy & xb & yb & _ & Hkk & X & Y & W & X0 & Xe & Xi & Y0 & Ye & Yi & P).
  assert (Hall : forall c, (0 <= c < k)%Z -> exists i j, i < x /\ j < y /\ get2 m (Z.of_nat i) (Z.of_nat j) = Ok c).
  { intros c Hc. set (n := Z.to_nat c). assert (En : c = Z.of_nat n) by lia. assert (Hn : n < dx * dy) by lia.
    assert (dy <> 0) by (intros ->; lia).
    pose proof (flat_div_lt dx dy n Hn) as H1. pose proof (flat_mod_lt dx dy n Hn) as H2.
    pose proof (flat_recompose dy n H) as H3.
    exists (xb (n / dy)), (yb (n mod dy)). pose proof (Xi _ H1). pose proof (Yi _ H2).
    assert (xb (S (n / dy)) <= x) by (rewrite <- Xe; apply bounds_le; auto; lia).
    assert (yb (S (n mod dy)) <= y) by (rewrite <- Ye; apply bounds_le; auto; lia).
    split; [lia|]. split; [lia|]. rewrite (P (n / dy) (n mod dy)) by (auto; lia). rewrite H3, En. reflexivity. }
  assert (Hrng : forall i j, i < x -> j < y -> exists c, get2 m (Z.of_nat i) (Z.of_nat j) = Ok c /\ (0 <= c < k)%Z).
  { intros i j Hi Hj. destruct (block_of xb dx i X0 ltac:(lia)) as (r & Hr & Br).
    destruct (block_of yb dy j Y0 ltac:(lia)) as (c & Hc & Bc).
    eexists. split; [apply (P r c i j); auto|]. pose proof (flat_lt dx dy r c Hr Hc). lia. }
  assert (Hin : forall c, In c (a2d m) -> (0 <= c < k)%Z).
  { intros c Hc. apply In_nth_error in Hc. destruct Hc as [n Hn].
    assert (n < x * y) by (rewrite <- X, <- Y, <- W; apply nth_error_Some; congruence).
    assert (y <> 0) by (intros ->; lia).
    destruct (Hrng (n / y) (n mod y)) as (c' & E & Hc'); [apply flat_div_lt; auto|apply (flat_mod_lt x); auto|].
    rewrite get2_nat in E by (rewrite ?X, ?Y; apply flat_div_lt || apply (flat_mod_lt x); auto).
    unfold at2 in E. rewrite Y, flat_recompose in E by auto. rewrite Hn in E. inversion E; subst; auto. }
  assert (Hmax : np_max_int (a2d m) = Ok (k - 1)%Z).
  { destruct (Hall (k - 1)%Z ltac:(lia)) as (i & j & Hi & Hj & E).
    rewrite get2_nat in E by lia. destruct (at2 m i j) as [v|] eqn:A; [|discriminate]. inversion E; subst v.
    unfold at2 in A. apply nth_error_In in A.
    destruct (np_max_int (a2d m)) as [mx|e] eqn:M.
    - apply np_max_int_spec in M. destruct M as [M1 M2]. apply M2 in A. apply Hin in M1. f_equal. lia.
    - destruct (a2d m); [destruct A|discriminate]. }
  exists (Crisp m k). split.
  { unfold with_regular_partition. rewrite Hm. cbn [bind]. unfold from_membership_array, mk_crisp, reshape2.
    rewrite Hmax. cbn [bind]. rewrite W, X, Y, Nat.eqb_refl. cbn [bind a2d]. rewrite Hmax. cbn [bind].
    replace (k - 1 + 1)%Z with k by lia. rewrite Z.eqb_refl. cbn [py_assert bind].
    destruct m; cbn in X, Y; subst; reflexivity. }
  split; [reflexivity|]. split.
  - split; [exact X|]. split; [exact Y|]. split; [exact W|]. split.
    + intros [a b] l [H1 H2] Hl. cbn [fst snd] in *. unfold label_at in Hl; cbn [labels fst snd] in Hl.
      destruct (Hrng (Z.to_nat a) (Z.to_nat b)) as (c & E & Hc); [lia|lia|].
      rewrite !Z2Nat.id in E by lia. cbn [pk]. congruence.
    + destruct (Hall (k - 1)%Z ltac:(lia)) as (i & j & Hi & Hj & E).
      exists (Z.of_nat i, Z.of_nat j). split; [split; cbn; lia|exact E].
  - intros c Hc. destruct (Hall c Hc) as (i & j & Hi & Hj & E).
    exists (Z.of_nat i, Z.of_nat j). split; [split; cbn; lia|exact E].
Qed.
