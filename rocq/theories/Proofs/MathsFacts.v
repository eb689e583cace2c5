(** Divisors. *)
From Coq Require Import Sorted ZifyBool ZifyNat.
From Verif Require Import Base.Py Base.PyFacts Model.Maths.
Local Open Scope Z_scope.

Lemma in_set_add x y s : In y (set_add x s) <-> y = x \/ In y s.
Proof. unfold set_add. destruct (in_dec Z.eq_dec x s); cbn; intuition (subst; auto). Qed.
Lemma nodup_set_add x s : NoDup s -> NoDup (set_add x s).
Proof. unfold set_add. destruct (in_dec Z.eq_dec x s); auto. intros; constructor; auto. Qed.

Lemma in_insert_sorted x y l : In y (insert_sorted x l) <-> y = x \/ In y l.
Proof.
  induction l as [|z l IH]; cbn; [intuition|]. destruct (x <=? z); cbn; [intuition|]. rewrite IH; intuition.
Qed.
Lemma in_sorted_ints y l : In y (sorted_ints l) <-> In y l.
Proof. unfold sorted_ints. induction l as [|x l IH]; cbn; [tauto|]. rewrite in_insert_sorted, IH. intuition. Qed.

Lemma insert_sorted_strict x l : StronglySorted Z.lt l -> ~ In x l -> StronglySorted Z.lt (insert_sorted x l).
Proof.
  induction 1 as [|y l H IH Hf]; cbn; intros Hn; [repeat constructor|].
  destruct (x <=? y) eqn:E.
  - assert (x < y) by (assert (y <> x) by tauto; lia).
    constructor; [constructor; auto|]. constructor; auto. eapply Forall_impl; [|exact Hf]. cbn; lia.
  - constructor; [apply IH; tauto|]. apply Forall_forall. intros z Hz. apply in_insert_sorted in Hz.
    destruct Hz as [->|Hz]; [lia|]. rewrite Forall_forall in Hf. auto.
Qed.
Lemma sorted_ints_strict l : NoDup l -> StronglySorted Z.lt (sorted_ints l).
Proof.
  unfold sorted_ints. induction 1 as [|x l Hx Hnd IH]; cbn; [constructor|].
  apply insert_sorted_strict; auto. rewrite (in_sorted_ints x l). auto.
Qed.

Lemma fold_divs n l : forall s, NoDup s ->
  let s' := fold_left (fun divs i => if n mod i =? 0 then set_add (n / i) (set_add i divs) else divs) l s in
  NoDup s' /\ forall d, In d s' <-> In d s \/ exists i, In i l /\ n mod i = 0 /\ (d = i \/ d = n / i).
Proof.
  induction l as [|i l IH]; cbn; intros s Hnd.
  - split; auto. intros d; split; auto. intros [H|(i & [] & _)]; auto.
  - destruct (n mod i =? 0) eqn:E.
    + destruct (IH (set_add (n / i) (set_add i s))) as [N P]; [apply nodup_set_add, nodup_set_add; auto|].
      split; auto. intros d. rewrite P, !in_set_add. split.
      * intros [[->|[->|H]]|(j & H1 & H2 & H3)]; auto; right; [exists i|exists i|exists j]; repeat split; auto; lia.
      * intros [H|(j & [<-|H1] & H2 & [->| ->])]; eauto 10.
    + destruct (IH s Hnd) as [N P]. split; auto. intros d. rewrite P. split.
      * intros [H|(j & H1 & H2 & H3)]; auto; right; exists j; auto.
      * intros [H|(j & [<-|H1] & H2 & H3)]; eauto 10. lia.
Qed.

Lemma divisors_spec n : 1 <= n ->
  exists ds, divisors n = Ok ds /\ StronglySorted Z.lt ds /\ forall d, In d ds <-> 0 < d /\ (d | n).
Proof.
  intros Hn. unfold divisors. replace (n <? 0) with false by lia.
  destruct (fold_divs n (zrange 2 (Z.sqrt n + 1)) (set_add n [1])) as [N P].
  { apply nodup_set_add. repeat constructor; auto. }
  eexists; split; [reflexivity|]. split; [apply sorted_ints_strict; auto|].
  intros d. rewrite in_sorted_ints, P, in_set_add. split.
  - intros [[->|[<-|[]]]|(i & Hi & Hm & Hd)].
    + split; [lia|apply Z.divide_refl].
    + split; [lia|apply Z.divide_1_l].
    + apply in_zrange in Hi. apply Z.mod_divide in Hm; [|lia]. destruct Hm as [q Hq].
      destruct Hd as [->| ->].
      * split; [lia|exists q; auto].
      * rewrite Hq, Z.div_mul by lia. split; [nia|exists i; lia].
  - intros [Hd [q Hq]]. assert (0 < q) by nia.
    destruct (Z.eq_dec d 1) as [->|D1]; [left; right; left; auto|].
    destruct (Z.eq_dec d n) as [->|D2]; [left; left; auto|]. right.
    assert (q <> 1) by (intros ->; lia).
    pose proof (Z.sqrt_spec n ltac:(lia)) as S.
    destruct (Z.le_gt_cases d (Z.sqrt n)) as [Hle|Hgt].
    + exists d. split; [apply in_zrange; clear - Hd D1 Hle; lia|]. split; [apply Z.mod_divide; [lia|exists q; auto]|auto].
    + exists q. split.
      { apply in_zrange. split; [lia|]. pose proof (Z.sqrt_nonneg n) as R. set (r := Z.sqrt n) in *. clearbody r.
        destruct (Z.le_gt_cases q r) as [Hq1|Hq1]; [clear - Hq1; lia|]. exfalso.
        assert ((r + 1) * (r + 1) <= q * d) by (apply Z.mul_le_mono_nonneg; lia).
        unfold Z.succ in S. lia. }
      split; [apply Z.mod_divide; [lia|exists d; lia]|].
      right. rewrite Hq. rewrite Z.mul_comm, Z.div_mul by lia. reflexivity.
Qed.

(** the loop stops at the least divisor whose square is at least n *)
Lemma balanced_loop_spec n : 1 <= n -> forall ds last,
  StronglySorted Z.lt ds -> (forall d, In d ds -> 0 < d) -> (exists d, In d ds /\ n / d <= d) ->
  exists b, balanced_loop n ds last = Ok (n / b, b) /\ In b ds /\ n / b <= b /\
            forall d, In d ds -> d < b -> d < n / d.
Proof.
  intros Hn. induction ds as [|d ds IH]; intros last Hs Hp Hex.
  - destruct Hex as (d & [] & _).
  - cbn [balanced_loop]. assert (0 < d) by (apply Hp; left; auto).
    replace (d =? 0) with false by lia. inversion Hs as [|? ? Hs' Hf]; subst.
    destruct (n / d <=? d) eqn:E.
    + exists d. split; auto. split; [left; auto|]. split; [lia|].
      intros d' [<-|Hin] Hlt; [lia|]. rewrite Forall_forall in Hf. apply Hf in Hin. lia.
    + destruct (IH (Some (n / d, d))) as (b & E1 & Hin & Hb & Hmin); auto.
      { intros; apply Hp; right; auto. }
      { destruct Hex as (d' & [<-|Hin] & H'); [lia|eauto]. }
      exists b. split; auto. split; [right; auto|]. split; auto.
      intros d' [<-|Hin'] Hlt; [lia|]. auto.
Qed.

Lemma find_two_balanced_divisors_spec n : 1 <= n ->
  exists a b, find_two_balanced_divisors n = Ok (a, b) /\ 0 < a /\ a <= b /\ a * b = n /\
    forall c d, 0 < c -> c <= d -> c * d = n -> c <= a /\ b <= d.
Proof.
  intros Hn. destruct (divisors_spec n Hn) as (ds & E & Hs & Hin).
  assert (Hn1 : In 1 ds) by (apply Hin; split; [lia|apply Z.divide_1_l]).
  assert (Hnn : In n ds) by (apply Hin; split; [lia|apply Z.divide_refl]).
  unfold find_two_balanced_divisors. rewrite E. cbn [bind].
  assert (Loop : exists a b, balanced_loop n ds None = Ok (a, b) /\ 0 < a /\ a <= b /\ a * b = n /\
    forall c d, 0 < c -> c <= d -> c * d = n -> c <= a /\ b <= d).
  { destruct (balanced_loop_spec n Hn ds None Hs) as (b & E1 & Hb & Hq & Hmin).
    - intros d Hd. apply Hin in Hd. tauto.
    - exists n. split; auto. rewrite Z.div_same by lia. lia.
    - apply Hin in Hb. destruct Hb as [Hb0 [q Hqb]].
      assert (Hdiv : n / b = q) by (rewrite Hqb; apply Z.div_mul; lia).
      exists (n / b), b. rewrite Hdiv in *. split; auto. split; [nia|]. split; [lia|]. split; [lia|].
      intros c d Hc Hcd Hcd'.
      assert (Hdin : In d ds) by (apply Hin; split; [lia|exists c; lia]).
      assert (b <= d).
      { destruct (Z.le_gt_cases b d); auto. exfalso. specialize (Hmin d Hdin ltac:(lia)).
        rewrite <- Hcd' in Hmin. rewrite Z.div_mul in Hmin by lia. lia. }
      split; auto. nia. }
  destruct ds as [|a [|b [|c ds]]]; auto.
  (* prime: [1; n] *)
  exists a, b. split; auto.
  assert (Ha : 0 < a /\ (a | n)) by (apply Hin; left; auto).
  assert (Hb : 0 < b /\ (b | n)) by (apply Hin; right; left; auto).
  inversion Hs as [|? ? _ Hf]; subst. inversion Hf as [|? ? Hab _]; subst.
  assert (a = 1 /\ b = n).
  { destruct Ha as [Ha0 _]. destruct Hb as [Hb0 Hb1]. apply Z.divide_pos_le in Hb1; [|lia].
    clear Hin E Hs Hf Loop. cbn in Hn1, Hnn. lia. }
  destruct H as [-> ->]. split; [lia|]. split; [lia|]. split; [lia|].
  intros c d Hc Hcd Hcd'.
  assert (Hcin : In c [1; n]) by (apply Hin; split; [lia|exists d; lia]).
  cbn in Hcin. destruct Hcin as [<-|[<-|[]]]; nia.
Qed.

Lemma order_x_y_spec n x y : 1 <= n ->
  exists dx dy, two_balanced_divisors_order_x_y n x y = Ok (dx, dy) /\ 0 < dx /\ 0 < dy /\ dx * dy = n /\
    (x < y -> dx <= dy) /\ (y <= x -> dy <= dx) /\
    (forall c d, 0 < c -> c <= d -> c * d = n -> c <= Z.min dx dy /\ Z.max dx dy <= d).
Proof.
  intros Hn. destruct (find_two_balanced_divisors_spec n Hn) as (a & b & E & Ha & Hab & Hm & Hbest).
  unfold two_balanced_divisors_order_x_y. rewrite E. cbn [bind fst snd].
  destruct (x <? y) eqn:L; [exists a, b|exists b, a]; repeat split; try lia;
    intros; destruct (Hbest c d); auto; lia.
Qed.
