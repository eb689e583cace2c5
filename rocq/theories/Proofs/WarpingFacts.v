(** Cheapest warping paths: what squared_DTW and DBA_update compute on finite series. *)
From Coq Require Import ZifyBool ZifyNat QArith Lqa.
From Verif Require Import Base.Py Base.PyFacts Base.Arr Base.ArrFacts Base.Float Base.FloatFacts Model.DBA Spec.Warping
  Proofs.ElbowFacts Proofs.KMedoidsFacts Proofs.DBAFacts.
Local Close Scope Q_scope.
Local Open Scope nat_scope.

Lemma nth_replace_nth : forall {A} (l : list A) i k v d, i < length l -> nth k (replace_nth l i v) d = if k =? i then v else nth k l d.
Proof.
  induction l as [ | x l IH ]; intros [ | i ] [ | k ] v d H; cbn [length replace_nth nth] in *; try lia; try reflexivity.
  rewrite IH by lia. reflexivity.
Qed.

Lemma setitem_nat : forall {A} (l : list A) i v, i < length l -> setitem l (Z.of_nat i) v = Ok (replace_nth l i v).
Proof. intros A l i v H. unfold setitem. rewrite norm_index_of_nat by exact H. reflexivity. Qed.
Lemma getitem_nat : forall {A} (l : list A) i d, i < length l -> getitem l (Z.of_nat i) = Ok (nth i l d).
Proof. intros A l i d H. unfold getitem. rewrite norm_index_of_nat by exact H. rewrite (nth_error_nth' l d H). reflexivity. Qed.
Lemma map_replace_nth : forall {A B} (f : A -> B) l i v, map f (replace_nth l i v) = replace_nth (map f l) i (f v).
Proof. induction l as [ | x l IH ]; intros [ | i ] v; cbn; auto. rewrite IH. reflexivity. Qed.

Lemma path_bounds : forall i j P, path_to i j P -> forall k l, In (k, l) P -> k <= i /\ l <= j.
Proof.
  induction 1 as [ | i j P HP IH | i j P HP IH | i j P HP IH ]; intros k l Hin.
  - destruct Hin as [ E | [] ]. injection E as <- <-. lia.
  - apply in_app_or in Hin. destruct Hin as [ Hin | [ E | [] ] ]; [ apply IH in Hin; lia | injection E as <- <-; lia ].
  - apply in_app_or in Hin. destruct Hin as [ Hin | [ E | [] ] ]; [ apply IH in Hin; lia | injection E as <- <-; lia ].
  - apply in_app_or in Hin. destruct Hin as [ Hin | [ E | [] ] ]; [ apply IH in Hin; lia | injection E as <- <-; lia ].
Qed.
Lemma path_hits : forall i j P, path_to i j P -> forall k, k <= i -> exists l, In (k, l) P.
Proof.
  induction 1 as [ | i j P HP IH | i j P HP IH | i j P HP IH ]; intros k Hk.
  - assert (k = 0) as -> by lia. exists 0. left. reflexivity.
  - destruct (Nat.eq_dec k (S i)) as [ -> | ]; [ exists (S j); apply in_or_app; right; left; reflexivity | ].
    destruct (IH k) as (l & Hl); [ lia | exists l; apply in_or_app; auto ].
  - destruct (IH k) as (l & Hl); [ lia | exists l; apply in_or_app; auto ].
  - destruct (Nat.eq_dec k (S i)) as [ -> | ]; [ exists j; apply in_or_app; right; left; reflexivity | ].
    destruct (IH k) as (l & Hl); [ lia | exists l; apply in_or_app; auto ].
Qed.

Section Paths.
Variable s t : list Q.
Let n := length s.
Let m := length t.
Let fs := map Fin s.
Let ft := map Fin t.
Definition dq (i j : nat) : Q := ((nth i s 0 - nth j t 0) * (nth i s 0 - nth j t 0))%Q.

Lemma delta_fin : forall i j, i < n -> j < m -> delta_at fs ft i j = Fin (dq i j).
Proof using.
  intros i j Hi Hj. unfold delta_at, dq, fs, ft.
  rewrite (nth_indep (map Fin s) NaN (Fin 0)) by (rewrite map_length; exact Hi).
  rewrite (nth_indep (map Fin t) NaN (Fin 0)) by (rewrite map_length; exact Hj). rewrite !map_nth. reflexivity.
Qed.

Lemma path_cost_snoc : forall P i j, (path_cost s t (P ++ [(i, j)]) == path_cost s t P + dq i j)%Q.
Proof using. intros P i j. unfold path_cost. rewrite map_app, qsum_app. cbn. unfold dq. lra. Qed.

(** the path found by going back along the moves *)
Inductive traced : nat -> nat -> list (nat * nat) -> Prop :=
| tr_start : traced 0 0 [(0, 0)]
| tr_diag i j P : traced i j P -> move_at fs ft (S i) (S j) = 0%Z -> traced (S i) (S j) (P ++ [(S i, S j)])
| tr_left i j P : traced i j P -> move_at fs ft i (S j) = 1%Z -> traced i (S j) (P ++ [(i, S j)])
| tr_top i j P : traced i j P -> move_at fs ft (S i) j = 2%Z -> traced (S i) j (P ++ [(S i, j)]).

Lemma traced_path : forall i j P, traced i j P -> path_to i j P.
Proof using. induction 1; constructor; assumption. Qed.

Lemma cost_least : forall N i j, i + j <= N -> i < n -> j < m ->
  exists q, cost_at fs ft i j = Fin q /\ (forall P, path_to i j P -> (q <= path_cost s t P)%Q) /\
    exists P, traced i j P /\ (path_cost s t P == q)%Q.
Proof using.
  induction N as [ | N IH ]; intros i j HN Hi Hj.
  - assert (i = 0) as -> by lia. assert (j = 0) as -> by lia. exists (dq 0 0). split; [ | split ].
    + rewrite cost_00. apply delta_fin; assumption.
    + intros P HP. inversion HP; subst. unfold path_cost. cbn. unfold dq. lra.
    + exists [(0, 0)]. split; [ constructor | ]. unfold path_cost. cbn. unfold dq. lra.
  - destruct i as [ | i ], j as [ | j ].
    + apply IH; lia.
    + destruct (IH 0 j) as (q & Eq & Hl & P & HP & Ec); [ lia | lia | lia | ]. exists (q + dq 0 (S j))%Q. split; [ | split ].
      * rewrite cost_0S, Eq, delta_fin by assumption. reflexivity.
      * intros P' HP'. inversion HP' as [ | i0 j0 P0 HP0 | i0 j0 P0 HP0 | i0 j0 P0 HP0 ]; subst; rewrite path_cost_snoc; specialize (Hl _ HP0); lra.
      * exists (P ++ [(0, S j)]). split; [ constructor; [ exact HP | reflexivity ] | ]. rewrite path_cost_snoc. lra.
    + destruct (IH i 0) as (q & Eq & Hl & P & HP & Ec); [ lia | lia | lia | ]. exists (q + dq (S i) 0)%Q. split; [ | split ].
      * rewrite cost_S0, Eq, delta_fin by assumption. reflexivity.
      * intros P' HP'. inversion HP' as [ | i0 j0 P0 HP0 | i0 j0 P0 HP0 | i0 j0 P0 HP0 ]; subst; rewrite path_cost_snoc; specialize (Hl _ HP0); lra.
      * exists (P ++ [(S i, 0)]). split; [ constructor; [ exact HP | reflexivity ] | ]. rewrite path_cost_snoc. lra.
    + destruct (IH i j) as (qd & Ed & Hd & Pd & HPd & Ecd); [ lia | lia | lia | ].
      destruct (IH (S i) j) as (ql & El & Hl & Pl & HPl & Ecl); [ lia | lia | lia | ].
      destruct (IH i (S j)) as (qt & Et & Ht & Pt & HPt & Ect); [ lia | lia | lia | ].
      assert (K : forall q, (q <= qd)%Q -> (q <= ql)%Q -> (q <= qt)%Q -> forall P, path_to (S i) (S j) P -> (q + dq (S i) (S j) <= path_cost s t P)%Q).
      { intros q H1 H2 H3 P HP. inversion HP as [ | i0 j0 P0 HP0 | i0 j0 P0 HP0 | i0 j0 P0 HP0 ]; subst; rewrite path_cost_snoc.
        - specialize (Hd _ HP0). lra.
        - specialize (Hl _ HP0). lra.
        - specialize (Ht _ HP0). lra. }
      assert (Hmv : forall k, snd (least3 (Fin qd) (Fin ql) (Fin qt)) = k -> move_at fs ft (S i) (S j) = k) by (intros k Hk; unfold move_at; rewrite Ed, El, Et; exact Hk).
      assert (NL : forall a b, fle (Fin a) (Fin b) = false -> (b < a)%Q).
      { intros a b Hf. destruct (Qlt_le_dec b a) as [ | Hle ]; [ assumption | ]. apply fle_Fin in Hle. congruence. }
      rewrite cost_SS, Ed, El, Et, delta_fin by assumption. unfold least3 in *.
      destruct (fle (Fin qd) (Fin ql)) eqn:F1; [ destruct (fle (Fin qd) (Fin qt)) eqn:F2 | destruct (fle (Fin ql) (Fin qt)) eqn:F2 ]; cbn [fst snd fadd] in *;
        repeat match goal with F : fle _ _ = true |- _ => apply fle_Fin in F | F : fle _ _ = false |- _ => apply NL in F end.
      * exists (qd + dq (S i) (S j))%Q. split; [ reflexivity | split; [ apply K; lra | ] ].
        exists (Pd ++ [(S i, S j)]). split; [ constructor; [ exact HPd | apply Hmv; reflexivity ] | ]. rewrite path_cost_snoc. lra.
      * exists (qt + dq (S i) (S j))%Q. split; [ reflexivity | split; [ apply K; lra | ] ].
        exists (Pt ++ [(S i, S j)]). split; [ constructor; [ exact HPt | apply Hmv; reflexivity ] | ]. rewrite path_cost_snoc. lra.
      * exists (ql + dq (S i) (S j))%Q. split; [ reflexivity | split; [ apply K; lra | ] ].
        exists (Pl ++ [(S i, S j)]). split; [ constructor; [ exact HPl | apply Hmv; reflexivity ] | ]. rewrite path_cost_snoc. lra.
      * exists (qt + dq (S i) (S j))%Q. split; [ reflexivity | split; [ apply K; lra | ] ].
        exists (Pt ++ [(S i, S j)]). split; [ constructor; [ exact HPt | apply Hmv; reflexivity ] | ]. rewrite path_cost_snoc. lra.
Qed.

(* ---------- the samples along a path ---------- *)
Definition samples (k : nat) (P : list (nat * nat)) : list Q :=
  map (fun ij => nth (snd ij) t 0%Q) (filter (fun ij => fst ij =? k) P).

Lemma samples_app : forall k P P', samples k (P ++ P') = samples k P ++ samples k P'.
Proof using. intros. unfold samples. rewrite filter_app, map_app. reflexivity. Qed.
Lemma samples_one : forall k i j, samples k [(i, j)] = if i =? k then [nth j t 0%Q] else [].
Proof using. intros. unfold samples. cbn. destruct (i =? k); reflexivity. Qed.

(** the sums and the counts after the samples of [P] have been added *)
Definition added (U : list Q) (C : list Z) (P : list (nat * nat)) (U' : list Q) (C' : list Z) : Prop :=
  length U' = length U /\ length C' = length C /\
  forall k, k < n -> (nth k U' 0 == nth k U 0 + qsum (samples k P))%Q /\ nth k C' 0%Z = (nth k C 0 + Z.of_nat (length (samples k P)))%Z.

Lemma added_trans : forall U C P U1 C1 P' U2 C2, added U C P U1 C1 -> added U1 C1 P' U2 C2 -> added U C (P' ++ P) U2 C2.
Proof using.
  intros U C P U1 C1 P' U2 C2 (L1 & M1 & H1) (L2 & M2 & H2). split; [ congruence | split; [ congruence | ] ].
  intros k Hk. destruct (H1 k Hk) as [ A1 B1 ]. destruct (H2 k Hk) as [ A2 B2 ]. rewrite samples_app, qsum_app, app_length. split; [ lra | lia ].
Qed.

(** one round of the accumulation *)
Lemma bump : forall U C i j, i < n -> j < m -> length U = n -> length C = n ->
  exists U' C', added U C [(i, j)] U' C' /\
  forall R (F : list fnum -> list Z -> res R),
    (v <- getitem ft (Z.of_nat j) ;; u <- getitem (map Fin U) (Z.of_nat i) ;; updated <- setitem (map Fin U) (Z.of_nat i) (fadd u v) ;;
     n <- getitem C (Z.of_nat i) ;; n_elements <- setitem C (Z.of_nat i) (n + 1)%Z ;; F updated n_elements) = F (map Fin U') C'.
Proof using.
  intros U C i j Hi Hj HU HC. exists (replace_nth U i (nth i U 0 + nth j t 0)%Q), (replace_nth C i (nth i C 0 + 1)%Z). split.
  - split; [ apply replace_nth_length | split; [ apply replace_nth_length | ] ]. intros k Hk. rewrite samples_one.
    rewrite !nth_replace_nth by lia. rewrite (Nat.eqb_sym i k). destruct (Nat.eqb_spec k i) as [ -> | ]; cbn; split; try lra; lia.
  - intros R F. rewrite (getitem_nat _ _ (Fin 0)) by (unfold ft; rewrite map_length; exact Hj). cbn [bind].
    rewrite (getitem_nat (map Fin U) _ (Fin 0)) by (rewrite map_length; lia). cbn [bind].
    rewrite setitem_nat by (rewrite map_length; lia). cbn [bind].
    rewrite (getitem_nat C _ 0%Z) by lia. cbn [bind]. rewrite setitem_nat by lia. cbn [bind].
    rewrite map_replace_nth. unfold ft. rewrite !map_nth. reflexivity.
Qed.

(* ---------- backtracking ---------- *)
Lemma last_cost : 0 < n -> 0 < m -> exists P q, traced (n - 1) (m - 1) P /\ cheapest s t P /\ cost_at fs ft (n - 1) (m - 1) = Fin q /\ (path_cost s t P == q)%Q.
Proof using.
  intros Hn Hm. destruct (cost_least _ (n - 1) (m - 1) (le_n _)) as (q & Eq & Hl & P & HP & Ec); [ lia | lia | ].
  exists P, q. split; [ exact HP | split; [ | split; [ exact Eq | exact Ec ] ] ]. split.
  - exists (n - 1), (m - 1). unfold n, m in *. split; [ lia | split; [ lia | apply traced_path; exact HP ] ].
  - intros P' (a & b & Ea & Eb & HP'). rewrite Ec. apply Hl. unfold n, m. rewrite Ea, Eb.
    replace (S a - 1) with a by lia. replace (S b - 1) with b by lia. exact HP'.
Qed.

Variable X Y : nat.
Hypothesis HX : n <= X.
Hypothesis HY : m <= Y.

Lemma backtrack_path : forall path i j P, table path X Y n m (fun _ _ => true) (move_at fs ft) -> traced i j P -> i < n -> j < m ->
  exists P', P = (0, 0) :: P' /\ forall fuel U C, i + j <= fuel -> length U = n -> length C = n ->
    exists U' C', backtrack fuel path ft (Z.of_nat i) (Z.of_nat j) (map Fin U) C = Ok (0%Z, 0%Z, map Fin U', C') /\ added U C P' U' C'.
Proof using HX HY.
  intros path i j P Tp Htr Hi Hj.
  induction Htr as [ | i j P Htr IH Hmv | i j P Htr IH Hmv | i j P Htr IH Hmv ].
  - exists []. split; [ reflexivity | ]. intros fuel U C _ HU HC. exists U, C. split.
    + destruct fuel; cbn [backtrack]; rewrite (table_get X Y n m _ HX HY _ _ _ _ Tp) by auto; reflexivity.
    + split; [ reflexivity | split; [ reflexivity | ] ]. intros k Hk. cbn. split; [ lra | lia ].
  - destruct IH as (P' & -> & IH); [ lia | lia | ]. exists (P' ++ [(S i, S j)]). split; [ reflexivity | ].
    intros [ | fuel ] U C Hf HU HC; [ lia | ].
    destruct (bump U C (S i) (S j) Hi Hj HU HC) as (U1 & C1 & HA & E).
    destruct (IH fuel U1 C1) as (U2 & C2 & E2 & HA2); [ lia | rewrite (proj1 HA); exact HU | rewrite (proj1 (proj2 HA)); exact HC | ].
    exists U2, C2. split; [ | exact (added_trans _ _ _ _ _ _ _ _ HA HA2) ].
    cbn [backtrack]. rewrite (table_get X Y n m _ HX HY _ _ _ _ Tp) by auto. cbn [bind]. rewrite Hmv. cbn [Z.eqb].
    rewrite E. cbn [getitem options_argmin norm_index nth_error bind fst snd].
    change (getitem options_argmin 0) with (@Ok (Z * Z) (-1, -1)%Z). cbn [bind fst snd].
    replace (Z.of_nat (S i) + -1)%Z with (Z.of_nat i) by lia. replace (Z.of_nat (S j) + -1)%Z with (Z.of_nat j) by lia. exact E2.
  - destruct IH as (P' & -> & IH); [ lia | lia | ]. exists (P' ++ [(i, S j)]). split; [ reflexivity | ].
    intros [ | fuel ] U C Hf HU HC; [ lia | ].
    destruct (bump U C i (S j) Hi Hj HU HC) as (U1 & C1 & HA & E).
    destruct (IH fuel U1 C1) as (U2 & C2 & E2 & HA2); [ lia | rewrite (proj1 HA); exact HU | rewrite (proj1 (proj2 HA)); exact HC | ].
    exists U2, C2. split; [ | exact (added_trans _ _ _ _ _ _ _ _ HA HA2) ].
    cbn [backtrack]. rewrite (table_get X Y n m _ HX HY _ _ _ _ Tp) by auto. cbn [bind]. rewrite Hmv. cbn [Z.eqb].
    rewrite E. change (getitem options_argmin 1) with (@Ok (Z * Z) (0, -1)%Z). cbn [bind fst snd].
    rewrite Z.add_0_r. replace (Z.of_nat (S j) + -1)%Z with (Z.of_nat j) by lia. exact E2.
  - destruct IH as (P' & -> & IH); [ lia | lia | ]. exists (P' ++ [(S i, j)]). split; [ reflexivity | ].
    intros [ | fuel ] U C Hf HU HC; [ lia | ].
    destruct (bump U C (S i) j Hi Hj HU HC) as (U1 & C1 & HA & E).
    destruct (IH fuel U1 C1) as (U2 & C2 & E2 & HA2); [ lia | rewrite (proj1 HA); exact HU | rewrite (proj1 (proj2 HA)); exact HC | ].
    exists U2, C2. split; [ | exact (added_trans _ _ _ _ _ _ _ _ HA HA2) ].
    cbn [backtrack]. rewrite (table_get X Y n m _ HX HY _ _ _ _ Tp) by auto. cbn [bind]. rewrite Hmv. cbn [Z.eqb].
    rewrite E. change (getitem options_argmin 2) with (@Ok (Z * Z) (-1, 0)%Z). cbn [bind fst snd].
    rewrite Z.add_0_r. replace (Z.of_nat (S i) + -1)%Z with (Z.of_nat i) by lia. exact E2.
Qed.

(** one series of DBA_update *)
Lemma DBA_step_ok : forall U C cost path delta, 0 < n -> 0 < m -> length U = n -> length C = n ->
  sized cost X Y -> sized path X Y -> sized delta X Y ->
  exists P U' C' cost' path' delta', cheapest s t P /\ added U C P U' C' /\
    DBA_step fs (map Fin U, C, cost, path, delta) ft = Ok (map Fin U', C', cost', path', delta') /\
    sized cost' X Y /\ sized path' X Y /\ sized delta' X Y.
Proof using HX HY.
  intros U C cost path delta Hn Hm HU HC Sc Sp Sd.
  destruct (DBA_tables fs ft X Y) with (cost := cost) (path := path) (delta := delta) as (cost' & path' & delta' & S1 & S2 & Tp & E); auto;
    try (unfold fs, ft; rewrite map_length; assumption).
  unfold fs, ft in Tp, E. rewrite !map_length in Tp, E. fold n m fs ft in Tp, E.
  destruct (last_cost Hn Hm) as (P & q & Htr & Hch & _).
  destruct (backtrack_path path' (n - 1) (m - 1) P Tp Htr) as (P' & -> & HB); [ lia | lia | ].
  destruct (HB (n + m) U C) as (U1 & C1 & E1 & A1); [ lia | assumption | assumption | ].
  destruct (bump U1 C1 0 0 Hn Hm) as (U2 & C2 & A2 & E2); [ rewrite (proj1 A1); exact HU | rewrite (proj1 (proj2 A1)); exact HC | ].
  exists ((0, 0) :: P'), U2, C2, cost', path', delta'. split; [ exact Hch | split; [ exact (added_trans _ _ _ _ _ _ _ _ A1 A2) | split ] ].
  - rewrite E, E1. cbn [bind py_assert Z.eqb andb]. exact (E2 _ (fun u c => Ok (u, c, cost', path', delta'))).
  - split; [ exact S1 | split; [ apply Tp | exact S2 ] ].
Qed.

Lemma squared_DTW_ok : forall cost delta, 0 < n -> 0 < m -> sized cost X Y -> sized delta X Y ->
  exists q cost' delta', squared_DTW fs ft cost delta = Ok (Fin q, cost', delta') /\ dtw2 s t q /\ sized cost' X Y /\ sized delta' X Y.
Proof using HX HY.
  intros cost delta Hn Hm Sc Sd.
  destruct (squared_DTW_table fs ft X Y) with (cost := cost) (delta := delta) as (cost' & delta' & E & S1 & S2); auto;
    try (unfold fs, ft; rewrite map_length; assumption).
  unfold fs, ft in E. rewrite !map_length in E. fold n m fs ft in E.
  destruct (last_cost Hn Hm) as (P & q & _ & Hch & Eq & Ec). rewrite Eq in E.
  exists q, cost', delta'. split; [ exact E | split; [ exists P; auto | auto ] ].
Qed.
End Paths.

(* ---------- the definition of DTW ---------- *)
Lemma dtw2_unique : forall s t u v, dtw2 s t u -> dtw2 s t v -> (u == v)%Q.
Proof.
  intros s t u v (P & [ Hp Hl ] & E) (P' & [ Hp' Hl' ] & E'). pose proof (Hl _ Hp'). pose proof (Hl' _ Hp). lra.
Qed.
Lemma dtw2_exists : forall s t, s <> [] -> t <> [] -> exists v, dtw2 s t v.
Proof.
  intros s t Hs Ht. destruct s as [ | x s ]; [ congruence | ]. destruct t as [ | y t ]; [ congruence | ].
  destruct (last_cost (x :: s) (y :: t)) as (P & q & _ & Hc & _ & E); cbn [length]; [ lia | lia | ]. exists q, P. auto.
Qed.

Definition swap (ij : nat * nat) : nat * nat := (snd ij, fst ij).
Lemma path_swap : forall i j P, path_to i j P -> path_to j i (map swap P).
Proof. induction 1; rewrite ?map_app; cbn; constructor; assumption. Qed.
Lemma warping_swap : forall s t P, warping_path s t P -> warping_path t s (map swap P).
Proof. intros s t P (a & b & Ea & Eb & H). exists b, a. auto using path_swap. Qed.
Lemma cost_swap : forall s t P, (path_cost t s (map swap P) == path_cost s t P)%Q.
Proof.
  intros s t P. unfold path_cost. rewrite map_map. apply qsum_ext. intros [ i j ] _. cbn. lra.
Qed.
Lemma swap_swap : forall P, map swap (map swap P) = P.
Proof. intros P. rewrite map_map. rewrite <- (map_id P) at 2. apply map_ext. intros [ ? ? ]. reflexivity. Qed.

Lemma dtw2_sym : forall s t v, dtw2 s t v -> dtw2 t s v.
Proof.
  intros s t v (P & [ Hp Hl ] & E). exists (map swap P). split; [ split | ].
  - apply warping_swap. exact Hp.
  - intros P' HP'. rewrite cost_swap. pose proof (Hl _ (warping_swap _ _ _ HP')) as H. rewrite cost_swap in H. exact H.
  - rewrite cost_swap. exact E.
Qed.

Lemma path_cost_nonneg : forall s t P, (0 <= path_cost s t P)%Q.
Proof.
  intros s t P. unfold path_cost. induction P as [ | [ i j ] P IH ]; cbn; [ lra | ].
  set (x := (nth i s 0 - nth j t 0)%Q) in *. assert (0 <= x * x)%Q by nra. lra.
Qed.

Lemma path_diagonal : forall k, path_to k k (map (fun i => (i, i)) (seq 0 (S k))).
Proof.
  induction k as [ | k IH ]; [ constructor | ]. rewrite seq_S, map_app. constructor. exact IH.
Qed.
