(** squared_DTW fills the cost matrix with the least path costs; DBA_update follows a cheapest path for every series. *)
From Coq Require Import ZifyBool ZifyNat QArith Lqa.
From Verif Require Import Base.Py Base.PyFacts Base.Arr Base.ArrFacts Base.Float Base.FloatFacts Model.DBA Spec.Warping
  Proofs.ElbowFacts Proofs.KMedoidsFacts.
Local Close Scope Q_scope.
Local Open Scope nat_scope.

(* ---------- loops and tables ---------- *)
Lemma loop_inv : forall {S} (I : nat -> S -> Prop) (step : S -> Z -> res S) a b s, a <= b -> I a s ->
  (forall k s, a <= k < b -> I k s -> exists s', step s (Z.of_nat k) = Ok s' /\ I (Datatypes.S k) s') ->
  exists s', foldM step (zrange (Z.of_nat a) (Z.of_nat b)) s = Ok s' /\ I b s'.
Proof.
  intros S I step a b s Hab Ha Hs. induction b as [ | b IH ].
  - assert (a = 0) as -> by lia. exists s. split; [ reflexivity | exact Ha ].
  - destruct (Nat.eq_dec a (Datatypes.S b)) as [ -> | Hne ].
    + exists s. split; [ | exact Ha ]. unfold zrange. rewrite Z.sub_diag. reflexivity.
    + destruct IH as (s' & E & HI); [ lia | intros; apply Hs; [ lia | assumption ] | ].
      destruct (Hs b s') as (s'' & E' & HI'); [ lia | exact HI | ].
      exists s''. split; [ | exact HI' ]. replace (Z.of_nat (Datatypes.S b)) with (Z.of_nat b + 1)%Z by lia.
      rewrite zrange_snoc by lia. rewrite foldM_app, E. cbn [bind foldM]. rewrite E'. reflexivity.
Qed.

Lemma loop1 : forall {S} (I : nat -> S -> Prop) (step : S -> Z -> res S) b s, 1 <= b -> I 1 s ->
  (forall k s, 1 <= k < b -> I k s -> exists s', step s (Z.of_nat k) = Ok s' /\ I (Datatypes.S k) s') ->
  exists s', foldM step (zrange 1 (Z.of_nat b)) s = Ok s' /\ I b s'.
Proof. intros S I step b. exact (loop_inv I step 1 b). Qed.

Definition table {A} (a : arr2 A) (X Y x y : nat) (D : nat -> nat -> bool) (f : nat -> nat -> A) : Prop :=
  sized a X Y /\ forall i j, i < x -> j < y -> D i j = true -> at2 a i j = Some (f i j).

Section Table.
Context {A : Type} (X Y x y : nat) (f : nat -> nat -> A) (Hx : x <= X) (Hy : y <= Y).
Lemma table_set : forall a D i j v, table a X Y x y D f -> i < x -> j < y -> v = f i j ->
  exists a', set2 a (Z.of_nat i) (Z.of_nat j) v = Ok a' /\ table a' X Y x y (fun i' j' => D i' j' || ((i' =? i) && (j' =? j))) f.
Proof using Hx Hy.
  intros a D i j v [ (Hw & Ex & Ey) Ht ] Hi Hj ->.
  destruct (set2_spec a (Z.of_nat i) (Z.of_nat j) (f i j) Hw) as (a' & E & Hw' & Ex' & Ey' & H); [ lia | lia | ].
  exists a'. split; [ exact E | split ].
  - split; [ exact Hw' | lia ].
  - intros i' j' Hi' Hj' HD. rewrite H by lia. destruct ((Z.of_nat i' =? Z.of_nat i) && (Z.of_nat j' =? Z.of_nat j))%Z eqn:Eij.
    + assert (i' = i) as -> by lia. assert (j' = j) as -> by lia. reflexivity.
    + apply Ht; auto. lia.
Qed.
Lemma table_weaken : forall a D D', table a X Y x y D f ->
  (forall i j, i < x -> j < y -> D' i j = true -> D i j = true) -> table a X Y x y D' f.
Proof using. intros a D D' [ Hr H ] HD. split; auto. Qed.
Lemma table_get : forall a D i j, table a X Y x y D f -> i < x -> j < y -> D i j = true ->
  get2 a (Z.of_nat i) (Z.of_nat j) = Ok (f i j).
Proof using Hx Hy. intros a D i j [ (Hw & Ex & Ey) H ] Hi Hj HD. rewrite get2_nat by lia. rewrite H by auto. reflexivity. Qed.
Lemma table_sized : forall a, sized a X Y -> table a X Y x y (fun _ _ => false) f.
Proof using. intros. split; [ assumption | discriminate ]. Qed.
End Table.

(* ---------- the cost of the cheapest path, by recursion ---------- *)
Section Costs.
Variable s t : list fnum.
Definition delta_at (i j : nat) : fnum := fmul (fsub (nth i s NaN) (nth j t NaN)) (fsub (nth i s NaN) (nth j t NaN)).

Fixpoint cost_at (i : nat) : nat -> fnum :=
  match i with
  | O => fix row j := match j with O => delta_at 0 0 | S j' => fadd (row j') (delta_at 0 j) end
  | S i' => fix row j := match j with
                         | O => fadd (cost_at i' 0) (delta_at i 0)
                         | S j' => fadd (fst (least3 (cost_at i' j') (row j') (cost_at i' j))) (delta_at i j)
                         end
  end.
Definition move_at (i j : nat) : Z :=
  match i, j with
  | O, O => -1
  | S _, O => 2
  | O, S _ => 1
  | S i', S j' => snd (least3 (cost_at i' j') (cost_at (S i') j') (cost_at i' (S j')))
  end%Z.

Lemma cost_00 : cost_at 0 0 = delta_at 0 0. Proof. reflexivity. Qed.
Lemma cost_S0 : forall i, cost_at (S i) 0 = fadd (cost_at i 0) (delta_at (S i) 0). Proof. reflexivity. Qed.
Lemma cost_0S : forall j, cost_at 0 (S j) = fadd (cost_at 0 j) (delta_at 0 (S j)). Proof. reflexivity. Qed.
Lemma cost_SS : forall i j, cost_at (S i) (S j) = fadd (fst (least3 (cost_at i j) (cost_at (S i) j) (cost_at i (S j)))) (delta_at (S i) (S j)).
Proof. reflexivity. Qed.

Variable X Y : nat.
Hypothesis HX : length s <= X.
Hypothesis HY : length t <= Y.
Let n := length s.
Let m := length t.

Lemma fill_delta_ok : forall delta, sized delta X Y ->
  exists delta', fill_delta_mat_dtw s t delta = Ok delta' /\ table delta' X Y n m (fun _ _ => true) delta_at.
Proof using HX HY.
  intros delta (Hw & Ex & Ey). unfold fill_delta_mat_dtw.
  replace ((length s <=? a2x delta) && (length t <=? a2y delta)) with true by lia.
  eexists. split; [ reflexivity | ]. split.
  - split; [ | cbn; lia ]. unfold wf2. cbn [a2d a2x a2y]. rewrite map_length, enumerate_length. exact Hw.
  - intros i j Hi Hj _. unfold at2. cbn [a2d a2y]. rewrite nth_error_map, nth_error_enumerate. subst n m.
    assert (L : i * a2y delta + j < length (a2d delta)) by (rewrite Hw; apply flat_lt; lia).
    destruct (nth_error_lt_some _ _ L) as (v & E). rewrite E. cbn [option_map].
    rewrite flat_div, flat_mod by lia. unfold delta_at.
    rewrite (nth_error_nth' s NaN Hi), (nth_error_nth' t NaN Hj). reflexivity.
Qed.

Lemma pred_Z : forall k, 0 < k -> (Z.of_nat k - 1)%Z = Z.of_nat (k - 1). Proof. intros. lia. Qed.

Lemma squared_DTW_table : forall cost delta, 0 < n -> 0 < m -> sized cost X Y -> sized delta X Y ->
  exists cost' delta', squared_DTW s t cost delta = Ok (cost_at (n - 1) (m - 1), cost', delta') /\ sized cost' X Y /\ sized delta' X Y.
Proof using HX HY.
  intros cost delta Hn Hm Hc Hd. unfold squared_DTW. fold n m. fold n in HX. fold m in HY.
  destruct (fill_delta_ok delta Hd) as (delta' & -> & Td). cbn [bind].
  change 0%Z with (Z.of_nat 0). rewrite (table_get X Y n m _ HX HY _ _ _ _ Td Hn Hm eq_refl). cbn [bind].
  destruct (table_set X Y n m cost_at HX HY cost _ 0 0 (delta_at 0 0) (table_sized X Y n m cost_at cost Hc) Hn Hm) as (c1 & -> & T1); [ reflexivity | ].
  cbn [bind].
  (* first column *)
  match goal with |- context [foldM ?f (zrange 1 (Z.of_nat n)) c1] =>
    destruct (loop1 (fun k c => table c X Y n m (fun i j => (j =? 0) && (i <? k)) cost_at) f n c1) as (c2 & -> & T2) end; [ lia | | | ].
  { apply (table_weaken _ _ _ _ _ _ _ _ T1). intros. lia. }
  { intros k c Hk T. rewrite pred_Z by lia. rewrite (table_get X Y n m _ HX HY _ _ _ _ T) by lia. cbn [bind].
    rewrite (table_get X Y n m _ HX HY _ _ _ _ Td) by lia. cbn [bind].
    destruct (table_set X Y n m cost_at HX HY c _ k 0 (fadd (cost_at (k - 1) 0) (delta_at k 0)) T) as (c' & E & T'); [ lia | lia | | ].
    - destruct k; [ lia | ]. rewrite cost_S0. replace (S k - 1) with k by lia. reflexivity.
    - exists c'. split; [ exact E | ]. apply (table_weaken _ _ _ _ _ _ _ _ T'). intros. lia. }
  cbn [bind].
  (* first row *)
  match goal with |- context [foldM ?f (zrange 1 (Z.of_nat m)) c2] =>
    destruct (loop1 (fun k c => table c X Y n m (fun i j => (j =? 0) || ((i =? 0) && (j <? k))) cost_at) f m c2) as (c3 & -> & T3) end; [ lia | | | ].
  { apply (table_weaken _ _ _ _ _ _ _ _ T2). intros. lia. }
  { intros k c Hk T. rewrite pred_Z by lia. rewrite (table_get X Y n m _ HX HY _ _ _ _ T) by lia. cbn [bind].
    rewrite (table_get X Y n m _ HX HY _ _ _ _ Td) by lia. cbn [bind].
    destruct (table_set X Y n m cost_at HX HY c _ 0 k (fadd (cost_at 0 (k - 1)) (delta_at 0 k)) T) as (c' & E & T'); [ lia | lia | | ].
    - destruct k; [ lia | ]. rewrite cost_0S. replace (S k - 1) with k by lia. reflexivity.
    - exists c'. split; [ exact E | ]. apply (table_weaken _ _ _ _ _ _ _ _ T'). intros. lia. }
  cbn [bind].
  (* the rest *)
  match goal with |- context [foldM ?f (zrange 1 (Z.of_nat n)) c3] =>
    destruct (loop1 (fun k c => table c X Y n m (fun i j => (j =? 0) || (i <? k)) cost_at) f n c3) as (c4 & -> & T4) end; [ lia | | | ].
  { apply (table_weaken _ _ _ _ _ _ _ _ T3). intros. lia. }
  { intros i c Hi T.
    match goal with |- context [foldM ?f (zrange 1 (Z.of_nat m)) c] =>
      destruct (loop1 (fun k c => table c X Y n m (fun i' j => (j =? 0) || (i' <? i) || ((i' =? i) && (j <? k))) cost_at) f m c) as (c' & -> & T') end; [ lia | | | ].
    - apply (table_weaken _ _ _ _ _ _ _ _ T). intros. lia.
    - intros j cc Hj Tc. rewrite !pred_Z by lia. rewrite !(table_get X Y n m _ HX HY _ _ _ _ Tc) by lia. cbn [bind].
      rewrite (table_get X Y n m _ HX HY _ _ _ _ Td) by lia. cbn [bind].
      destruct (table_set X Y n m cost_at HX HY cc _ i j (fadd (fst (least3 (cost_at (i - 1) (j - 1)) (cost_at i (j - 1)) (cost_at (i - 1) j))) (delta_at i j)) Tc) as (c' & E & T'); [ lia | lia | | ].
      + destruct i as [ | i ]; [ lia | ]. destruct j as [ | j ]; [ lia | ]. rewrite cost_SS. replace (S i - 1) with i by lia. replace (S j - 1) with j by lia. reflexivity.
      + exists c'. split; [ exact E | ]. apply (table_weaken _ _ _ _ _ _ _ _ T'). intros. lia.
    - exists c'. split; [ reflexivity | ]. apply (table_weaken _ _ _ _ _ _ _ _ T'). intros. lia. }
  cbn [bind]. rewrite !pred_Z by lia. rewrite (table_get X Y n m _ HX HY _ _ _ _ T4) by lia. cbn [bind].
  exists c4, delta'. split; [ reflexivity | split; [ apply T4 | apply Td ] ].
Qed.

(** the same tables in DBA_update, with the moves *)
Definition two_tables (cp : arr2 fnum * arr2 Z) (D : nat -> nat -> bool) : Prop :=
  table (fst cp) X Y n m D cost_at /\ table (snd cp) X Y n m D move_at.

Lemma two_set : forall c p D i j v w, two_tables (c, p) D -> i < n -> j < m -> v = cost_at i j -> w = move_at i j ->
  exists c' p', set2 c (Z.of_nat i) (Z.of_nat j) v = Ok c' /\ set2 p (Z.of_nat i) (Z.of_nat j) w = Ok p' /\
    two_tables (c', p') (fun i' j' => D i' j' || ((i' =? i) && (j' =? j))).
Proof using HX HY.
  intros c p D i j v w [ T1 T2 ] Hi Hj Hv Hw. cbn [fst snd] in *. fold n in HX. fold m in HY.
  destruct (table_set X Y n m cost_at HX HY c _ i j v T1 Hi Hj Hv) as (c' & E1 & T1').
  destruct (table_set X Y n m move_at HX HY p _ i j w T2 Hi Hj Hw) as (p' & E2 & T2').
  exists c', p'. split; [ exact E1 | split; [ exact E2 | split; assumption ] ].
Qed.
Lemma two_weaken : forall cp D D', two_tables cp D -> (forall i j, i < n -> j < m -> D' i j = true -> D i j = true) -> two_tables cp D'.
Proof using. intros cp D D' [ T1 T2 ] H. split; eapply table_weaken; eauto. Qed.

Lemma DBA_tables : forall cost path delta, 0 < n -> 0 < m -> sized cost X Y -> sized path X Y -> sized delta X Y ->
  exists cost' path' delta', sized cost' X Y /\ sized delta' X Y /\ table path' X Y n m (fun _ _ => true) move_at /\
  forall updated n_elements, DBA_step s (updated, n_elements, cost, path, delta) t =
    (x <- backtrack (n + m) path' t (Z.of_nat (n - 1)) (Z.of_nat (m - 1)) updated n_elements ;;
     let '(i, j, updated, n_elements) := x in
     _ <- py_assert ((i =? 0)%Z && (j =? 0)%Z) ;;
     v <- getitem t j ;;
     u <- getitem updated i ;;
     updated <- setitem updated i (fadd u v) ;;
     n <- getitem n_elements i ;;
     n_elements <- setitem n_elements i (n + 1)%Z ;;
     Ok (updated, n_elements, cost', path', delta')).
Proof using HX HY.
  intros cost path delta Hn Hm Hc Hp Hd. unfold DBA_step. fold n m. fold n in HX. fold m in HY.
  destruct (fill_delta_ok delta Hd) as (delta' & -> & Td). cbn [bind].
  change (get2 delta' 0 0) with (get2 delta' (Z.of_nat 0) (Z.of_nat 0)).
  rewrite (table_get X Y n m _ HX HY _ _ _ _ Td Hn Hm eq_refl). cbn [bind].
  destruct (two_set cost path _ 0 0 (delta_at 0 0) (-1)%Z (conj (table_sized X Y n m cost_at cost Hc) (table_sized X Y n m move_at path Hp)) Hn Hm) as (c1 & p1 & E1 & E2 & T1); [ reflexivity | reflexivity | ].
  change (set2 cost 0 0 (delta_at 0 0)) with (set2 cost (Z.of_nat 0) (Z.of_nat 0) (delta_at 0 0)). rewrite E1. cbn [bind].
  change (set2 path 0 0 (-1)%Z) with (set2 path (Z.of_nat 0) (Z.of_nat 0) (-1)%Z). rewrite E2. cbn [bind].
  clear E1 E2.
  (* first column *)
  match goal with |- context [foldM ?f (zrange 1 (Z.of_nat n)) (c1, p1)] =>
    destruct (loop1 (fun k c => two_tables c (fun i j => (j =? 0) && (i <? k))) f n (c1, p1)) as (c2 & -> & T2) end; [ lia | | | ].
  { apply (two_weaken _ _ _ T1). intros. lia. }
  { intros k [ c p ] Hk T. rewrite pred_Z by lia. change 0%Z with (Z.of_nat 0). rewrite (table_get X Y n m _ HX HY _ _ _ _ (proj1 T)) by lia. cbn [bind].
    rewrite (table_get X Y n m _ HX HY _ _ _ _ Td) by lia. cbn [bind].
    destruct (two_set c p _ k 0 (fadd (cost_at (k - 1) 0) (delta_at k 0)) 2%Z T) as (c' & p' & -> & E & T'); [ lia | lia | | | ].
    - destruct k; [ lia | ]. rewrite cost_S0. replace (S k - 1) with k by lia. reflexivity.
    - destruct k; [ lia | ]. reflexivity.
    - cbn [bind]. rewrite E. cbn [bind]. exists (c', p'). split; [ reflexivity | ]. apply (two_weaken _ _ _ T'). intros. lia. }
  cbn [bind].
  (* first row *)
  match goal with |- context [foldM ?f (zrange 1 (Z.of_nat m)) c2] =>
    destruct (loop1 (fun k c => two_tables c (fun i j => (j =? 0) || ((i =? 0) && (j <? k)))) f m c2) as (c3 & -> & T3) end; [ lia | | | ].
  { apply (two_weaken _ _ _ T2). intros. lia. }
  { intros k [ c p ] Hk T. rewrite pred_Z by lia. change 0%Z with (Z.of_nat 0). rewrite (table_get X Y n m _ HX HY _ _ _ _ (proj1 T)) by lia. cbn [bind].
    rewrite (table_get X Y n m _ HX HY _ _ _ _ Td) by lia. cbn [bind].
    destruct (two_set c p _ 0 k (fadd (cost_at 0 (k - 1)) (delta_at 0 k)) 1%Z T) as (c' & p' & -> & E & T'); [ lia | lia | | | ].
    - destruct k; [ lia | ]. rewrite cost_0S. replace (S k - 1) with k by lia. reflexivity.
    - destruct k; [ lia | ]. reflexivity.
    - cbn [bind]. rewrite E. cbn [bind]. exists (c', p'). split; [ reflexivity | ]. apply (two_weaken _ _ _ T'). intros. lia. }
  cbn [bind].
  (* the rest *)
  match goal with |- context [foldM ?f (zrange 1 (Z.of_nat n)) c3] =>
    destruct (loop1 (fun k c => two_tables c (fun i j => (j =? 0) || (i <? k))) f n c3) as (c4 & -> & T4) end; [ lia | | | ].
  { apply (two_weaken _ _ _ T3). intros. lia. }
  { intros i c Hi T.
    match goal with |- context [foldM ?f (zrange 1 (Z.of_nat m)) c] =>
      destruct (loop1 (fun k c => two_tables c (fun i' j => (j =? 0) || (i' <? i) || ((i' =? i) && (j <? k)))) f m c) as (c' & -> & T') end; [ lia | | | ].
    - apply (two_weaken _ _ _ T). intros. lia.
    - intros j [ cc pp ] Hj Tc. rewrite !pred_Z by lia. rewrite !(table_get X Y n m _ HX HY _ _ _ _ (proj1 Tc)) by lia. cbn [bind].
      destruct (two_set cc pp _ i j (fadd (fst (least3 (cost_at (i - 1) (j - 1)) (cost_at i (j - 1)) (cost_at (i - 1) j))) (delta_at i j))
                  (snd (least3 (cost_at (i - 1) (j - 1)) (cost_at i (j - 1)) (cost_at (i - 1) j))) Tc) as (c' & p' & E & -> & T'); [ lia | lia | | | ].
      + destruct i as [ | i ]; [ lia | ]. destruct j as [ | j ]; [ lia | ]. rewrite cost_SS. replace (S i - 1) with i by lia. replace (S j - 1) with j by lia. reflexivity.
      + destruct i as [ | i ]; [ lia | ]. destruct j as [ | j ]; [ lia | ]. replace (S i - 1) with i by lia. replace (S j - 1) with j by lia. reflexivity.
      + cbn [bind]. rewrite (table_get X Y n m _ HX HY _ _ _ _ Td) by lia. cbn [bind]. rewrite E. cbn [bind].
        exists (c', p'). split; [ reflexivity | ]. apply (two_weaken _ _ _ T'). intros. lia.
    - exists c'. split; [ reflexivity | ]. apply (two_weaken _ _ _ T'). intros. lia. }
  cbn [bind]. destruct c4 as [ c4 p4 ]. rewrite !pred_Z by lia. destruct T4 as [ T4 T5 ]. cbn [fst snd] in *.
  exists c4, p4, delta'. split; [ apply T4 | split; [ apply Td | split; [ | reflexivity ] ] ].
  apply (table_weaken _ _ _ _ _ _ _ _ T5). intros. lia.
Qed.
End Costs.
