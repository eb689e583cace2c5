From Coq Require Import String QArith Qround ZifyBool ZifyNat Lqa.
From Verif Require Import Base.Py Base.Arr Base.Float Base.Str Base.PyFacts Base.ArrFacts Base.FloatFacts Base.StrFacts Model.Region Model.KMedoids Model.Variance Model.Plots
  Spec.Plots Spec.Variance Proofs.VarianceFacts Proofs.NameFacts Proofs.KMedoidsFacts.
Local Notation length := List.length.
Local Close Scope Q_scope.
Local Open Scope nat_scope.

(* ---------- the loops of the analysis ---------- *)
Lemma foldM_map {A B S} (h : A -> B) (f : S -> B -> res S) l : forall s, foldM f (map h l) s = foldM (fun s a => f s (h a)) l s.
Proof. induction l as [|a l IH]; intros s; cbn; auto. destruct (f s (h a)); cbn; auto. Qed.
Lemma foldM_nested {S} (g : Z -> S -> Z -> res S) ks seeds : forall st,
  foldM (fun st seed => foldM (g seed) ks st) seeds st = foldM (fun st p => g (fst p) st (snd p)) (all_runs seeds ks) st.
Proof.
  induction seeds as [|s seeds IH]; intros st; cbn [foldM all_runs flat_map]; auto.
  rewrite foldM_app, foldM_map. cbn [fst snd]. destruct (foldM (g s) ks st); cbn [bind]; auto.
Qed.
Lemma in_runs seeds ks s k : In (s, k) (all_runs seeds ks) <-> In s seeds /\ In k ks.
Proof.
  unfold all_runs. rewrite in_flat_map. split.
  - intros (x & Hx & H). apply in_map_iff in H. destruct H as (y & E & Hy). injection E as -> ->. auto.
  - intros [A B]. exists s. split; auto. apply in_map_iff. exists k. auto.
Qed.

(* ---------- the silhouette plot ---------- *)
Section Draw.
Context {color : Type} (cmap : fnum -> color).
Definition fills (calls : list (@sil_call color)) : list (nat * list fnum * color) :=
  flat_map (fun c => match c with Fill y vs c => [(y, vs, c)] | _ => [] end) calls.
Definition texts (calls : list (@sil_call color)) : list (Q * nat) :=
  flat_map (fun c => match c with Text h l => [(h, l)] | _ => [] end) calls.

(** where cluster i begins *)
Definition lower (sizes : nat -> nat) (i : nat) : nat := 10 + list_sum (map (fun j => sizes j + 10) (seq 0 i)).
Lemma lower_S sizes i : lower sizes (S i) = lower sizes i + sizes i + 10.
Proof. unfold lower. rewrite seq_S, map_app, list_sum_app. cbn [map Nat.add list_sum fold_right]. lia. Qed.

Lemma draw_clusters_spec values labels k : length values = length labels ->
  let vs i := np_sort (values_of labels values (Z.of_nat i)) in
  let sizes i := length (vs i) in
  draw_clusters cmap values labels k = Ok (lower sizes k,
    flat_map (fun i => [Fill (lower sizes i) (vs i) (cmap (fdiv (fof_nat i) (fof_nat k)));
                        Text (inject_Z (Z.of_nat (lower sizes i)) + (1 # 2) * inject_Z (Z.of_nat (sizes i)))%Q i]) (seq 0 k)).
Proof.
  intros Hl vs sizes. unfold draw_clusters.
  assert (G : forall n, n <= k -> foldM (fun '(y_lower, calls) i =>
           vs <- cluster_values values labels i ;;
           let y_upper := y_lower + length vs in
           let c := cmap (fdiv (fof_nat i) (fof_nat k)) in
           Ok (y_upper + 10,
               calls ++ [Fill y_lower vs c;
                         Text (inject_Z (Z.of_nat y_lower) + (1 # 2) * inject_Z (Z.of_nat (length vs)))%Q i]))
        (seq 0 n) (10, []) = Ok (lower sizes n,
    flat_map (fun i => [Fill (lower sizes i) (vs i) (cmap (fdiv (fof_nat i) (fof_nat k)));
                        Text (inject_Z (Z.of_nat (lower sizes i)) + (1 # 2) * inject_Z (Z.of_nat (sizes i)))%Q i]) (seq 0 n))).
  { induction n as [|n IH]; intros Hn; [reflexivity|]. rewrite seq_S, foldM_app, IH by lia. cbn [bind foldM Nat.add].
    assert (E : cluster_values values labels n = Ok (vs n)).
    { unfold cluster_values. rewrite (proj2 (Nat.eqb_eq _ _) Hl). unfold vs, values_of. do 3 f_equal. apply filter_ext. intros [a b]. reflexivity. }
    rewrite E. cbn [bind]. rewrite flat_map_app. cbn [flat_map app]. rewrite lower_S. reflexivity. }
  apply G. lia.
Qed.

Lemma fills_clusters (sizes : nat -> nat) vs (c : nat -> color) (h : nat -> Q) l :
  fills (flat_map (fun i => [Fill (lower sizes i) (vs i) (c i); Text (h i) i]) l) = map (fun i => (lower sizes i, vs i, c i)) l.
Proof. induction l as [|i l IH]; cbn; auto. f_equal. exact IH. Qed.
Lemma texts_clusters (sizes : nat -> nat) (vs : nat -> list fnum) (c : nat -> color) (h : nat -> Q) l :
  texts (flat_map (fun i => [Fill (lower sizes i) (vs i) (c i); Text (h i) i]) l) = map (fun i => (h i, i)) l.
Proof. induction l as [|i l IH]; cbn; auto. f_equal. exact IH. Qed.
Lemma fills_app a b : fills (a ++ b) = fills a ++ fills b.
Proof. apply flat_map_app. Qed.
Lemma texts_app a b : texts (a ++ b) = texts a ++ texts b.
Proof. apply flat_map_app. Qed.
End Draw.

(** the samples with labels 0, ..., k - 1 *)
Lemma values_all labels values k : length values = length labels ->
  Permutation (flat_map (fun i => values_of labels values (Z.of_nat i)) (seq 0 k))
              (map snd (filter (fun p => (0 <=? fst p)%Z && (fst p <? Z.of_nat k)%Z) (combine labels values))).
Proof.
  intros _. induction k as [|k IH].
  - cbn. rewrite (filter_ext _ (fun _ => false)); [|intros [a b]; cbn [fst]; lia]. induction (combine labels values); cbn; auto.
  - rewrite seq_S, flat_map_app. cbn [flat_map Nat.add]. rewrite app_nil_r, IH. unfold values_of. rewrite <- map_app. apply Permutation_map.
    clear IH. induction (combine labels values) as [|[a b] l IH]; cbn [filter app]; auto. cbn [fst].
    destruct (Z.eqb_spec a (Z.of_nat k)) as [->|Hne].
    + replace ((0 <=? Z.of_nat k)%Z && (Z.of_nat k <? Z.of_nat k)%Z) with false by lia. replace ((0 <=? Z.of_nat k)%Z && (Z.of_nat k <? Z.of_nat (S k))%Z) with true by lia.
      rewrite <- Permutation_middle. apply perm_skip. exact IH.
    + replace ((0 <=? a)%Z && (a <? Z.of_nat (S k))%Z) with ((0 <=? a)%Z && (a <? Z.of_nat k)%Z) by lia.
      destruct ((0 <=? a)%Z && (a <? Z.of_nat k)%Z); cbn [app]; auto.
Qed.
Lemma filter_le {A} (f : A -> bool) l : length (filter f l) <= length l.
Proof. induction l as [|a l IH]; cbn; auto. destruct (f a); cbn; lia. Qed.
Lemma flat_map_length_sum {A B} (f : A -> list B) l : length (flat_map f l) = list_sum (map (fun a => length (f a)) l).
Proof. induction l as [|a l IH]; [reflexivity|]. cbn [flat_map map]. rewrite app_length, IH. reflexivity. Qed.
Lemma sizes_sum labels values k : length values = length labels ->
  list_sum (map (fun i => length (values_of labels values (Z.of_nat i))) (seq 0 k)) <= length labels.
Proof.
  intros Hl. pose proof (Permutation_length (values_all labels values k Hl)) as P. rewrite map_length in P.
  assert (E : list_sum (map (fun i => length (values_of labels values (Z.of_nat i))) (seq 0 k)) = length (flat_map (fun i => values_of labels values (Z.of_nat i)) (seq 0 k))) by (symmetry; apply flat_map_length_sum).
  rewrite E, P. rewrite filter_le, combine_length. lia.
Qed.
Lemma list_sum_plus {A} (f : A -> nat) c l : list_sum (map (fun i => f i + c) l) = list_sum (map f l) + c * length l.
Proof.
  induction l as [|a l IH]; [cbn; lia|]. cbn [map length]. change (list_sum ((f a + c) :: map (fun i => f i + c) l)) with (f a + c + list_sum (map (fun i => f i + c) l)).
  change (list_sum (f a :: map f l)) with (f a + list_sum (map f l)). rewrite IH. lia.
Qed.

(** the number of labels when they are 0, ..., k - 1 *)
Lemma labels_count labels k : labels_are labels k -> length (nodup Z.eq_dec labels) = k.
Proof.
  intros H. assert (P : Permutation (nodup Z.eq_dec labels) (map Z.of_nat (seq 0 k))).
  { apply NoDup_Permutation; [apply NoDup_nodup| |].
    - apply FinFun.Injective_map_NoDup; [intros a b; lia|apply seq_NoDup].
    - intros l. rewrite nodup_In. rewrite (H l), in_map_iff. split.
      + intros Hl. exists (Z.to_nat l). split; [lia|]. apply in_seq. lia.
      + intros (i & <- & Hi). apply in_seq in Hi. lia. }
  rewrite (Permutation_length P), map_length, seq_length. reflexivity.
Qed.
Lemma z_max_spec l m : z_max l = Ok m -> In m l /\ forall z, In z l -> (z <= m)%Z.
Proof.
  destruct l as [|z zs]; [discriminate|]. intros E. assert (m = fold_left Z.max zs z) by (cbn in E; congruence). subst m. clear E.
  revert z. induction zs as [|w zs IH]; intros z; cbn [fold_left].
  - split; [left; auto|]. intros y [<-|[]]. lia.
  - destruct (IH (Z.max z w)) as [A B]. split.
    + destruct A as [A|A]; [|right; right; auto]. destruct (Z.max_spec z w) as [[_ E]|[_ E]]; rewrite E in *; [right; left; auto|left; auto].
    + intros y [<-|[<-|Hy]].
      * specialize (B _ (or_introl eq_refl)). lia.
      * specialize (B _ (or_introl eq_refl)). lia.
      * apply B. right. auto.
Qed.
Lemma labels_max labels k : 0 < k -> labels_are labels k -> z_max labels = Ok (Z.of_nat k - 1)%Z.
Proof.
  intros Hk H. destruct (z_max labels) as [m|e] eqn:E.
  - destruct (z_max_spec _ _ E) as [A B]. apply H in A. assert (In (Z.of_nat k - 1)%Z labels) by (apply H; lia). specialize (B _ H0). f_equal. lia.
  - destruct labels; [|discriminate]. assert (In 0%Z []) by (apply H; lia). contradiction.
Qed.

(* ---------- the frame ---------- *)
Lemma frame_interval a b (h : Q) : (a < b)%Z ->
  ((inject_Z a - (1 # 2) <= h <= inject_Z a - (1 # 2) + inject_Z (b - a))%Q <->
   exists j, (a <= j < b)%Z /\ (inject_Z j - (1 # 2) <= h <= inject_Z j + (1 # 2))%Q).
Proof.
  intros Hab. assert (Eb : (inject_Z (b - a) == inject_Z b - inject_Z a)%Q) by (unfold Z.sub; rewrite inject_Z_plus, inject_Z_opp; reflexivity). split.
  - intros [H1 H2]. rewrite Eb in H2. set (f := Qfloor (h + (1 # 2))).
    pose proof (Qfloor_le (h + (1 # 2))) as F1. pose proof (Qlt_floor (h + (1 # 2))) as F2. fold f in F1, F2. rewrite inject_Z_plus in F2. change (inject_Z 1) with 1%Q in F2.
    assert (Fa : (a <= f)%Z). { assert (inject_Z a < inject_Z (f + 1))%Q by (rewrite inject_Z_plus; change (inject_Z 1) with 1%Q; lra). rewrite <- Zlt_Qlt in H. lia. }
    destruct (Z_lt_dec f b) as [Hf|Hf].
    + exists f. split; [lia|]. split; lra.
    + assert (Fb : (f <= b)%Z). { rewrite Zle_Qle. lra. }
      assert (f = b) by lia. exists (b - 1)%Z. split; [lia|]. assert (Eb1 : (inject_Z (b - 1) == inject_Z b - 1)%Q) by (unfold Z.sub; rewrite inject_Z_plus; reflexivity).
      rewrite Eb1. subst f. rewrite H in F1. split; lra.
  - intros (j & Hj & H1 & H2). rewrite Eb. assert (inject_Z a <= inject_Z j)%Q by (rewrite <- Zle_Qle; lia).
    assert (inject_Z (j + 1) <= inject_Z b)%Q by (rewrite <- Zle_Qle; lia). rewrite inject_Z_plus in H0. change (inject_Z 1) with 1%Q in H0. split; lra.
Qed.

(* ---------- the centre ---------- *)
Lemma center_spec x y : center_index x y = x / 2 * y + y / 2.
Proof.
  unfold center_index. pose proof (Nat.div_mod x 2). assert (x mod 2 < 2) by (apply Nat.mod_upper_bound; lia).
  destruct (Nat.eqb_spec (x mod 2) 0) as [E|E].
  - assert (Hx : x = 2 * (x / 2)) by lia. rewrite Hx at 1. rewrite <- Nat.mul_assoc, (Nat.mul_comm 2), Nat.div_mul by lia. reflexivity.
  - assert (Hx : x = 2 * (x / 2) + 1) by lia. rewrite Hx at 1. replace ((2 * (x / 2) + 1) * y) with (x / 2 * y * 2 + y) by lia. rewrite Nat.div_add_l by lia. reflexivity.
Qed.

(** file names *)
Local Open Scope string_scope.
Lemma graph_file_inj save k s k' s' : graph_file save k s = graph_file save k' s' -> k = k' /\ s = s'.
Proof.
  unfold graph_file. intros E. apply sapp_inj_l in E. injection E as E.
  apply (str_int_prefix k k') in E; try reflexivity. destruct E as [-> E].
  apply (sapp_inj_l "_seed") in E. apply (str_int_prefix s s' ".eps" ".eps") in E; try reflexivity. destruct E as [-> _]. auto.
Qed.
