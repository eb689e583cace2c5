(** Proofs about Model.Clustering. *)
From Coq Require Import ZifyBool ZifyNat QArith Lqa Field Qfield.
From Verif Require Import Base.Py Base.PyFacts Base.Str Base.StrFacts Base.Dict Base.DictFacts Base.Float Base.FloatFacts
  Model.Region Model.Clustering Spec.Clustering.
Local Close Scope Q_scope.
Local Open Scope nat_scope.
Local Notation length := List.length.

Lemma c_key : key_equiv c_eqb.
Proof.
  unfold c_eqb. split; [|split].
  - intros a. rewrite String.eqb_refl, Z.eqb_refl. auto.
  - intros a b. rewrite String.eqb_sym, Z.eqb_sym. auto.
  - intros a b c. rewrite !andb_true_iff, !String.eqb_eq, !Z.eqb_eq. intuition congruence.
Qed.
Lemma string_key : key_equiv String.eqb.
Proof.
  split; [|split].
  - apply String.eqb_refl.
  - apply String.eqb_sym.
  - intros a b c. rewrite !String.eqb_eq. congruence.
Qed.

(* ---------- representation ---------- *)
Lemma app_char c s : (String c "" ++ s)%string = String c s.
Proof. reflexivity. Qed.

Definition kmeta_parts (m : kmeta) : list string :=
  ["kmedoids"%string; ("k" ++ str_int (km_k m))%string; ("seed" ++ str_int (km_seed m))%string; km_mode m] ++
  match km_init m with None => [] | Some l => [("im" ++ join "-" (map str_int l))%string] end.

Lemma kmeta_repr_join m : kmeta_repr m = join "_" (kmeta_parts m).
Proof.
  unfold kmeta_repr, kmeta_parts. destruct (km_init m) as [l|]; cbn [join app].
  - repeat (rewrite <- ?sapp_assoc; cbn [String.append]). rewrite ?sapp_assoc. cbn. rewrite ?sapp_assoc. reflexivity.
  - reflexivity.
Qed.

Lemma join_no_char c sep l : has_char c sep = false -> (forall s, In s l -> has_char c s = false) -> has_char c (join sep l) = false.
Proof.
  intros Hs. induction l as [|a l IH]; intros H; auto. destruct l as [|b l].
  - cbn. apply H. left; auto.
  - change (join sep (a :: b :: l)) with (a ++ sep ++ join sep (b :: l))%string.
    rewrite !has_char_app, Hs, H, IH; auto; [intros; apply H; right; auto|left; auto].
Qed.

Lemma parts_no_us m : has_char "_" (km_mode m) = false -> forall s, In s (kmeta_parts m) -> has_char "_" s = false.
Proof.
  intros Hm s H. unfold kmeta_parts in H. apply in_app_iff in H. destruct H as [H|H].
  - cbn [In] in H. destruct H as [<-|[<-|[<-|[<-|[]]]]]; auto.
    + rewrite has_char_app. rewrite str_int_no_char by (auto; discriminate). auto.
    + rewrite has_char_app. rewrite str_int_no_char by (auto; discriminate). auto.
  - destruct (km_init m); [|destruct H]. destruct H as [<-|[]].
    rewrite has_char_app. rewrite join_no_char; auto.
    intros s H. apply in_map_iff in H. destruct H as (z & <- & _). apply str_int_no_char; auto; discriminate.
Qed.

Lemma kmeta_split m : has_char "_" (km_mode m) = false -> split "_" (kmeta_repr m) = kmeta_parts m.
Proof.
  intros H. rewrite kmeta_repr_join. apply split_join; [unfold kmeta_parts; discriminate|]. apply parts_no_us; auto.
Qed.

Lemma getitem_nil_cons0 {A} (a : A) l : getitem (a :: l) 0 = Ok a.
Proof. reflexivity. Qed.
Lemma getitem_cons_nat {A} (l : list A) (n : nat) : getitem l (Z.of_nat n) = match nth_error l n with Some x => Ok x | None => Raise IndexError end.
Proof.
  destruct (nth_error l n) eqn:E.
  - apply getitem_in; auto.
  - apply nth_error_None in E. unfold getitem.
    replace (norm_index (length l) (Z.of_nat n)) with (@None nat); auto.
    symmetry. apply norm_index_none. lia.
Qed.

Lemma kmeta_from_parts s k seed md rest : split "_" s = ["kmedoids"%string; ("k" ++ str_int k)%string; ("seed" ++ str_int seed)%string; md] ++ rest ->
  kmeta_from_repr s = Ok (kmeta_default k seed md).
Proof.
  intros H. unfold kmeta_from_repr. rewrite H.
  change 0%Z with (Z.of_nat 0). change 1%Z with (Z.of_nat 1). change 2%Z with (Z.of_nat 2). change 3%Z with (Z.of_nat 3).
  rewrite !getitem_cons_nat. cbn [nth_error app bind]. rewrite String.eqb_refl. cbn [py_assert bind].
  change 4 with (slen "seed"). rewrite str_from_app. change (str_from 1 ("k" ++ str_int k)) with (str_int k). rewrite !py_int_str. reflexivity.
Qed.

Lemma kmeta_round_trip m : has_char "_" (km_mode m) = false ->
  kmeta_from_repr (kmeta_repr m) = Ok (kmeta_default (km_k m) (km_seed m) (km_mode m)).
Proof. intros H. eapply kmeta_from_parts. rewrite kmeta_split by auto. reflexivity. Qed.

Lemma regular_split k : split "_" (c_repr (CRegular k)) = ["regular"%string; ("k" ++ str_int k)%string].
Proof.
  change (c_repr (CRegular k)) with (join "_" ["regular"; "k" ++ str_int k])%string.
  apply split_join; [discriminate|]. intros s [<-|[<-|[]]]; auto.
  rewrite has_char_app. rewrite str_int_no_char by (auto; discriminate). auto.
Qed.

Lemma regular_round_trip k : regular_from_repr (c_repr (CRegular k)) = Ok (CRegular k).
Proof.
  unfold regular_from_repr. rewrite regular_split.
  change 0%Z with (Z.of_nat 0). change 1%Z with (Z.of_nat 1). rewrite !getitem_cons_nat. cbn [nth_error bind].
  rewrite String.eqb_refl. cbn [py_assert bind]. change 1 with (slen "k"). rewrite str_from_app, py_int_str. reflexivity.
Qed.

Lemma label_split k seed ci : (0 <= k)%Z -> (0 <= seed)%Z -> (0 <= ci)%Z ->
  split "-" (classifier_label k seed ci) = [str_int k; str_int seed; str_int ci].
Proof.
  intros. apply split_join; [discriminate|]. intros s [<-|[<-|[<-|[]]]]; apply str_int_no_dash; auto.
Qed.

Lemma label_round_trip k seed ci md : (0 <= k)%Z -> (0 <= seed)%Z -> (0 <= ci)%Z -> has_char "_" md = false ->
  kmeta_from_classifier_label (classifier_label k seed ci) md = Ok (kmeta_default k seed md).
Proof.
  intros Hk Hs Hc Hm. unfold kmeta_from_classifier_label. rewrite label_split by auto.
  cbn [List.length Nat.eqb py_assert bind].
  change 0%Z with (Z.of_nat 0). change 1%Z with (Z.of_nat 1). rewrite !getitem_cons_nat. cbn [nth_error bind].
  set (m := kmeta_default k seed md).
  change ("kmedoids_k" ++ str_int k ++ "_seed" ++ str_int seed ++ "_" ++ md)%string with (kmeta_repr m).
  rewrite kmeta_round_trip by auto. reflexivity.
Qed.

(* ---------- keys ---------- *)
Lemma c_repr_inj c c' :
  (forall m, c = CKmedoids m \/ c' = CKmedoids m -> has_char "_" (km_mode m) = false /\ (forall l, km_init m = Some l -> forall i, In i l -> (0 <= i)%Z)) ->
  c_repr c = c_repr c' ->
  c_name c = c_name c' /\ c_k c = c_k c' /\ c_seed c = c_seed c' /\
  (forall m m', c = CKmedoids m -> c' = CKmedoids m' -> km_mode m = km_mode m' /\ km_init m = km_init m').
Proof.
  intros H E. destruct c as [k|m], c' as [k'|m'].
  - assert (E2 : split "_" (c_repr (CRegular k)) = split "_" (c_repr (CRegular k'))) by congruence.
    rewrite !regular_split in E2. injection E2 as E2. apply str_int_inj in E2. cbn. subst. repeat split; intros; discriminate.
  - cbn in E. unfold kmeta_repr in E. destruct (km_init m'); discriminate.
  - cbn in E. unfold kmeta_repr in E. destruct (km_init m); discriminate.
  - destruct (H m (or_introl eq_refl)) as [Hm Hi]. destruct (H m' (or_intror eq_refl)) as [Hm' Hi']. cbn in E |- *.
    assert (E2 : split "_" (kmeta_repr m) = split "_" (kmeta_repr m')) by congruence.
    rewrite !kmeta_split in E2 by auto. unfold kmeta_parts in E2. cbn [app] in E2.
    injection E2 as E1 E2 E3 E4. apply str_int_inj in E1. apply str_int_inj in E2.
    repeat split; try congruence.
    + injection H0 as ->. injection H1 as ->.
      destruct (km_init m0) as [l|], (km_init m'0) as [l'|]; try discriminate; auto.
      injection E4 as E4. f_equal.
      assert (G : forall l : list Z, (forall i, In i l -> (0 <= i)%Z) -> l <> [] -> split "-" (join "-" (map str_int l)) = map str_int l).
      { intros l0 Hl Hne. apply split_join; [destruct l0; cbn; congruence|]. intros s Hs. apply in_map_iff in Hs. destruct Hs as (z & <- & Hz).
        apply str_int_no_dash. auto. }
      assert (N : forall z l0, join "-" (map str_int (z :: l0)) <> ""%string).
      { intros z l0 E0. pose proof (str_int_nonempty z) as Q. destruct l0; cbn [map join] in E0; [congruence|].
        destruct (str_int z); cbn in E0; congruence. }
      assert (P : map str_int l = map str_int l').
      { destruct l as [|z l], l' as [|z' l']; auto.
        - exfalso. cbn [map] in E4. symmetry in E4. apply N in E4. auto.
        - exfalso. apply N in E4. auto.
        - rewrite <- (G (z :: l)), <- (G (z' :: l')); try discriminate; try (intros; eauto; fail). congruence. }
      clear - P. revert l' P. induction l as [|z l IH]; intros [|z' l'] P; cbn in P; try discriminate; auto.
      injection P as P1 P2. apply str_int_inj in P1. f_equal; auto.
Qed.

(* ---------- suites ---------- *)
Definition kmk (ps : kparams) (k seed : Z) : cmeta :=
  CKmedoids (KMeta k seed (kp_mode ps) (kp_init ps) (kp_max_iter ps) (kp_tol ps) (kp_verbose ps)).
Definition seeds_of (a : seeds_arg) : list Z := match a with NoSeeds => [1%Z] | OneSeed s => [s] | ManySeeds l => l end.

Lemma suite_inner (f : Z -> cmeta) name k ps (H : forall s, factory_instance name k s ps = Ok (f s)) seeds acc :
  foldM (fun instances seed => c <- factory_instance name k seed ps ;; Ok (instances ++ [c])) seeds acc = Ok (acc ++ map f seeds).
Proof.
  revert acc. induction seeds as [|s seeds IH]; intros acc; cbn [foldM map].
  - rewrite app_nil_r. auto.
  - rewrite H. cbn [bind]. rewrite IH, <- app_assoc. reflexivity.
Qed.
Lemma suite_spec (f : Z -> Z -> cmeta) name ps (H : forall k s, factory_instance name k s ps = Ok (f k s)) ks a :
  suite_metadatas name ks a ps = Ok (flat_map (fun k => map (f k) (seeds_of a)) ks).
Proof.
  unfold suite_metadatas. fold (seeds_of a).
  enough (G : forall acc, foldM (fun instances k => foldM (fun instances seed => c <- factory_instance name k seed ps ;; Ok (instances ++ [c]))
     (seeds_of a) instances) ks acc = Ok (acc ++ flat_map (fun k => map (f k) (seeds_of a)) ks)) by apply (G []).
  induction ks as [|k ks IH]; intros acc; cbn [foldM flat_map].
  - rewrite app_nil_r. auto.
  - rewrite (suite_inner (f k)) by auto. cbn [bind]. rewrite IH, <- app_assoc. reflexivity.
Qed.

Lemma suite_bad_name name ks a ps k : (name =? "regular")%string = false -> (name =? "kmedoids")%string = false ->
  In k ks -> seeds_of a <> [] -> suite_metadatas name ks a ps = Raise ValueError.
Proof.
  intros H1 H2 Hk Hs. unfold suite_metadatas. fold (seeds_of a). destruct ks as [|k0 ks]; [destruct Hk|].
  destruct (seeds_of a) as [|s l]; [congruence|]. cbn [foldM]. unfold factory_instance at 1. rewrite H1, H2. reflexivity.
Qed.

(* sorting *)
Lemma insert_by_k_perm m l : Permutation (insert_by_k m l) (m :: l).
Proof.
  induction l as [|x l IH]; cbn; auto. destruct (_ <? _)%Z; auto. rewrite IH. constructor.
Qed.
Lemma fold_sort_perm l acc : Permutation (fold_left (fun acc m => insert_by_k m acc) l acc) (l ++ acc).
Proof.
  revert acc. induction l as [|x l IH]; intros acc; cbn; auto. rewrite IH, insert_by_k_perm. apply Permutation_sym, Permutation_middle.
Qed.
Lemma sorted_by_k_perm l : Permutation (sorted_by_k l) l.
Proof. unfold sorted_by_k. rewrite fold_sort_perm, app_nil_r. auto. Qed.

Lemma insert_sorted m l : nondecreasing (map c_k l) -> nondecreasing (map c_k (insert_by_k m l)).
Proof.
  induction l as [|x l IH].
  { cbn. intros _. split; [intros ? []|exact I]. }
  cbn. intros [H1 H2].
  destruct (Z.ltb_spec (c_k m) (c_k x)); cbn.
  - split; [|split]; auto. intros b [<-|Hb]; [lia|]. specialize (H1 b Hb). lia.
  - split; auto. intros b Hb. apply in_map_iff in Hb. destruct Hb as (y & <- & Hy).
    apply (Permutation_in _ (insert_by_k_perm m l)) in Hy. destruct Hy as [<-|Hy]; auto. apply H1. apply in_map. auto.
Qed.
Lemma sorted_by_k_sorted l : nondecreasing (map c_k (sorted_by_k l)).
Proof.
  unfold sorted_by_k. assert (H : nondecreasing (map c_k [])) by exact I. revert H. generalize (@nil cmeta).
  induction l as [|x l IH]; intros acc H; cbn; auto. apply IH. apply insert_sorted; auto.
Qed.
Lemma insert_filter z m l : nondecreasing (map c_k l) ->
  filter (fun x => (c_k x =? z)%Z) (insert_by_k m l) =
  filter (fun x => (c_k x =? z)%Z) l ++ (if (c_k m =? z)%Z then [m] else []).
Proof.
  induction l as [|x l IH]; cbn [insert_by_k map]; intros H.
  - cbn. destruct (_ =? _)%Z; auto.
  - destruct H as [H1 H2]. destruct (Z.ltb_spec (c_k m) (c_k x)).
    + cbn. destruct (Z.eqb_spec (c_k m) z).
      * destruct (Z.eqb_spec (c_k x) z); [lia|].
        assert (E : filter (fun x => (c_k x =? z)%Z) l = []).
        { destruct (filter _ l) as [|y t] eqn:E; auto. exfalso.
          assert (In y (filter (fun x => (c_k x =? z)%Z) l)) by (rewrite E; left; auto). apply filter_In in H0. destruct H0 as [Hy Hz].
          specialize (H1 (c_k y) (in_map _ _ _ Hy)). lia. }
        rewrite E. auto.
      * rewrite app_nil_r. auto.
    + cbn [filter]. rewrite (IH H2). destruct (c_k x =? z)%Z; auto.
Qed.
Lemma sorted_by_k_stable z l : filter (fun x => (c_k x =? z)%Z) (sorted_by_k l) = filter (fun x => (c_k x =? z)%Z) l.
Proof.
  unfold sorted_by_k. enough (G : forall acc, nondecreasing (map c_k acc) ->
    filter (fun x => (c_k x =? z)%Z) (fold_left (fun acc m => insert_by_k m acc) l acc) =
    filter (fun x => (c_k x =? z)%Z) acc ++ filter (fun x => (c_k x =? z)%Z) l) by (apply (G [] I)).
  induction l as [|x l IH]; intros acc H; cbn [fold_left filter].
  - rewrite app_nil_r. auto.
  - rewrite IH by (apply insert_sorted; auto). rewrite insert_filter by auto. rewrite <- app_assoc. destruct (_ =? _)%Z; auto.
Qed.
Lemma insert_last m l : (forall x, In x l -> (c_k x <= c_k m)%Z) -> insert_by_k m l = l ++ [m].
Proof.
  induction l as [|x l IH]; cbn; auto. intros H. pose proof (H x (or_introl eq_refl)).
  destruct (Z.ltb_spec (c_k m) (c_k x)); [lia|]. rewrite IH by auto. auto.
Qed.
Lemma sorted_by_k_id l : nondecreasing (map c_k l) -> sorted_by_k l = l.
Proof.
  unfold sorted_by_k. enough (G : forall acc, (forall a b, In a acc -> In b l -> (c_k a <= c_k b)%Z) -> nondecreasing (map c_k l) ->
    fold_left (fun acc m => insert_by_k m acc) l acc = acc ++ l) by (intros; apply (G []); auto; intros ? ? []).
  induction l as [|x l IH]; intros acc H HS; cbn [fold_left].
  - rewrite app_nil_r. auto.
  - destruct HS as [H1 H2]. rewrite insert_last by (intros; apply H; cbn; auto). rewrite IH; auto.
    + rewrite <- app_assoc. auto.
    + intros a b Ha Hb. apply in_app_iff in Ha. destruct Ha as [Ha|[<-|[]]]; [apply H; cbn; auto|].
      apply H1. apply in_map. auto.
Qed.

(* organise *)
Definition has_seed (s : Z) (c : cmeta) : bool := match c with CRegular _ => false | CKmedoids m => (km_seed m =? s)%Z end.
Definition seed_of (c : cmeta) : Z := match c with CRegular _ => 0%Z | CKmedoids m => km_seed m end.
Definition is_km (c : cmeta) : bool := match c with CRegular _ => false | CKmedoids _ => true end.

Lemma distinct_In x l : In x (distinct l) <-> In x l.
Proof.
  induction l as [|a l IH]; cbn; [tauto|]. rewrite filter_In, IH. destruct (Z.eq_dec x a) as [->|]; [tauto|].
  split; [tauto|]. intros [?|?]; [tauto|]. right. split; auto. apply negb_true_iff. apply Z.eqb_neq. auto.
Qed.
Lemma distinct_NoDup l : NoDup (distinct l).
Proof.
  induction l as [|a l IH]; cbn; constructor.
  - rewrite filter_In. rewrite Z.eqb_refl. intros [_ ?]. discriminate.
  - apply NoDup_filter. auto.
Qed.
Lemma filter_snoc {A} (f : A -> bool) l a : filter f (l ++ [a]) = filter f l ++ (if f a then [a] else []).
Proof. induction l as [|b l IH]; cbn; [destruct (f a); auto|]. rewrite IH. destruct (f b); auto. Qed.
Lemma distinct_snoc l a : distinct (l ++ [a]) = distinct l ++ (if existsb (Z.eqb a) l then [] else [a]).
Proof.
  induction l as [|b l IH]; cbn [app distinct existsb]; auto.
  rewrite IH. destruct (existsb (Z.eqb a) l) eqn:E.
  - rewrite orb_true_r, app_nil_r. rewrite app_nil_r. auto.
  - rewrite orb_false_r. rewrite filter_snoc. destruct (Z.eqb_spec a b); cbn; rewrite ?app_nil_r; auto.
Qed.
Lemma distinct_id l : NoDup l -> distinct l = l.
Proof.
  induction l as [|a l IH]; cbn; auto. intros H. inversion H as [|? ? Hn HN]; subst. rewrite IH by auto. f_equal.
  apply filter_all. intros x Hx. apply negb_true_iff, Z.eqb_neq. congruence.
Qed.

Definition org_step (d : list (Z * list cmeta)) (m : cmeta) : res (list (Z * list cmeta)) :=
  seed <- c_seed m ;;
  let d := if dict_in Z.eqb seed d then d else dict_set Z.eqb seed [] d in
  l <- dict_get Z.eqb seed d ;;
  Ok (dict_set Z.eqb seed (l ++ [m])%list d).

Lemma assoc_map_get {B} (F : Z -> B) S s : In s S -> dict_get Z.eqb s (map (fun s => (s, F s)) S) = Ok (F s).
Proof.
  induction S as [|a S IH]; cbn; [tauto|]. destruct (Z.eqb_spec a s) as [->|]; auto. intros [?|?]; [congruence|auto].
Qed.
Lemma assoc_map_in {B} (F : Z -> B) S s : dict_in Z.eqb s (map (fun s => (s, F s)) S) = existsb (Z.eqb s) S.
Proof.
  unfold dict_in. induction S as [|a S IH]; cbn; auto. rewrite IH. f_equal. apply Z.eqb_sym.
Qed.
Lemma assoc_map_set {B} (F G : Z -> B) S s v : In s S -> NoDup S -> G s = v -> (forall t, t <> s -> G t = F t) ->
  dict_set Z.eqb s v (map (fun s => (s, F s)) S) = map (fun s => (s, G s)) S.
Proof.
  intros Hs HN Hv HG. induction S as [|a S IH]; cbn; [destruct Hs|]. inversion HN as [|? ? Hn HN']; subst.
  destruct (Z.eqb_spec a s) as [->|Ha].
  - f_equal. apply map_ext_in. intros t Ht. rewrite HG; auto. intros ->. auto.
  - rewrite (HG a) by auto. destruct Hs as [?|Hs]; [congruence|]. rewrite IH by auto. auto.
Qed.

Lemma existsb_In x l : existsb (Z.eqb x) l = true <-> In x l.
Proof.
  rewrite existsb_exists. split; [intros (y & Hy & E); apply Z.eqb_eq in E; congruence|]. intros H. exists x. split; auto. apply Z.eqb_refl.
Qed.

Definition grouped (l : list cmeta) : list (Z * list cmeta) := map (fun s => (s, filter (has_seed s) l)) (distinct (map seed_of l)).

Lemma org_step_spec l m : is_km m = true -> org_step (grouped l) m = Ok (grouped (l ++ [m])).
Proof.
  intros Hm. destruct m as [k|m]; [discriminate|]. unfold org_step. cbn [c_seed bind].
  set (s := km_seed m).
  unfold grouped. rewrite !assoc_map_in.
  assert (E : existsb (Z.eqb s) (distinct (map seed_of l)) = existsb (Z.eqb s) (map seed_of l)).
  { apply eq_true_iff_eq. rewrite !existsb_In, distinct_In. tauto. }
  rewrite !E. rewrite map_app. cbn [map]. rewrite distinct_snoc. change (seed_of (CKmedoids m)) with s.
  set (G := fun t : Z => (t, filter (has_seed t) (l ++ [CKmedoids m]))).
  assert (GE : forall t, snd (G t) = filter (has_seed t) l ++ (if (s =? t)%Z then [CKmedoids m] else [])).
  { intros t. unfold G. cbn [snd]. rewrite filter_snoc. reflexivity. }
  destruct (existsb (Z.eqb s) (map seed_of l)) eqn:X.
  - rewrite app_nil_r. apply existsb_In in X. rewrite (assoc_map_get (fun s => filter (has_seed s) l)) by (apply distinct_In; auto).
    cbn [bind]. f_equal. apply (assoc_map_set _ (fun t => snd (G t))).
    + apply distinct_In. auto.
    + apply distinct_NoDup.
    + rewrite GE, Z.eqb_refl. auto.
    + intros t Ht. rewrite GE. destruct (Z.eqb_spec s t); [congruence|]. rewrite app_nil_r. auto.
  - assert (Hin : dict_in Z.eqb s (map (fun s0 => (s0, filter (has_seed s0) l)) (distinct (map seed_of l))) = false)
      by (rewrite assoc_map_in, E; auto).
    rewrite dict_set_fresh by auto.
    assert (F0 : filter (has_seed s) l = []).
    { destruct (filter (has_seed s) l) as [|y t] eqn:Y; auto. exfalso.
      assert (Hy : In y (filter (has_seed s) l)) by (rewrite Y; left; auto). apply filter_In in Hy. destruct Hy as [Hy Hs].
      enough (existsb (Z.eqb s) (map seed_of l) = true) by congruence. apply existsb_In.
      apply in_map_iff. exists y. split; auto. destruct y; cbn in *; [discriminate|]. lia. }
    rewrite map_app. cbn [map].
    assert (EG : map (fun s0 => (s0, filter (has_seed s0) l)) (distinct (map seed_of l)) =
                 map (fun t => (t, snd (G t))) (distinct (map seed_of l))).
    { apply map_ext_in. intros t Ht. rewrite GE. destruct (Z.eqb_spec s t) as [<-|]; [|rewrite app_nil_r; auto].
      exfalso. rewrite distinct_In, <- existsb_In in Ht. congruence. }
    replace (dict_get Z.eqb s (map (fun s0 => (s0, filter (has_seed s0) l)) (distinct (map seed_of l)) ++ [(s, [])])) with (@Ok (list cmeta) []).
    + cbn [bind app]. rewrite dict_set_app_r by auto. cbn [dict_set]. rewrite Z.eqb_refl. rewrite EG.
      f_equal. f_equal. unfold G. rewrite filter_snoc, F0. cbn [has_seed]. fold s. rewrite Z.eqb_refl. reflexivity.
    + rewrite <- (dict_set_fresh Z.eqb s []) by auto. rewrite dict_get_set by apply Z_key. rewrite Z.eqb_refl. auto.
Qed.

Lemma org_fold l : forallb is_km l = true -> foldM org_step l [] = Ok (grouped l).
Proof.
  induction l as [|m l IH] using rev_ind; intros H; auto.
  rewrite forallb_app in H. apply andb_true_iff in H. destruct H as [H1 H2]. cbn in H2. rewrite andb_true_r in H2.
  rewrite foldM_app, IH by auto. cbn [bind foldM]. rewrite org_step_spec by auto. reflexivity.
Qed.

Lemma resort_spec d (HN : NoDup (map fst d)) :
  fold_left (fun d '(seed, l) => dict_set Z.eqb seed (sorted_by_k l) d) d [] = map (fun '(s, l) => (s, sorted_by_k l)) d.
Proof.
  enough (G : forall acc, (forall s, In s (map fst d) -> dict_in Z.eqb s acc = false) ->
    fold_left (fun d '(seed, l) => dict_set Z.eqb seed (sorted_by_k l) d) d acc = acc ++ map (fun '(s, l) => (s, sorted_by_k l)) d)
    by (apply (G []); auto).
  induction d as [|[s l] d IH]; intros acc H; cbn [fold_left map].
  - rewrite app_nil_r. auto.
  - cbn [map fst] in HN. inversion HN as [|? ? Hn HN']; subst. rewrite IH; auto.
    + rewrite dict_set_fresh by (apply H; cbn; auto). rewrite <- app_assoc. reflexivity.
    + intros s' Hs'. rewrite dict_in_set by apply Z_key. rewrite H by (cbn; auto). rewrite orb_false_r. apply Z.eqb_neq. congruence.
Qed.

Lemma organize_spec l : forallb is_km l = true ->
  organize_kmedoids_suite l = Ok (map (fun s => (s, sorted_by_k (filter (has_seed s) l))) (distinct (map seed_of l))).
Proof.
  intros H. unfold organize_kmedoids_suite. fold org_step. change (foldM (fun d m => _) l []) with (foldM org_step l []). rewrite org_fold by auto. cbn [bind]. f_equal.
  rewrite resort_spec.
  - unfold grouped. rewrite map_map. auto.
  - unfold grouped. rewrite map_map. cbn. rewrite map_id. apply distinct_NoDup.
Qed.
Lemma organize_regular l1 k l2 : forallb is_km l1 = true -> organize_kmedoids_suite (l1 ++ CRegular k :: l2) = Raise AttributeError.
Proof.
  intros H. unfold organize_kmedoids_suite. change (foldM (fun d m => _) ?x []) with (foldM org_step x []). rewrite foldM_app, org_fold by auto. reflexivity.
Qed.
