(** Facts about density-based clusterings. *)
From Coq Require Import String Lia.
From Verif Require Import Base.Py Base.PyFacts Base.Str Base.StrFacts Base.Arr Base.ArrFacts Base.Float Base.FloatFacts Model.Region Model.Distance Model.Clustering Model.SolverFiles
  Model.PartitionAnalysis Model.Dbscan Spec.Grid Spec.Partition Spec.Distance Spec.Dbscan Proofs.RegionFacts Proofs.PartitionFacts Proofs.DistanceFacts Proofs.VarianceFacts
  Proofs.ClusteringFacts Props.Basics.
From Coq Require Import ZifyBool ZifyNat.
Local Notation length := List.length.
Local Open Scope nat_scope.

(* ---------- different labels ---------- *)

Lemma distinct_in : forall l v, In v (distinct l) <-> In v l.
Proof.
  induction l as [ | a l IH ]; intros v; cbn [distinct]; [ tauto | ]. destruct (existsb (Z.eqb a) l) eqn:E.
  - rewrite IH. cbn. split; [ auto | intros [ <- | H ]; auto ]. apply existsb_exists in E. destruct E as (b & Hb & E). apply Z.eqb_eq in E. subst b. exact Hb.
  - cbn. rewrite IH. tauto.
Qed.
Lemma distinct_nodup : forall l, NoDup (distinct l).
Proof.
  induction l as [ | a l IH ]; cbn [distinct]; [ constructor | ]. destruct (existsb (Z.eqb a) l) eqn:E; [ exact IH | ]. constructor; [ | exact IH ].
  rewrite distinct_in. intros H. rewrite <- Bool.not_true_iff_false in E. apply E, existsb_exists. exists a. split; [ exact H | apply Z.eqb_refl ].
Qed.

Lemma zrange_in : forall a b v, In v (zrange a b) <-> (a <= v < b)%Z.
Proof.
  intros a b v. unfold zrange. rewrite in_map_iff. split.
  - intros (i & <- & Hi). apply in_seq in Hi. lia.
  - intros H. exists (Z.to_nat (v - a)). split; [ lia | ]. apply in_seq. lia.
Qed.
Lemma zrange_nodup : forall a b, NoDup (zrange a b).
Proof. intros a b. unfold zrange. apply FinFun.Injective_map_NoDup; [ intros i j E; lia | apply seq_NoDup ]. Qed.
Lemma zrange_len : forall a b, length (zrange a b) = Z.to_nat (b - a).
Proof. intros. unfold zrange. rewrite map_length, seq_length. reflexivity. Qed.

(** the labels are all the integers from a to b-1 *)
Lemma distinct_range : forall l a b, (forall v, In v l <-> a <= v < b)%Z -> length (distinct l) = Z.to_nat (b - a).
Proof.
  intros l a b H. rewrite <- zrange_len. apply Nat.le_antisymm; apply NoDup_incl_length; auto using distinct_nodup, zrange_nodup; intros v Hv.
  - apply zrange_in, H, distinct_in, Hv.
  - apply distinct_in, H, zrange_in, Hv.
Qed.

(* ---------- density ---------- *)

Definition nearb (D : mat) (i j : nat) : bool := match entry D i j with Some d => fle d (Fin (7 # 10)) | None => false end.
Lemma nearb_spec : forall n D i j, near n D i j <-> j < n /\ nearb D i j = true.
Proof.
  intros n D i j. unfold near, nearb. destruct (entry D i j) as [ d | ].
  - split; [ intros (H & d' & E & F); injection E as <-; auto | intros [ H F ]; split; [ exact H | ]; exists d; auto ].
  - split; [ intros (_ & d & E & _); discriminate | intros [ _ E ]; discriminate ].
Qed.

Lemma core_count : forall n D i, core n D i <-> 5 <= length (filter (nearb D i) (seq 0 n)).
Proof.
  intros n D i. split.
  - intros (js & Hn & Hl & H). rewrite <- Hl. apply NoDup_incl_length; [ exact Hn | ]. intros j Hj. apply H, nearb_spec in Hj. apply filter_In. split; [ apply in_seq; lia | tauto ].
  - intros H. exists (firstn 5 (filter (nearb D i) (seq 0 n))). split; [ | split ].
    + set (f := filter _ _) in *. assert (Hnd : NoDup f) by (apply NoDup_filter, seq_NoDup). rewrite <- (firstn_skipn 5 f) in Hnd. revert Hnd. generalize (firstn 5 f) as u, (skipn 5 f) as v.
      intros u v. induction u as [ | a u IH ]; cbn; intros Hnd; [ constructor | ]. inversion Hnd; subst. constructor; [ | auto ]. intros Hin. apply H2, in_app_iff. auto.
    + rewrite firstn_length. lia.
    + intros j Hj. assert (In j (filter (nearb D i) (seq 0 n))) as Hin by (rewrite <- (firstn_skipn 5); apply in_app_iff; auto).
      apply filter_In in Hin. destruct Hin as [ Hin E ]. apply in_seq in Hin. apply nearb_spec. split; [ lia | exact E ].
Qed.
Lemma core_dec : forall n D i, {core n D i} + {~ core n D i}.
Proof. intros n D i. destruct (le_dec 5 (length (filter (nearb D i) (seq 0 n)))) as [ H | H ]; [ left | right ]; rewrite core_count; exact H. Qed.
Lemma near_core_dec : forall n D i, (exists j, j < n /\ core n D j /\ near n D j i) \/ (forall j, j < n -> core n D j -> ~ near n D j i).
Proof.
  intros n D i. assert (H : forall k, (exists j, j < k /\ core n D j /\ near n D j i) \/ (forall j, j < k -> core n D j -> ~ near n D j i)); [ | apply H ].
  induction k as [ | k [ (j & Hj & H) | IH ] ].
  - right. intros j Hj. lia.
  - left. exists j. split; [ lia | exact H ].
  - destruct (core_dec n D k) as [ Hc | Hc ].
    + assert (Hd : {near n D k i} + {~ near n D k i}).
      { destruct (lt_dec i n) as [ Hi | Hi ]; [ | right; intros [ A _ ]; lia ]. destruct (nearb D k i) eqn:E; [ left; apply nearb_spec; auto | right; rewrite nearb_spec; intros [ _ A ]; congruence ]. }
      destruct Hd as [ Hn | Hn ].
      * left. exists k. split; [ lia | ]. auto.
      * right. intros j Hj Hcj. destruct (Nat.eq_dec j k) as [ -> | ]; [ exact Hn | apply IH; [ lia | exact Hcj ] ].
    + right. intros j Hj Hcj. destruct (Nat.eq_dec j k) as [ -> | ]; [ contradiction | apply IH; [ lia | exact Hcj ] ].
Qed.

(* ---------- the partition of the labels ---------- *)

Lemma index_of_nats : forall x y pt, in_grid x y pt -> exists i j, i < x /\ j < y /\ pt = (Z.of_nat i, Z.of_nat j) /\ index_of y pt = i * y + j.
Proof.
  intros x y [ a b ] [ [ A1 A2 ] [ B1 B2 ] ]. cbn [fst snd] in *. exists (Z.to_nat a), (Z.to_nat b). rewrite !Z2Nat.id by lia. repeat split; lia.
Qed.

Lemma from_density_labels : forall x y D labels, 0 < x * y -> dbscan_labels (x * y) D labels ->
  exists p, from_membership_array (map (Z.add 1) labels) x y = Ok p /\ density_partition x y D p /\
    (forall pt, in_grid x y pt -> exists v, nth_error labels (index_of y pt) = Some v /\ label_at p pt (1 + v)%Z) /\
    length (filter (Z.eqb (-1)) labels) = cluster_len p 0 /\
    Z.of_nat (length (distinct labels)) = (pk p - (if (cluster_len p 0 =? 0)%nat then 1 else 0))%Z.
Proof.
  intros x y D labels Hpos (Hlen & Hmin & Hdown & Hcore & Hsame & Hborder & Hnoise).
  destruct (C85_from_labels (map (Z.add 1) labels) x y) as [ HF _ ].
  destruct HF as (p & mx & Ep & Imx & Hmx & Hpk & Hlab & Hvp).
  { intros E. apply (f_equal (@length Z)) in E. rewrite map_length in E. cbn in E. lia. }
  { rewrite map_length. exact Hlen. }
  assert (HV : valid_partition p x y). { apply Hvp. intros v Hv. apply in_map_iff in Hv. destruct Hv as (l & <- & Hl). specialize (Hmin l Hl). lia. }
  assert (Hat : forall pt, in_grid x y pt -> exists v, nth_error labels (index_of y pt) = Some v /\ label_at p pt (1 + v)%Z).
  { intros pt Hg. destruct (index_of_nats _ _ _ Hg) as (i & j & Hi & Hj & -> & ->). destruct (Hlab i j Hi Hj) as (v & Ev & Lv).
    rewrite nth_error_map in Ev. destruct (nth_error labels (i * y + j)) as [ w | ]; [ | discriminate ]. injection Ev as <-. exists w. auto. }
  assert (Hidx : forall pt, in_grid x y pt -> index_of y pt < x * y) by (intros pt Hg; apply index_of_encode, Hg).
  assert (Hdec : forall j, j < x * y -> in_grid x y (decode y j) /\ index_of y (decode y j) = j) by (intros j Hj; split; [ apply decode_in_grid, Hj | apply (index_of_decode x), Hj ]).
  assert (Hfun : forall pt a b, label_at p pt a -> label_at p pt b -> a = b) by (unfold label_at; intros; congruence).
  exists p. split; [ exact Ep | ]. split; [ | split; [ exact Hat | ] ].
  - split; [ exact HV | ]. split; [ | split; [ | split ] ].
    + intros pt Hg. destruct (Hat pt Hg) as (v & Ev & Lv). pose proof (Hidx pt Hg) as Hi. split.
      * intros L0. assert (v = -1)%Z as -> by (specialize (Hfun _ _ _ L0 Lv); lia). clear L0.
        assert (Hnc : ~ core (x * y) D (index_of y pt)). { intros Hc. destruct (Hcore _ Hi Hc) as (l & El & Hl). rewrite Ev in El. injection El as <-. lia. }
        split; [ exact Hnc | ]. intros q Hq Hcq Hn. destruct (Hborder _ Hi Hnc) as (j & Hj & Hcj & _ & Ej).
        { exists (index_of y q). auto. }
        destruct (Hcore _ Hj Hcj) as (l & El & Hl). rewrite Ev, El in Ej. injection Ej as <-. lia.
      * intros [ Hnc Hnn ]. rewrite (Hnoise _ Hi Hnc) in Ev.
        -- injection Ev as <-. exact Lv.
        -- intros j Hj Hcj. destruct (Hdec j Hj) as [ Gj Ej ]. rewrite <- Ej in Hcj |- *. apply Hnn; assumption.
    + intros q pt Hq Hp Cq Cp. rewrite <- Hsame by auto. destruct (Hat q Hq) as (v & Ev & Lv), (Hat pt Hp) as (w & Ew & Lw). rewrite Ev, Ew. split.
      * intros (l & L1 & L2). f_equal. pose proof (Hfun _ _ _ L1 Lv). pose proof (Hfun _ _ _ L2 Lw). lia.
      * intros E. injection E as <-. exists (1 + v)%Z. auto.
    + intros pt l Hg Hnc Hl Hl0. destruct (Hat pt Hg) as (v & Ev & Lv). pose proof (Hidx pt Hg) as Hi. pose proof (Hfun _ _ _ Hl Lv) as ->.
      destruct (near_core_dec (x * y) D (index_of y pt)) as [ Hn | Hn ].
      * destruct (Hborder _ Hi Hnc Hn) as (j & Hj & Hcj & Hnj & Ej). destruct (Hdec j Hj) as [ Gj Ij ]. exists (decode y j). rewrite Ij. split; [ exact Gj | ]. split; [ exact Hcj | ]. split; [ exact Hnj | ].
        destruct (Hat _ Gj) as (w & Ew & Lw). rewrite Ij in Ew. rewrite Ev, Ew in Ej. injection Ej as <-. exact Lw.
      * rewrite (Hnoise _ Hi Hnc Hn) in Ev. injection Ev as <-. lia.
    + intros l Hl. apply in_map_iff in Imx. destruct Imx as (m & <- & Im).
      assert (Hin : In (l - 1)%Z labels) by (apply (Hdown m); [ exact Im | lia ]). apply In_nth_error in Hin. destruct Hin as [ j Ej ].
      assert (Hj : j < x * y) by (rewrite <- Hlen; apply nth_error_Some; congruence). destruct (Hdec j Hj) as [ Gj Ij ]. exists (decode y j). split; [ exact Gj | ].
      destruct (Hat _ Gj) as (w & Ew & Lw). rewrite Ij, Ej in Ew. injection Ew as <-. replace l with (1 + (l - 1))%Z by lia. exact Lw.
  - assert (Hcl : length (filter (Z.eqb (-1)) labels) = cluster_len p 0).
    { unfold cluster_len. assert (a2d (Region.labels p) = map (Z.add 1) labels) as ->.
      { unfold from_membership_array in Ep. destruct (np_max_int _) eqn:E1; [ | discriminate ]. cbn [bind] in Ep. unfold reshape2 in Ep. destruct (_ =? _)%nat; [ | discriminate ].
        cbn [bind] in Ep. unfold mk_crisp in Ep. cbn [a2d] in Ep. rewrite E1 in Ep. cbn [bind] in Ep. rewrite Z.eqb_refl in Ep. cbn [py_assert bind] in Ep. injection Ep as <-. reflexivity. }
      clear. induction labels as [ | v l IH ]; [ reflexivity | ]. cbn [filter map]. destruct (Z.eqb_spec (-1) v), (Z.eqb_spec (1 + v) 0); try lia; cbn [length]; auto. }
    split; [ exact Hcl | ]. rewrite <- Hcl. apply in_map_iff in Imx. destruct Imx as (m & <- & Im).
    assert (Hmax : forall v, In v labels -> (v <= m)%Z) by (intros v Hv; specialize (Hmx (1 + v)%Z ltac:(apply in_map; exact Hv)); lia).
    pose proof (Hmin m Im) as Hm1. destruct (filter (Z.eqb (-1)) labels) as [ | z rest ] eqn:Ef; cbn [length Nat.eqb].
    + rewrite (distinct_range labels 0 (m + 1)); [ | intros v; split ].
      * assert (In (-1)%Z labels -> False). { intros H. assert (In (-1)%Z (filter (Z.eqb (-1)) labels)) as A by (apply filter_In; auto). rewrite Ef in A. exact A. }
        assert (m <> -1)%Z by (intros ->; auto). lia.
      * intros Hv. specialize (Hmax v Hv). specialize (Hmin v Hv). assert (v <> -1)%Z; [ | lia ].
        intros ->. assert (In (-1)%Z (filter (Z.eqb (-1)) labels)) as A by (apply filter_In; auto). rewrite Ef in A. exact A.
      * intros Hv. apply (Hdown m); [ exact Im | lia ].
    + rewrite (distinct_range labels (-1) (m + 1)); [ lia | intros v; split ].
      * intros Hv. specialize (Hmax v Hv). specialize (Hmin v Hv). lia.
      * intros Hv. destruct (Z.eq_dec v (-1)) as [ -> | ]; [ | apply (Hdown m); [ exact Im | lia ] ].
        assert (In z (filter (Z.eqb (-1)) labels)) as A by (rewrite Ef; left; reflexivity). apply filter_In in A. destruct A as [ A B ]. apply Z.eqb_eq in B. subst z. exact A.
Qed.

(* ---------- names ---------- *)

Lemma dbscan_split k : split "_" (dbscan_repr k) = ["dbscan"%string; ("k" ++ str_int k)%string].
Proof.
  change (dbscan_repr k) with (join "_" ["dbscan"; "k" ++ str_int k])%string.
  apply split_join; [ discriminate | ]. intros s [ <- | [ <- | [] ] ]; auto.
  rewrite has_char_app. rewrite str_int_no_char by (auto; discriminate). auto.
Qed.
Lemma dbscan_round_trip k : dbscan_from_repr (dbscan_repr k) = Ok k.
Proof.
  unfold dbscan_from_repr. rewrite dbscan_split. change 0%Z with (Z.of_nat 0). change 1%Z with (Z.of_nat 1). rewrite !getitem_cons_nat. cbn [nth_error bind].
  rewrite String.eqb_refl. cbn [py_assert bind]. change 1 with (slen "k"). rewrite str_from_app, py_int_str. reflexivity.
Qed.
