(** Iteration over regions and clusters. *)
From Coq Require Import ZifyBool ZifyNat.
From Verif Require Import Base.Py Base.PyFacts Base.Arr Base.ArrFacts Spec.Grid Model.Region.

(* ---------- the grid ---------- *)
Definition decode (y n : nat) : point := (Z.of_nat (n / y), Z.of_nat (n mod y)).

Lemma grid_length x y : length (grid x y) = x * y.
Proof.
  unfold grid. rewrite flat_map_const_length with (w := y).
  - rewrite seq_length; auto.
  - intros i _. rewrite map_length, seq_length; auto.
Qed.

Lemma nth_error_grid x y n : n < x * y -> nth_error (grid x y) n = Some (decode y n).
Proof.
  intros H. assert (y <> 0) by (intros ->; lia).
  rewrite <- (flat_recompose y n) at 1 by auto.
  unfold grid. rewrite nth_error_flat_map_const with (x := n / y).
  - rewrite nth_error_map, nth_error_seq.
    pose proof (flat_mod_lt x y n H). replace (n mod y <? y)%nat with true by lia. reflexivity.
  - intros i _. rewrite map_length, seq_length; auto.
  - rewrite nth_error_seq. pose proof (flat_div_lt x y n H).
    replace (n / y <? x)%nat with true by lia. reflexivity.
  - apply flat_mod_lt with x; auto.
Qed.

Lemma grid_decode x y : grid x y = map (decode y) (seq 0 (x * y)).
Proof.
  apply list_ext_len.
  - rewrite grid_length, map_length, seq_length; auto.
  - intros n Hn. rewrite grid_length in Hn. rewrite nth_error_grid by auto.
    rewrite nth_error_map, nth_error_seq. replace (n <? x * y)%nat with true by lia. reflexivity.
Qed.

Lemma in_grid_iff x y p : In p (grid x y) <-> in_grid x y p.
Proof.
  unfold grid, in_grid. rewrite in_flat_map. split.
  - intros (i & Hi & Hp). apply in_map_iff in Hp. destruct Hp as (j & <- & Hj).
    apply in_seq in Hi, Hj. cbn; lia.
  - destruct p as [a b]; cbn. intros [Ha Hb]. exists (Z.to_nat a). split; [apply in_seq; lia|].
    apply in_map_iff. exists (Z.to_nat b). split; [f_equal; lia|apply in_seq; lia].
Qed.

Lemma decode_inj x y n m : n < x * y -> m < x * y -> decode y n = decode y m -> n = m.
Proof.
  intros Hn Hm E. unfold decode in E. injection E as E1 E2.
  assert (y <> 0) by (intros ->; lia).
  rewrite <- (flat_recompose y n), <- (flat_recompose y m) by auto. lia.
Qed.

Lemma decode_in_grid x y n : n < x * y -> in_grid x y (decode y n).
Proof.
  intros H. unfold in_grid, decode; cbn [fst snd].
  pose proof (flat_div_lt x y n H) as H1. pose proof (flat_mod_lt x y n H) as H2.
  set (a := n / y) in *. set (b := n mod y) in *. clearbody a b. lia.
Qed.

Lemma nodup_map_inj_in {A B} (f : A -> B) l :
  (forall x y, In x l -> In y l -> f x = f y -> x = y) -> NoDup l -> NoDup (map f l).
Proof.
  intros Hinj Hnd; induction Hnd as [|x l Hx Hnd IH]; cbn; constructor.
  - intros Hin. apply in_map_iff in Hin. destruct Hin as (y & E & Hy).
    apply Hinj in E; [|right; auto|left; auto]. subst; auto.
  - apply IH. intros; apply Hinj; auto; right; auto.
Qed.

Lemma grid_nodup x y : NoDup (grid x y).
Proof.
  rewrite grid_decode. apply nodup_map_inj_in; [|apply seq_NoDup].
  intros n m Hn Hm E. apply in_seq in Hn, Hm. apply (decode_inj x y); auto; lia.
Qed.

(** points from counter [idx] on *)
Definition grid_from (x y idx : nat) : list point := map (decode y) (seq idx (x * y - idx)).

Lemma grid_from_0 x y : grid_from x y 0 = grid x y.
Proof. unfold grid_from. rewrite grid_decode, Nat.sub_0_r; auto. Qed.

Lemma skipn_seq' n s m : skipn n (seq s m) = seq (s + n) (m - n).
Proof.
  apply list_ext_len; [rewrite skipn_length, !seq_length; auto|].
  intros k Hk. rewrite skipn_length, seq_length in Hk.
  rewrite nth_error_skipn, !nth_error_seq.
  replace (n + k <? m)%nat with true by lia. replace (k <? m - n)%nat with true by lia. f_equal; lia.
Qed.

Lemma grid_from_skipn x y idx : grid_from x y idx = skipn idx (grid x y).
Proof. unfold grid_from. rewrite grid_decode, skipn_map, skipn_seq'. reflexivity. Qed.

Lemma grid_from_end x y idx : x * y <= idx -> grid_from x y idx = [].
Proof. intros H; unfold grid_from. replace (x * y - idx) with 0 by lia; reflexivity. Qed.

Lemma grid_from_step x y idx : idx < x * y -> grid_from x y idx = decode y idx :: grid_from x y (S idx).
Proof.
  intros H; unfold grid_from. replace (x * y - idx) with (S (x * y - S idx)) by lia. reflexivity.
Qed.

Lemma base_next_end x y idx : x * y <= idx -> base_next x y idx = (0, None).
Proof. intros H; unfold base_next. replace (y * x <=? idx)%nat with true by lia. reflexivity. Qed.

Lemma base_next_step x y idx : idx < x * y -> base_next x y idx = (S idx, Some (decode y idx)).
Proof. intros H; unfold base_next. replace (y * x <=? idx)%nat with false by lia. reflexivity. Qed.

(* ---------- generic loop over members ---------- *)
Section MemberLoop.
  Context {A : Type} (mem : point -> res bool) (memb : point -> bool) (value : point -> res A)
          (val : point -> A) (x y : nat).
  Hypothesis Hmem : forall p, in_grid x y p -> mem p = Ok (memb p).
  Hypothesis Hval : forall p, in_grid x y p -> memb p = true -> value p = Ok (val p).

  Lemma member_next_spec fuel idx :
    x * y - idx < fuel ->
    match filter memb (grid_from x y idx) with
    | [] => member_next mem x y fuel idx = (0, Ok None)
    | p :: ps => exists idx', member_next mem x y fuel idx = (idx', Ok (Some p)) /\
                 ps = filter memb (grid_from x y idx') /\ idx < idx' <= x * y /\ in_grid x y p /\ memb p = true
    end.
  Proof.
    revert idx; induction fuel as [|fuel IH]; intros idx Hf; [lia|].
    destruct (Nat.lt_ge_cases idx (x * y)) as [Hlt|Hge].
    - rewrite grid_from_step by auto. cbn [filter member_next].
      rewrite base_next_step by auto.
      pose proof (decode_in_grid x y idx Hlt) as Hg. rewrite (Hmem _ Hg).
      destruct (memb (decode y idx)) eqn:Em.
      + exists (S idx). repeat split; auto; apply Hg.
      + specialize (IH (S idx) ltac:(lia)).
        destruct (filter memb (grid_from x y (S idx))) as [|p ps]; auto.
        destruct IH as (idx' & E & Eps & Hi & Hp). exists idx'. split; [auto|]. split; [auto|]. split; [lia|auto].
    - rewrite grid_from_end by auto. cbn. rewrite base_next_end by auto. reflexivity.
  Qed.

  Lemma run_for_member fuel idx :
    x * y - idx < fuel ->
    run_for (fun i => with_value value (member_next mem x y (S (x * y)) i)) fuel idx
    = (0, Ok (map (fun p => (p, val p)) (filter memb (grid_from x y idx)))).
  Proof.
    revert idx; induction fuel as [|fuel IH]; intros idx Hf; [lia|].
    cbn [run_for].
    pose proof (member_next_spec (S (x * y)) idx ltac:(lia)) as Hn.
    destruct (filter memb (grid_from x y idx)) as [|p ps] eqn:Ef.
    - rewrite Hn. reflexivity.
    - destruct Hn as (idx' & E & Eps & Hi & Hg & Hm). rewrite E. cbn [with_value].
      rewrite (Hval p Hg Hm). rewrite IH by lia. rewrite <- Eps. reflexivity.
  Qed.
End MemberLoop.

Lemma member_next_true x y fuel idx :
  0 < fuel -> member_next (fun _ => Ok true) x y fuel idx = lift_next (base_next x y idx).
Proof.
  intros H; destruct fuel; [lia|]. cbn. destruct (base_next x y idx) as [i [p|]]; reflexivity.
Qed.

Lemma run_for_ext {S I} (n1 n2 : S -> S * res (option I)) fuel s :
  (forall s, n1 s = n2 s) -> run_for n1 fuel s = run_for n2 fuel s.
Proof.
  intros H; revert s; induction fuel as [|fuel IH]; intros s; cbn; auto.
  rewrite H. destruct (n2 s) as [s' [[i|]|e]]; auto. rewrite IH; auto.
Qed.

Lemma base_for_spec x y idx : base_for x y idx = (0, Ok (skipn idx (grid x y))).
Proof.
  unfold base_for. rewrite <- grid_from_skipn.
  assert (G : forall fuel idx, x * y - idx < fuel ->
     run_for (fun i => lift_next (base_next x y i)) fuel idx = (0, Ok (grid_from x y idx))).
  { clear. induction fuel as [|fuel IH]; intros idx Hf; [lia|]. cbn [run_for].
    destruct (Nat.lt_ge_cases idx (x * y)) as [Hlt|Hge].
    - rewrite base_next_step by auto. cbn [lift_next fst snd]. rewrite IH by lia.
      rewrite (grid_from_step x y idx) by auto. reflexivity.
    - rewrite base_next_end, grid_from_end by auto. reflexivity. }
  apply G; lia.
Qed.

Lemma base_for_break_spec x y idx m :
  idx + m <= x * y ->
  base_for_break x y idx m = (idx + m, Ok (firstn m (skipn idx (grid x y)))).
Proof.
  unfold base_for_break. revert idx; induction m as [|m IH]; intros idx H.
  - cbn. rewrite Nat.add_0_r; reflexivity.
  - cbn [run_for_break]. rewrite base_next_step by lia. cbn [lift_next fst snd].
    rewrite IH by lia. rewrite <- !grid_from_skipn. rewrite (grid_from_step x y idx) by lia.
    cbn [firstn]. rewrite <- plus_n_Sm. reflexivity.
Qed.

(* ---------- well-formed regions ---------- *)
Definition wf_crisp (p : crisp) : Prop := wf2 (labels p).

(** a region object with consistent shapes, as the constructors of the code build them *)
Fixpoint swf {A} (r : sregion A) : Prop :=
  match r with
  | SPlain d => wf2 d
  | SCluster r' p c => swf r' /\ wf2 (labels p) /\ a2x (labels p) = s_x r' /\ a2y (labels p) = s_y r'
  end.
Fixpoint twf {A} (r : stregion A) : Prop :=
  match r with
  | TPlain d => wf3 d
  | TCluster r' p c => twf r' /\ wf2 (labels p) /\ a2x (labels p) = t_x r' /\ a2y (labels p) = t_y r'
  | TScaled r' mn mx => twf r' /\ swf mn /\ swf mx /\ s_x mn = t_x r' /\ s_y mn = t_y r' /\
                        s_x mx = t_x r' /\ s_y mx = t_y r'
  end.

Lemma swf_data {A} (r : sregion A) : swf r -> wf2 (s_data r).
Proof. induction r; cbn; tauto. Qed.
Lemma twf_data {A} (r : stregion A) : twf r -> wf3 (t_data r).
Proof. induction r; cbn; tauto. Qed.

(** label of a point *)
Definition lab (p : crisp) (pt : point) : option Z := at2 (labels p) (Z.to_nat (fst pt)) (Z.to_nat (snd pt)).
Definition has_lab (p : crisp) (c : Z) (pt : point) : bool :=
  match lab p pt with Some l => (l =? c)%Z | None => false end.

Lemma lab_some p pt : wf2 (labels p) -> in_grid (a2x (labels p)) (a2y (labels p)) pt -> exists l, lab p pt = Some l.
Proof. intros Hw [H1 H2]. apply at2_some; auto; lia. Qed.

Lemma get2_lab p pt : wf2 (labels p) -> in_grid (a2x (labels p)) (a2y (labels p)) pt ->
  exists l, get2 (labels p) (fst pt) (snd pt) = Ok l /\ lab p pt = Some l.
Proof. intros Hw [H1 H2]. apply get2_ok; auto. Qed.

Lemma is_member_spec p pt c :
  wf2 (labels p) -> in_grid (a2x (labels p)) (a2y (labels p)) pt -> is_member p pt c = Ok (has_lab p c pt).
Proof.
  intros Hw Hg. destruct (get2_lab p pt Hw Hg) as (l & E & L).
  unfold is_member, has_lab. rewrite E, L. reflexivity.
Qed.

(** membership of a point in all nested clusters of a region: the points a region object iterates over
    when every layer agrees *)
Definition s_memb {A} (r : sregion A) (pt : point) : bool :=
  match r with SPlain _ => true | SCluster _ p c => has_lab p c pt end.
Fixpoint t_memb {A} (r : stregion A) (pt : point) : bool :=
  match r with TPlain _ => true | TCluster _ p c => has_lab p c pt | TScaled r' _ _ => t_memb r' pt end.

(** every layer of nested clusters accepts the point *)
Fixpoint s_readable {A} (r : sregion A) (pt : point) : bool :=
  match r with SPlain _ => true | SCluster r' p c => has_lab p c pt && s_readable r' pt end.
Fixpoint t_readable {A} (r : stregion A) (pt : point) : bool :=
  match r with
  | TPlain _ => true
  | TCluster r' p c => has_lab p c pt && t_readable r' pt
  | TScaled r' _ _ => t_readable r' pt
  end.

(** the underlying value / series *)
Definition cell2 {A} (d : arr2 A) (pt : point) : option A := at2 d (Z.to_nat (fst pt)) (Z.to_nat (snd pt)).

Lemma value_at_readable {A} (r : sregion A) pt :
  swf r -> in_grid (s_x r) (s_y r) pt -> s_readable r pt = true ->
  value_at r pt = get2 (s_data r) (fst pt) (snd pt).
Proof.
  induction r as [d|r IH p c]; cbn; intros Hw Hg Hr; auto.
  destruct Hw as (W & Wp & Ex & Ey). apply andb_true_iff in Hr. destruct Hr as [H1 H2].
  unfold s_x, s_y in *. cbn in *.
  rewrite is_member_spec; auto; [|rewrite Ex, Ey; auto]. rewrite H1. cbn. auto.
Qed.

Lemma value_at_unreadable {A} (r : sregion A) pt :
  swf r -> in_grid (s_x r) (s_y r) pt -> s_readable r pt = false -> value_at r pt = Raise ValueError.
Proof.
  induction r as [d|r IH p c]; cbn; intros Hw Hg Hr; [discriminate|].
  destruct Hw as (W & Wp & Ex & Ey).
  unfold s_x, s_y in *. cbn in *.
  rewrite is_member_spec; auto; [|rewrite Ex, Ey; auto]. cbn.
  destruct (has_lab p c pt); cbn in Hr; auto.
Qed.

Lemma series_at_readable {A} (r : stregion A) pt :
  twf r -> in_grid (t_x r) (t_y r) pt -> t_readable r pt = true ->
  series_at r pt = series3 (t_data r) (fst pt) (snd pt).
Proof.
  induction r as [d|r IH p c|r IH mn mx]; cbn; intros Hw Hg Hr; auto.
  - destruct Hw as (W & Wp & Ex & Ey). apply andb_true_iff in Hr. destruct Hr as [H1 H2].
    unfold t_x, t_y in *. cbn in *.
    rewrite is_member_spec; auto; [|rewrite Ex, Ey; auto]. rewrite H1. cbn. auto.
  - apply IH; tauto.
Qed.

Lemma series_at_unreadable {A} (r : stregion A) pt :
  twf r -> in_grid (t_x r) (t_y r) pt -> t_readable r pt = false -> series_at r pt = Raise ValueError.
Proof.
  induction r as [d|r IH p c|r IH mn mx]; cbn; intros Hw Hg Hr; [discriminate| |].
  - destruct Hw as (W & Wp & Ex & Ey).
    unfold t_x, t_y in *. cbn in *.
    rewrite is_member_spec; auto; [|rewrite Ex, Ey; auto]. cbn.
    destruct (has_lab p c pt); cbn in Hr; auto.
  - apply IH; tauto.
Qed.

(** total value / series functions used to describe loops *)
Definition s_val {A} (r : sregion A) (d : A) (pt : point) : A :=
  match cell2 (s_data r) pt with Some v => v | None => d end.
Definition t_ser {A} (r : stregion A) (pt : point) : list A :=
  match series3 (t_data r) (fst pt) (snd pt) with Ok s => s | Raise _ => [] end.

Lemma get2_s_val {A} (r : sregion A) d pt :
  swf r -> in_grid (s_x r) (s_y r) pt -> get2 (s_data r) (fst pt) (snd pt) = Ok (s_val r d pt).
Proof.
  intros Hw [H1 H2]. destruct (get2_ok (s_data r) (fst pt) (snd pt)) as (v & E & L); auto.
  { apply swf_data; auto. }
  unfold s_val, cell2. rewrite L. auto.
Qed.

Lemma series3_t_ser {A} (r : stregion A) pt :
  twf r -> in_grid (t_x r) (t_y r) pt -> series3 (t_data r) (fst pt) (snd pt) = Ok (t_ser r pt).
Proof.
  intros Hw [H1 H2]. destruct (series3_ok (t_data r) (fst pt) (snd pt)) as (v & E & L); auto.
  { apply twf_data; auto. }
  unfold t_ser. rewrite E. auto.
Qed.

(** a cluster of a cluster is consistent: every point the outer one iterates is readable *)
Definition s_consistent {A} (r : sregion A) : Prop :=
  forall pt, in_grid (s_x r) (s_y r) pt -> s_memb r pt = true -> s_readable r pt = true.
Definition t_consistent {A} (r : stregion A) : Prop :=
  forall pt, in_grid (t_x r) (t_y r) pt -> t_memb r pt = true -> t_readable r pt = true.

Lemma s_for_spec {A} (dflt : A) (r : sregion A) idx :
  swf r -> s_consistent r ->
  s_for r idx = (0, Ok (map (fun p => (p, s_val r dflt p)) (filter (s_memb r) (skipn idx (grid (s_x r) (s_y r)))))).
Proof.
  intros Hw Hc. unfold s_for. rewrite <- grid_from_skipn.
  destruct r as [d|r p c].
  - erewrite run_for_ext.
    2:{ intros s. unfold s_next. rewrite <- (member_next_true _ _ (S (s_x (SPlain d) * s_y (SPlain d)))) by lia. reflexivity. }
    rewrite run_for_member with (memb := fun _ => true) (val := s_val (SPlain d) dflt); [|reflexivity|intros pt Hg _|lia].
    + reflexivity.
    + rewrite value_at_readable by auto. apply get2_s_val; auto.
  - unfold s_next.
    rewrite run_for_member with (memb := has_lab p c) (val := s_val (SCluster r p c) dflt); [reflexivity| | |lia].
    + intros pt Hg. destruct Hw as (W & Wp & Ex & Ey). apply is_member_spec; auto.
      unfold s_x, s_y in *; cbn in *. rewrite Ex, Ey; auto.
    + intros pt Hg Hm. rewrite value_at_readable; auto. apply get2_s_val; auto.
Qed.

Lemma t_for_spec {A} (r : stregion A) idx :
  twf r -> t_consistent r ->
  t_for r idx = (0, Ok (map (fun p => (p, t_ser r p)) (filter (t_memb r) (skipn idx (grid (t_x r) (t_y r)))))).
Proof.
  induction r as [d|r IH p c|r IH mn mx]; intros Hw Hc.
  - unfold t_for. rewrite <- grid_from_skipn.
    erewrite run_for_ext.
    2:{ intros s. unfold t_next. rewrite <- (member_next_true _ _ (S (t_x (TPlain d) * t_y (TPlain d)))) by lia. reflexivity. }
    rewrite run_for_member with (memb := fun _ => true) (val := t_ser (TPlain d)); [|reflexivity|intros pt Hg _|lia].
    + reflexivity.
    + rewrite series_at_readable by auto. apply series3_t_ser; auto.
  - unfold t_for. rewrite <- grid_from_skipn. unfold t_next.
    rewrite run_for_member with (memb := has_lab p c) (val := t_ser (TCluster r p c)); [reflexivity| | |lia].
    + intros pt Hg. destruct Hw as (W & Wp & Ex & Ey). apply is_member_spec; auto.
      unfold t_x, t_y in *; cbn in *. rewrite Ex, Ey; auto.
    + intros pt Hg Hm. rewrite series_at_readable; auto. apply series3_t_ser; auto.
  - destruct Hw as [Hw _]. apply IH; auto.
Qed.

Lemma s_plain_consistent {A} (d : arr2 A) : s_consistent (SPlain d).
Proof. intros pt _ _; reflexivity. Qed.
Lemma t_plain_consistent {A} (d : arr3 A) : t_consistent (TPlain d).
Proof. intros pt _ _; reflexivity. Qed.
Lemma s_cluster_consistent {A} (d : arr2 A) p c : s_consistent (SCluster (SPlain d) p c).
Proof. intros pt _ H; cbn in *. rewrite H; auto. Qed.
Lemma t_cluster_consistent {A} (d : arr3 A) p c : t_consistent (TCluster (TPlain d) p c).
Proof. intros pt _ H; cbn in *. rewrite H; auto. Qed.
