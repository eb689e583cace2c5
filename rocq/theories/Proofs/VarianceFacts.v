(** Facts about the histograms of distances. *)
From Coq Require Import String Sorted Lqa.
From Coq Require Import ZifyBool ZifyNat.
From Verif Require Import Base.Py Base.Arr Base.Float Base.FloatFacts Base.PyFacts Base.Str Base.StrFacts Model.Region Model.Distance Model.Maths Model.Results Model.TrainInput Model.Variance.
From Verif Require Import Spec.Grid Spec.Partition Spec.Distance Spec.TrainInput Spec.Variance.
From Verif Require Import Proofs.RegionFacts Proofs.PartitionFacts Proofs.MathsFacts Proofs.DistanceFacts Proofs.DistanceObjFacts Proofs.TrainInputFacts Proofs.ForecastFacts.
Close Scope Q_scope.
Local Notation length := List.length.

(* ---------- numpy ---------- *)
Lemma fold_maximum_nan l : fold_left maximum l NaN = NaN.
Proof. induction l; cbn; auto. Qed.
Lemma fold_maximum l : forall x,
  In (fold_left maximum l x) (x :: l) /\
  ((exists v, In v (x :: l) /\ is_nan v = true) -> fold_left maximum l x = NaN) /\
  ((forall v, In v (x :: l) -> is_nan v = false) -> forall v, In v (x :: l) -> fle v (fold_left maximum l x) = true).
Proof.
  induction l as [|a l IH]; intros x; cbn [fold_left].
  - split; [left; auto|]. split.
    + intros (v & [<-|[]] & H). destruct x; try discriminate; auto.
    + intros H v [<-|[]]. apply fle_refl, H; left; auto.
  - destruct (is_nan x) eqn:Nx.
    { assert (x = NaN) by (destruct x; try discriminate; auto). subst x. cbn [maximum is_nan].
      rewrite fold_maximum_nan. split; [left; auto|]. split; auto.
      intros H. specialize (H NaN (or_introl eq_refl)). discriminate. }
    destruct (is_nan a) eqn:Na.
    { assert (a = NaN) by (destruct a; try discriminate; auto). subst a.
      assert (E : maximum x NaN = NaN) by (unfold maximum; rewrite Nx; reflexivity). rewrite E, fold_maximum_nan. split; [right; left; auto|]. split; auto.
      intros H. specialize (H NaN (or_intror (or_introl eq_refl))). discriminate. }
    assert (E : maximum x a = fmax2 x a) by (unfold maximum; rewrite Nx, Na; reflexivity). rewrite E.
    destruct (IH (fmax2 x a)) as (I1 & I2 & I3).
    assert (Hc : fmax2 x a = x /\ fle a x = true \/ fmax2 x a = a /\ fle x a = true).
    { unfold fmax2. destruct (flt x a) eqn:L; [right|left]; (split; [reflexivity|]).
      - apply flt_fle; auto.
      - apply fle_iff; auto. }
    split; [|split].
    + destruct I1 as [I1|I1]; [|right; right; auto]. destruct Hc as [[Hc _]|[Hc _]]; rewrite <- I1, Hc; cbn; auto.
    + intros (v & Hv & Nv). apply I2. destruct Hv as [<-|[<-|Hv]]; try congruence. exists v. split; [right|]; auto.
    + intros H v Hv. assert (H' : forall v, In v (fmax2 x a :: l) -> is_nan v = false).
      { intros w [<-|Hw]; [destruct Hc as [[-> _]|[-> _]]; auto|apply H; right; right; auto]. }
      specialize (I3 H'). destruct Hv as [<-|[<-|Hv]].
      * eapply fle_trans; [|apply I3; left; reflexivity]. destruct Hc as [[-> _]|[-> L]]; auto. apply fle_refl; auto.
      * eapply fle_trans; [|apply I3; left; reflexivity]. destruct Hc as [[-> L]|[-> _]]; auto. apply fle_refl; auto.
      * apply I3. right; auto.
Qed.
Lemma np_max_ok l : l <> [] -> exists m, np_max l = Ok m /\ greatest l m.
Proof.
  destruct l as [|x xs]; [congruence|]. intros _. exists (fold_left maximum xs x). split; [reflexivity|]. apply fold_maximum.
Qed.
Lemma np_max_inv l m : np_max l = Ok m -> l <> [] /\ greatest l m.
Proof.
  destruct l as [|x xs]; [discriminate|]. cbn [np_max]. intros E. split; [discriminate|]. assert (m = fold_left maximum xs x) by congruence. subst m. apply fold_maximum.
Qed.

Lemma f_insert_perm v l : Permutation (v :: l) (f_insert v l).
Proof.
  induction l as [|w ws IH]; cbn [f_insert]; auto. destruct (sort_before v w); auto.
  eapply perm_trans; [apply perm_swap|]. apply perm_skip, IH.
Qed.
Lemma np_sort_perm l : Permutation l (np_sort l).
Proof.
  induction l as [|v l IH]; cbn [np_sort fold_right]; auto. eapply perm_trans; [apply perm_skip, IH|]. apply f_insert_perm.
Qed.
Lemma f_insert_sorted v l : (forall w, In w (v :: l) -> is_nan w = false) -> StronglySorted (fun a b => fle a b = true) l ->
  StronglySorted (fun a b => fle a b = true) (f_insert v l).
Proof.
  intros H. induction l as [|w ws IH]; cbn [f_insert]; intros S; [constructor; constructor|].
  assert (Nv : is_nan v = false) by (apply H; left; auto). assert (Nw : is_nan w = false) by (apply H; right; left; auto).
  unfold sort_before. rewrite Nv, Nw. cbn [negb orb andb]. apply StronglySorted_inv in S. destruct S as [S F].
  destruct (fle v w) eqn:L.
  - constructor; [constructor; auto|]. constructor; auto. rewrite Forall_forall in F. apply Forall_forall. intros z Hz. eapply fle_trans; [exact L|auto].
  - constructor.
    + apply IH; auto. intros z [<-|Hz]; auto. apply H; right; right; auto.
    + rewrite Forall_forall in F. apply Forall_forall. intros z Hz. apply (Permutation_in z (Permutation_sym (f_insert_perm v ws))) in Hz.
      destruct Hz as [<-|Hz]; auto. destruct (fle_total v w Nv Nw); congruence.
Qed.
Lemma np_sort_sorted l : (forall w, In w l -> is_nan w = false) -> in_order l (np_sort l).
Proof.
  intros H. split; [apply np_sort_perm|]. induction l as [|v l IH]; cbn [np_sort fold_right]; [constructor|].
  apply f_insert_sorted.
  - intros w [<-|Hw]; [apply H; left; auto|]. apply H; right. eapply Permutation_in; [apply Permutation_sym, np_sort_perm|exact Hw].
  - apply IH. intros w Hw. apply H; right; auto.
Qed.
Lemma partition_short l : length l < 2 -> partition_at_1 l = Raise ValueError.
Proof.
  intros H. unfold partition_at_1. pose proof (Permutation_length (np_sort_perm l)) as P. destruct (np_sort l) as [|a [|b s]]; auto. cbn in P. lia.
Qed.
Lemma partition_long l : 2 <= length l -> exists v, partition_at_1 l = Ok v /\ nth_error (np_sort l) 1 = Some v.
Proof.
  intros H. unfold partition_at_1. pose proof (Permutation_length (np_sort_perm l)) as P. destruct (np_sort l) as [|a [|b s]]; cbn in P; try lia. exists b. auto.
Qed.

(* ---------- the points of a region ---------- *)
Lemma grid_dims r : forall x y, grid_of r x y -> t_x r = x /\ t_y r = y.
Proof.
  induction r as [d|r IH p c|r IH mn mx]; intros x y H.
  - destruct H as (_ & Hx & Hy). auto.
  - destruct H as [H _]. apply IH in H. auto.
  - apply IH in H. auto.
Qed.
Lemma index_of_inj x y p q : in_grid x y p -> in_grid x y q -> index_of y p = index_of y q -> p = q.
Proof.
  intros Hp Hq E. pose proof (nth_error_grid_index _ _ _ Hp) as A. pose proof (nth_error_grid_index _ _ _ Hq) as B. rewrite E in A. congruence.
Qed.
Lemma index_of_decode x y n : n < x * y -> index_of y (decode y n) = n.
Proof.
  intros H. pose proof (decode_in_grid x y n H) as G. pose proof (nth_error_grid_index _ _ _ G) as A. pose proof (nth_error_grid x y n H) as B.
  pose proof (grid_nodup x y) as N. rewrite NoDup_nth_error in N. apply N; [|congruence].
  destruct (index_of_encode _ _ _ G) as [_ L]. rewrite grid_length. exact L.
Qed.
Lemma grid_indices x y : map (index_of y) (grid x y) = seq 0 (x * y).
Proof.
  rewrite grid_decode, map_map. rewrite <- (map_id (seq 0 (x * y))) at 2. apply map_ext_in. intros n Hn. apply in_seq in Hn. apply index_of_decode with (x := x). lia.
Qed.
Lemma region_indices r : forall x y, grid_of r x y -> all_point_indices r = Ok (map (index_of y) (members r x y)).
Proof.
  induction r as [d|r IH p c|r IH mn mx]; intros x y H.
  - destruct H as (Hw & Hx & Hy). cbn [all_point_indices]. unfold members.
    rewrite (filter_all (inside (TPlain d))) by auto. rewrite grid_indices. congruence.
  - destruct H as [H Hv]. destruct (grid_dims _ _ _ H) as [Ex Ey].
    destruct (all_point_indices_cluster p r x y c Hv Ex Ey) as (ns & E & _ & En). rewrite E, En. f_equal.
    unfold members. rewrite (filter_ext_in (inside (TCluster r p c)) (fun pt => (label_of p pt =? c)%Z)).
    + apply map_ext_in. intros pt Hpt. apply filter_In in Hpt. destruct Hpt as [Hpt _]. apply in_grid_iff in Hpt.
      destruct (index_of_encode _ _ _ Hpt) as [E1 _]. rewrite E1. lia.
    + intros pt Hpt. apply in_grid_iff in Hpt. destruct (label_of_spec p x y pt Hv Hpt) as [L _]. unfold label_at in L. cbn [inside]. rewrite L. reflexivity.
  - cbn [all_point_indices]. rewrite (IH x y H). reflexivity.
Qed.
Lemma members_in r x y pt : In pt (members r x y) <-> in_grid x y pt /\ inside r pt = true.
Proof. unfold members. rewrite filter_In, in_grid_iff. tauto. Qed.
Lemma outsiders_in r x y pt : In pt (outsiders r x y) <-> in_grid x y pt /\ inside r pt = false.
Proof. unfold outsiders. rewrite filter_In, in_grid_iff, negb_true_iff. tauto. Qed.
Lemma members_nodup r x y : NoDup (members r x y).
Proof. apply NoDup_filter, grid_nodup. Qed.
Lemma outsiders_nodup r x y : NoDup (outsiders r x y).
Proof. apply NoDup_filter, grid_nodup. Qed.
Lemma split_count {A} (f : A -> bool) l : length (filter f l) + length (filter (fun a => negb (f a)) l) = length l.
Proof. induction l as [|a l IH]; cbn; auto. destruct (f a); cbn; lia. Qed.
Lemma members_outsiders r x y : length (members r x y) + length (outsiders r x y) = x * y.
Proof. unfold members, outsiders. rewrite split_count, grid_length. reflexivity. Qed.

(* ---------- distances ---------- *)
Lemma F2_length {A B} (R : A -> B -> Prop) l l' : Forall2 R l l' -> length l = length l'.
Proof. induction 1; cbn; auto. Qed.
Section Facts.
Context (env : denv) (o : dobj) (sqrt : fnum -> fnum).
Context (M : mat) (x y : nat).
Hypothesis HM : d_matrix o = Some M.
Hypothesis Hs : square (x * y) M.

Lemma at_points r pt pts : grid_of r x y -> in_grid x y pt -> (forall p, In p pts -> in_grid x y p) ->
  exists ds, fst (distances_to_point env r None pt (map (index_of y) pts) true true o) = Ok ds /\ distances_of M y pt pts ds /\ length ds = length pts.
Proof.
  intros Hr Hp Hin. destruct (provides_call env None o M r pt (map (index_of y) pts) true (or_introl HM)) as (o' & E & Eo).
  rewrite E. cbn [fst]. destruct (grid_dims _ _ _ Hr) as [_ Ey]. rewrite Ey.
  destruct (with_matrix_row o' M (x * y) x y pt (map (index_of y) pts) Eo Hs Hp (le_n _)) as (ds & E1 & E2).
  - intros j Hj. apply in_map_iff in Hj. destruct Hj as (q & <- & Hq). apply (index_of_encode x y q (Hin q Hq)).
  - exists ds. split; [exact E1|]. split; [exact E2|]. unfold row_at in E2. apply F2_length in E2. rewrite map_length in E2. auto.
Qed.
Lemma plain_ok h pt : grid_of (h_region h) x y -> in_grid x y pt ->
  exists ds, plain_distances env o h pt = Ok ds /\ distances_of M y pt (members (h_region h) x y) ds /\ length ds = length (members (h_region h) x y).
Proof.
  intros Hr Hp. unfold plain_distances. rewrite (region_indices _ _ _ Hr). cbn [bind]. apply at_points; auto.
  intros p Hin. apply members_in in Hin. tauto.
Qed.

Lemma statistics_ok h ds : grid_of (h_region h) x y -> 2 <= length ds ->
  exists a b, statistics sqrt h ds = Ok [(""%string, FStr (h_name h)); ("n = "%string, FInt (Z.of_nat (length (members (h_region h) x y))));
      ("min = "%string, FNum 2 a); ("max =  "%string, FNum 2 b);
      ("mean = "%string, FNum 2 (fmean ds)); ("s = "%string, FNum 2 (np_std sqrt ds)); ("M = "%string, FNum 2 (np_median ds))] /\
    nth_error (np_sort ds) 1 = Some a /\ np_max ds = Ok b /\ greatest ds b.
Proof.
  intros Hr Hl. unfold statistics. destruct (partition_long ds Hl) as (a & Ea & Na). rewrite Ea. cbn [bind].
  destruct (np_max_ok ds) as (b & Eb & Gb); [destruct ds; [cbn in Hl; lia|discriminate]|]. rewrite Eb. cbn [bind].
  rewrite (region_indices _ _ _ Hr). cbn [bind]. rewrite map_length. exists a, b. auto.
Qed.
Lemma statistics_short h ds : length ds < 2 -> statistics sqrt h ds = Raise ValueError.
Proof. intros H. unfold statistics. rewrite (partition_short ds H). reflexivity. Qed.

(* ---------- random points ---------- *)
Context (set_order : list Z -> list Z) (choice : nat -> list Z -> Z -> res (list Z)).
Hypothesis Ho : any_order set_order.
Hypothesis Hd : forall n, draws (choice n).

Lemma blacklist_members r i : 
  (0 <= i < Z.of_nat (x * y))%Z -> ~ In i (map Z.of_nat (map (index_of y) (members r x y))) -> inside r (decode y (Z.to_nat i)) = false.
Proof.
  intros Hi Hn. destruct (inside r (decode y (Z.to_nat i))) eqn:E; auto. exfalso. apply Hn. apply in_map_iff. exists (Z.to_nat i). split; [lia|].
  apply in_map_iff. exists (decode y (Z.to_nat i)). split; [apply index_of_decode with (x := x); lia|]. apply members_in. split; auto. apply decode_in_grid. lia.
Qed.
Lemma random_ok' n r num : grid_of r x y -> (0 <= num)%Z ->
  (outsiders r x y = [] -> random_indices set_order choice n r num = Raise IndexError) /\
  (outsiders r x y <> [] ->
     exists pts, random_indices set_order choice n r num = Ok (map (index_of y) pts, Z.of_nat (random_count r x y num)) /\
       NoDup pts /\ length pts = random_count r x y num /\ (forall pt, In pt pts -> in_grid x y pt /\ inside r pt = false)).
Proof.
  intros Hr Hn. destruct (grid_dims _ _ _ Hr) as [Ex Ey]. unfold random_indices. rewrite (region_indices _ _ _ Hr), Ex, Ey. cbn [bind]. rewrite map_length.
  pose proof (members_outsiders r x y) as Hmo.
  set (m := length (members r x y)) in *. set (q := length (outsiders r x y)) in *.
  replace (Z.of_nat x * Z.of_nat y)%Z with (Z.of_nat (x * y)) by lia.
  replace (Z.of_nat (x * y) - Z.of_nat m)%Z with (Z.of_nat q) by lia.
  set (k := if (num =? 0)%Z then Z.of_nat m else num).
  assert (Ek : (if (Z.of_nat q <? k)%Z then Z.of_nat q else k) = Z.of_nat (random_count r x y num)).
  { unfold random_count. fold m q. unfold k. destruct (num =? 0)%Z.
    - destruct (Z.ltb_spec (Z.of_nat q) (Z.of_nat m)); lia.
    - destruct (Z.ltb_spec (Z.of_nat q) num); lia. }
  rewrite Ek. set (c := random_count r x y num) in *.
  set (bl := map Z.of_nat (map (index_of y) (members r x y))).
  set (allowed := map (fun p => Z.of_nat (index_of y p)) (outsiders r x y)).
  assert (Na : NoDup allowed).
  { unfold allowed. apply NoDup_map_inj_in; [|apply outsiders_nodup]. intros a b Ha Hb E. apply outsiders_in in Ha. apply outsiders_in in Hb. apply (index_of_inj x y); try tauto. lia. }
  assert (Ia : forall v, In v allowed <-> (0 <= v <= Z.of_nat (x * y) - 1)%Z /\ ~ In v bl).
  { intros v. unfold allowed. rewrite in_map_iff. split.
    - intros (p & <- & Hp). apply outsiders_in in Hp. destruct Hp as [G I]. destruct (index_of_encode _ _ _ G) as [_ L]. split; [lia|].
      intros Hb. unfold bl in Hb. apply in_map_iff in Hb. destruct Hb as (j & Ej & Hj). apply in_map_iff in Hj. destruct Hj as (p' & Ej' & Hp').
      apply members_in in Hp'. destruct Hp' as [G' I']. assert (p = p') by (apply (index_of_inj x y); auto; lia). subst p'. congruence.
    - intros [Hv Hb]. exists (decode y (Z.to_nat v)). split; [rewrite (index_of_decode x) by lia; lia|]. apply outsiders_in. split; [apply decode_in_grid; lia|].
      apply blacklist_members; auto. lia. }
  destruct (random_total set_order (choice n) (Hd n) Ho (Z.of_nat c) 0 (Z.of_nat (x * y) - 1) bl allowed Na Ia) as [T1 _].
  assert (La : length allowed = q) by (unfold allowed; rewrite map_length; reflexivity).
  assert (Hc : c <= q) by (unfold c, random_count; fold q; lia).
  destruct T1 as (chosen & E); [lia|]. rewrite E. cbn [bind].
  destruct (random_ok set_order (choice n) (Hd n) Ho _ _ _ _ _ E) as (L & Nd & Hin & _).
  split; intros H.
  - assert (q = 0) by (unfold q; rewrite H; reflexivity). replace (Z.of_nat q =? 0)%Z with true by lia. reflexivity.
  - replace (Z.of_nat q =? 0)%Z with false by (unfold q; destruct (outsiders r x y); [congruence|cbn [length]; lia]).
    exists (map (fun i => decode y (Z.to_nat i)) chosen).
    assert (B : forall i, In i chosen -> (0 <= i < Z.of_nat (x * y))%Z) by (intros i Hi; destruct (Hin i Hi); lia).
    split; [|split; [|split]].
    + f_equal. f_equal. rewrite map_map. apply map_ext_in. intros i Hi. rewrite (index_of_decode x); [reflexivity|]. specialize (B i Hi). lia.
    + apply NoDup_map_inj_in; auto. intros a b Ha Hb Ed. apply (f_equal (index_of y)) in Ed. specialize (B _ Ha) as Ba. specialize (B _ Hb) as Bb.
      rewrite !(index_of_decode x) in Ed by lia. lia.
    + rewrite map_length. lia.
    + intros pt Hpt. apply in_map_iff in Hpt. destruct Hpt as (i & <- & Hi). specialize (B _ Hi). split; [apply decode_in_grid; lia|].
      apply blacklist_members; [lia|]. destruct (Hin i Hi); auto.
Qed.

(* ---------- a histogram of a cluster ---------- *)
(** the cluster can be shown: it covers the grid, has its own centroid, has points, and points outside if random ones are asked for *)
Definition can_show (rp : option Z) (h : hregion) : Prop :=
  grid_of (h_region h) x y /\ (exists c, h_own h = Some c /\ in_grid x y c) /\ members (h_region h) x y <> [] /\
  match rp with None => True | Some n => (0 <= n)%Z /\ outsiders (h_region h) x y <> [] end.
(** the state of its histogram: after a call, the number of random points has been settled *)
Definition state_of (rp : option Z) (h : hregion) (g : histogram) : Prop :=
  match rp with
  | None => g = Plain
  | Some n => exists n', g = WithRandom n' /\ (0 <= n')%Z /\ random_count (h_region h) x y n' = random_count (h_region h) x y n
  end.
(** the distances obtained *)
Definition shows (rp : option Z) (h : hregion) (c : point) (d : hdistances) : Prop :=
  distances_of M y c (members (h_region h) x y) (fst d) /\ length (fst d) = length (members (h_region h) x y) /\
  match rp with
  | None => snd d = None
  | Some n => exists rs, snd d = Some rs /\ rs <> [] /\ outside_distances M x y (h_region h) c (random_count (h_region h) x y n) rs
  end.

Lemma random_count_pos r n : members r x y <> [] -> outsiders r x y <> [] -> (0 <= n)%Z -> 0 < random_count r x y n.
Proof.
  intros H1 H2 Hn. unfold random_count. destruct (members r x y); [congruence|]. destruct (outsiders r x y); [congruence|]. cbn [length]. destruct (n =? 0)%Z eqn:E; lia.
Qed.
Lemma random_count_again r n : members r x y <> [] -> outsiders r x y <> [] -> (0 <= n)%Z ->
  random_count r x y (Z.of_nat (random_count r x y n)) = random_count r x y n.
Proof.
  intros H1 H2 Hn. pose proof (random_count_pos r n H1 H2 Hn) as Hp. unfold random_count at 1. replace (Z.of_nat (random_count r x y n) =? 0)%Z with false by lia.
  rewrite Nat2Z.id. unfold random_count. lia.
Qed.
Lemma hist_distances_ok rp h g n c : can_show rp h -> state_of rp h g -> h_own h = Some c ->
  exists d g' n', hist_distances env o set_order choice h g n c = Ok (d, g', n') /\ shows rp h c d /\ state_of rp h g'.
Proof.
  intros (Hr & (c' & Ec' & Hc) & Hm & Ho') Hg Ec. assert (c' = c) by congruence. subst c'.
  destruct (plain_ok h c Hr Hc) as (ds & E & Dd & Dl). unfold hist_distances. destruct rp as [num|].
  - destruct Hg as (num' & -> & Hn' & Hcount). destruct Ho' as [Hn Ho']. rewrite E. cbn [bind].
    destruct (random_ok' n (h_region h) num' Hr Hn') as [_ R]. destruct (R Ho') as (pts & Ep & Np & Lp & Ip). rewrite Ep. cbn [bind].
    destruct (at_points (h_region h) c pts Hr Hc) as (rs & Er & Dr & Lr); [intros p Hp; apply (Ip p Hp)|]. rewrite Er. cbn [bind].
    eexists _, _, _. split; [reflexivity|]. split.
    + split; [exact Dd|]. split; [exact Dl|]. exists rs. split; [reflexivity|]. split.
      * pose proof (random_count_pos _ num' Hm Ho' Hn'). destruct rs; [cbn in Lr; lia|discriminate].
      * exists pts. rewrite <- Hcount. auto.
    + eexists. split; [reflexivity|]. split; [lia|]. rewrite random_count_again; auto.
  - red in Hg. subst g. rewrite E. cbn [bind]. eexists _, _, _. split; [reflexivity|]. split; [|reflexivity]. split; [exact Dd|]. split; [exact Dl|reflexivity].
Qed.
(** all the values shown *)
Definition values (d : hdistances) : list fnum := fst d ++ match snd d with Some rs => rs | None => [] end.
Lemma greatest_le l m v : greatest l m -> (forall w, In w l -> is_nan w = false) -> In v l -> fle v m = true.
Proof. intros (_ & _ & H). auto. Qed.
Lemma hist_max_ok rp h c d m : members (h_region h) x y <> [] -> shows rp h c d ->
  exists m', hist_max d (Some m) = Ok m' /\ greatest (values d ++ [m]) m'.
Proof.
  intros Hm (Dd & Dl & Dr). assert (Hne : fst d <> []) by (destruct (members (h_region h) x y); [congruence|]; destruct (fst d); [discriminate|discriminate]).
  destruct d as [ds rs]. cbn [fst snd] in *. destruct (np_max_ok ds Hne) as (a & Ea & Ga).
  destruct rp as [num|].
  - destruct Dr as (rs' & -> & Hrs & _). destruct (np_max_ok rs' Hrs) as (b & Eb & Gb). cbn [hist_max]. rewrite Ea, Eb. cbn [bind].
    destruct (np_max_ok [a; b; m]) as (m' & Em & Gm); [discriminate|]. exists m'. split; [exact Em|].
    unfold values. cbn [fst snd]. destruct Gm as (G1 & G2 & G3). destruct Ga as (A1 & A2 & A3). destruct Gb as (B1 & B2 & B3). split; [|split].
    + destruct G1 as [<-|[<-|[<-|[]]]]; rewrite !in_app_iff; cbn; auto.
    + intros (v & Hv & Nv). rewrite !in_app_iff in Hv. apply G2. destruct Hv as [[Hv|Hv]|[<-|[]]].
      * exists a. split; [left; auto|]. rewrite A2 by eauto. reflexivity.
      * exists b. split; [right; left; auto|]. rewrite B2 by eauto. reflexivity.
      * exists m. split; [right; right; left; auto|auto].
    + intros Hn v Hv. assert (Na : forall w, In w ds -> is_nan w = false) by (intros w Hw; apply Hn; rewrite !in_app_iff; auto).
      assert (Nb : forall w, In w rs' -> is_nan w = false) by (intros w Hw; apply Hn; rewrite !in_app_iff; auto).
      assert (Nm : is_nan m = false) by (apply Hn; rewrite !in_app_iff; cbn; auto).
      assert (Nall : forall w, In w [a; b; m] -> is_nan w = false) by (intros w [<-|[<-|[<-|[]]]]; auto).
      specialize (G3 Nall). rewrite !in_app_iff in Hv. destruct Hv as [[Hv|Hv]|[<-|[]]].
      * eapply fle_trans; [apply A3; auto|]. apply G3; left; auto.
      * eapply fle_trans; [apply B3; auto|]. apply G3; right; left; auto.
      * apply G3; right; right; left; auto.
  - cbn in Dr. subst rs. cbn [hist_max]. unfold max_distance. rewrite Ea. cbn [bind].
    destruct (np_max_ok [a; m]) as (m' & Em & Gm); [discriminate|]. exists m'. split; [exact Em|].
    unfold values. cbn [fst snd]. rewrite app_nil_r. destruct Gm as (G1 & G2 & G3). destruct Ga as (A1 & A2 & A3). split; [|split].
    + destruct G1 as [<-|[<-|[]]]; rewrite !in_app_iff; cbn; auto.
    + intros (v & Hv & Nv). rewrite !in_app_iff in Hv. apply G2. destruct Hv as [Hv|[<-|[]]].
      * exists a. split; [left; auto|]. rewrite A2 by eauto. reflexivity.
      * exists m. split; [right; left; auto|auto].
    + intros Hn v Hv. assert (Na : forall w, In w ds -> is_nan w = false) by (intros w Hw; apply Hn; rewrite !in_app_iff; auto).
      assert (Nm : is_nan m = false) by (apply Hn; rewrite !in_app_iff; cbn; auto).
      assert (Nall : forall w, In w [a; m] -> is_nan w = false) by (intros w [<-|[<-|[]]]; auto).
      specialize (G3 Nall). rewrite !in_app_iff in Hv. destruct Hv as [Hv|[<-|[]]].
      * eapply fle_trans; [apply A3; auto|]. apply G3; left; auto.
      * apply G3; right; left; auto.
Qed.
Lemma hist_plot_ok rp h c d ws m : can_show rp h -> shows rp h c d -> (ws = true -> 2 <= length (members (h_region h) x y)) ->
  exists calls, hist_plot sqrt h d ws m = Ok calls /\
    shown_values calls = fst d :: match snd d with Some rs => [rs] | None => [] end /\ shown_limits calls = limit_calls m /\
    length (shown_texts calls) = if ws then 1 else 0.
Proof.
  intros (Hr & _ & Hm & _) (_ & Dl & Dr) Hws. unfold limit_calls. destruct d as [ds rs]. cbn [fst snd] in *.
  assert (St : ws = true -> exists t, statistics sqrt h ds = Ok t).
  { intros E. destruct (statistics_ok h ds Hr) as (a & b & Es & _); [rewrite Dl; auto|]. eauto. }
  assert (Hne : ds <> []) by (destruct (members (h_region h) x y); [congruence|]; destruct ds; discriminate).
  destruct rs as [rs|]; cbn [hist_plot].
  - unfold plot. cbn [bind]. destruct ws.
    + unfold hist_statistics. destruct (St eq_refl) as (t & Et). rewrite Et. cbn [bind]. destruct (np_max_ok ds Hne) as (b & Eb & _). rewrite Eb. cbn [bind].
      eexists. split; [reflexivity|]. unfold f_true. destruct (feqb m (Fin 0)); auto.
    + cbn [bind]. eexists. split; [reflexivity|]. unfold f_true. destruct (feqb m (Fin 0)); auto.
  - unfold plot. destruct ws.
    + destruct (St eq_refl) as (t & Et). rewrite Et. cbn [bind]. eexists. split; [reflexivity|]. unfold f_true. destruct (feqb m (Fin 0)); auto.
    + cbn [bind]. eexists. split; [reflexivity|]. unfold f_true. destruct (feqb m (Fin 0)); auto.
Qed.

(* ---------- all clusters ---------- *)
Definition hinv (rp : option Z) (hg : hregion * histogram) : Prop := can_show rp (fst hg) /\ state_of rp (fst hg) (snd hg).
Lemma overall_loop rp hs : Forall (hinv rp) hs -> forall m done n,
  exists m' hs' n' dss, foldM (fun '(m, done, n) '(h, g) =>
           c <- own_centroid h ;;
           '(d, g', n') <- hist_distances env o set_order choice h g n c ;;
           m' <- hist_max d (Some m) ;;
           Ok (m', (done ++ [(h, g')])%list, n')) hs (m, done, n) = Ok (m', (done ++ hs')%list, n') /\
    map fst hs' = map fst hs /\ Forall (hinv rp) hs' /\
    Forall2 (fun hg d => exists c, h_own (fst hg) = Some c /\ shows rp (fst hg) c d) hs dss /\
    greatest (flat_map values dss ++ [m]) m'.
Proof.
  intros F. induction F as [|[h g] hs [Hc Hg] F IH]; intros m done n.
  - exists m, [], n, []. cbn [foldM map flat_map app]. rewrite app_nil_r. split; [reflexivity|]. split; [reflexivity|]. split; [constructor|]. split; [constructor|].
    split; [left; auto|]. split.
    + intros (v & [<-|[]] & Hv). destruct m; try discriminate; auto.
    + intros Hn v [<-|[]]. apply fle_refl, Hn. left; auto.
  - cbn [fst snd] in Hc, Hg. destruct (Hc) as (_ & (c & Ec & _) & Hm & _).
    destruct (hist_distances_ok rp h g n c Hc Hg Ec) as (d & g' & n' & E & Sd & Sg).
    destruct (hist_max_ok rp h c d m Hm Sd) as (m1 & E1 & G1).
    destruct (IH m1 (done ++ [(h, g')]) n') as (m2 & hs' & n2 & dss & E2 & Em & F' & F2 & G2).
    exists m2, ((h, g') :: hs'), n2, (d :: dss). cbn [foldM]. unfold own_centroid. rewrite Ec. cbn [bind]. rewrite E. cbn [bind]. rewrite E1. cbn [bind].
    split; [unfold own_centroid in E2; rewrite E2, <- app_assoc; reflexivity|]. split; [cbn [map fst]; f_equal; exact Em|].
    split; [constructor; auto; split; auto|]. split; [constructor; auto; exists c; auto|]. cbn [flat_map]. 
    destruct G1 as (A1 & A2 & A3). destruct G2 as (B1 & B2 & B3). split; [|split].
    + rewrite !in_app_iff in *. destruct B1 as [B1|[<-|[]]]; [left; right; auto|]. destruct A1 as [A1|A1]; [left; left; auto|right; auto].
    + intros (v & Hv & Nv). apply B2. rewrite !in_app_iff in Hv. destruct Hv as [[Hv|Hv]|Hv].
      * exists m1. split; [rewrite in_app_iff; right; left; auto|]. rewrite A2; [reflexivity|]. exists v. rewrite in_app_iff. auto.
      * exists v. rewrite in_app_iff. auto.
      * exists m1. split; [rewrite in_app_iff; right; left; auto|]. rewrite A2; [reflexivity|]. exists v. rewrite in_app_iff. auto.
    + intros Hn v Hv. assert (Na : forall w, In w (values d ++ [m]) -> is_nan w = false) by (intros w Hw; apply Hn; rewrite !in_app_iff in *; tauto).
      assert (N1 : is_nan m1 = false) by (apply Na; auto).
      assert (Nb : forall w, In w (flat_map values dss ++ [m1]) -> is_nan w = false).
      { intros w Hw. rewrite in_app_iff in Hw. destruct Hw as [Hw|[<-|[]]]; auto. apply Hn. rewrite !in_app_iff. auto. }
      assert (L1 : fle m1 m2 = true) by (apply B3; auto; rewrite in_app_iff; right; left; auto).
      rewrite !in_app_iff in Hv. destruct Hv as [[Hv|Hv]|Hv].
      * eapply fle_trans; [|exact L1]. apply A3; auto. rewrite in_app_iff; auto.
      * apply B3; auto. rewrite in_app_iff; auto.
      * eapply fle_trans; [|exact L1]. apply A3; auto. rewrite in_app_iff; auto.
Qed.

Lemma panel_ok dx dy i : (0 < dx)%Z -> (0 < dy)%Z -> (Z.of_nat i < dx * dy)%Z -> (1 < dx * dy)%Z ->
  panel_of dx dy i = Ok (Z.of_nat i / dy, Z.of_nat i mod dy)%Z.
Proof.
  intros Hx Hy Hi Hk. unfold panel_of. rewrite Z.quot_div_nonneg by lia.
  pose proof (Z.div_mod (Z.of_nat i) dy ltac:(lia)) as D. pose proof (Z.mod_pos_bound (Z.of_nat i) dy Hy) as B.
  pose proof (Z.div_pos (Z.of_nat i) dy ltac:(lia) Hy) as P. pose proof (Z.div_lt_upper_bound (Z.of_nat i) dy dx Hy ltac:(lia)) as U.
  set (q := (Z.of_nat i / dy)%Z) in *. set (m := (Z.of_nat i mod dy)%Z) in *.
  destruct (dx =? 1)%Z eqn:E1; destruct (dy =? 1)%Z eqn:E2; cbn [andb].
  - exfalso. assert (dx = 1 /\ dy = 1)%Z as [-> ->] by lia. lia.
  - replace ((0 <=? m)%Z && (m <? dy)%Z) with true by lia. replace q with 0%Z by lia. reflexivity.
  - replace ((0 <=? q)%Z && (q <? dx)%Z) with true by lia. replace m with 0%Z by lia. reflexivity.
  - replace ((0 <=? q)%Z && (q <? dx)%Z) with true by lia. replace ((0 <=? m)%Z && (m <? dy)%Z) with true by lia. reflexivity.
Qed.
Lemma plot_loop rp ws m dx dy k : (0 < dx)%Z -> (0 < dy)%Z -> (dx * dy = Z.of_nat k)%Z -> 1 < k ->
  forall hs start n panels, start + length hs <= k -> Forall (hinv rp) hs ->
    (ws = true -> forall hg, In hg hs -> 2 <= length (members (h_region (fst hg)) x y)) ->
  exists new n', foldM (fun '(panels, n) '(i, (h, g)) =>
                 panel <- panel_of dx dy i ;;
                 c <- own_centroid h ;;
                 '(d, _, n') <- hist_distances env o set_order choice h g n c ;;
                 calls <- hist_plot sqrt h d ws m ;;
                 Ok ((panels ++ [(panel, calls)])%list, n')) (combine (seq start (length hs)) hs) (panels, n) = Ok ((panels ++ new)%list, n') /\
    length new = length hs /\
    forall j hg, nth_error hs j = Some hg -> exists c d calls,
      nth_error new j = Some ((Z.of_nat (start + j) / dy, Z.of_nat (start + j) mod dy)%Z, calls) /\
      h_own (fst hg) = Some c /\ shows rp (fst hg) c d /\
      shown_values calls = fst d :: match snd d with Some rs => [rs] | None => [] end /\ shown_limits calls = limit_calls m /\
      length (shown_texts calls) = if ws then 1 else 0.
Proof.
  intros Hx Hy Hk Hk1. induction hs as [|[h g] hs IH]; intros start n panels Hl F Hws.
  - exists [], n. cbn [length seq combine foldM]. rewrite app_nil_r. split; [reflexivity|]. split; [reflexivity|]. intros [|j] hg; discriminate.
  - apply Forall_cons_iff in F. destruct F as [[Hc Hg] F]. cbn [fst snd] in Hc, Hg. cbn [length] in Hl.
    cbn [length seq combine foldM]. rewrite (panel_ok dx dy start Hx Hy) by lia. cbn [bind].
    destruct (Hc) as (_ & (c & Ec & _) & _). unfold own_centroid. rewrite Ec. cbn [bind].
    destruct (hist_distances_ok rp h g n c Hc Hg Ec) as (d & g' & n' & E & Sd & Sg). rewrite E. cbn [bind].
    destruct (hist_plot_ok rp h c d ws m Hc Sd) as (calls & E1 & V & L & T); [intros W; apply (Hws W (h, g)); left; auto|]. rewrite E1. cbn [bind].
    destruct (IH (S start) n' (panels ++ [((Z.of_nat start / dy, Z.of_nat start mod dy)%Z, calls)])) as (new & n2 & E2 & Ln & P); [lia|auto|intros W hg Hin; apply (Hws W); right; auto|].
    eexists (_ :: new), n2. split; [unfold own_centroid in E2; rewrite E2, <- app_assoc; reflexivity|]. split; [cbn [length]; lia|].
    intros [|j] hg; cbn [nth_error].
    + intros Eh. assert (hg = (h, g)) by congruence. subst hg. exists c, d, calls. rewrite Nat.add_0_r. auto 10.
    + intros Eh. destruct (P j hg Eh) as (c' & d' & calls' & A). exists c', d', calls'. replace (start + S j) with (S start + j) by lia. exact A.
Qed.
End Facts.

(* ---------- the least distance of another point ---------- *)
Lemma perm_filter {A} (f : A -> bool) l l' : Permutation l l' -> length (filter f l) = length (filter f l').
Proof. induction 1 as [|a l l' H IH|a b l|l1 l2 l3 H1 IH1 H2 IH2]; cbn [filter]; try congruence; try (destruct (f a); cbn [length]; auto; fail).
  destruct (f a), (f b); reflexivity. Qed.
Lemma filter_none {A} (f : A -> bool) l : (forall a, In a l -> f a = false) -> filter f l = [].
Proof. induction l as [|a l IH]; intros H; cbn; auto. rewrite (H a (or_introl eq_refl)). apply IH. intros; apply H; right; auto. Qed.
Lemma filter_some {A} (f : A -> bool) l a : In a l -> f a = true -> 1 <= length (filter f l).
Proof. intros H E. assert (In a (filter f l)) by (apply filter_In; auto). destruct (filter f l); [contradiction|cbn; lia]. Qed.
Lemma second_least before d0 after s lo :
  (forall v, In v (before ++ d0 :: after) -> is_nan v = false) ->
  (forall v, In v (before ++ after) -> fle d0 v = true) -> before ++ after <> [] ->
  in_order (before ++ d0 :: after) s -> nth_error s 1 = Some lo ->
  (exists w, In w (before ++ after) /\ feqb lo w = true) /\ (forall v, In v (before ++ after) -> fle lo v = true).
Proof.
  intros Hn H0 Hne [P S] E. destruct s as [|s0 [|s1 rest]]; try discriminate. cbn in E. assert (s1 = lo) by congruence. subst s1. clear E.
  assert (Hns : forall v, In v (s0 :: lo :: rest) -> is_nan v = false) by (intros v Hv; apply Hn; eapply Permutation_in; [apply Permutation_sym; exact P|exact Hv]).
  apply StronglySorted_inv in S. destruct S as [S F0]. apply StronglySorted_inv in S. destruct S as [S F1]. rewrite Forall_forall in F0, F1.
  assert (N0 : is_nan d0 = false) by (apply Hn; rewrite in_app_iff; right; left; auto).
  assert (Nl : is_nan lo = false) by (apply Hns; right; left; auto).
  assert (Ns : is_nan s0 = false) by (apply Hns; left; auto).
  assert (Pf : forall f : fnum -> bool, length (filter f (before ++ after)) + (if f d0 then 1 else 0) = length (filter f (s0 :: lo :: rest))).
  { intros f. rewrite <- (perm_filter f _ _ P). rewrite !filter_app, !app_length. cbn [filter]. destruct (f d0); cbn [length]; lia. }
  assert (Hall : forall v, In v (before ++ after) -> fle lo v = true).
  { intros v Hv. assert (Nv : is_nan v = false) by (apply Hn; rewrite in_app_iff in *; cbn; tauto).
    destruct (fle lo v) eqn:L; auto. exfalso. assert (Lt : flt v lo = true) by (destruct (flt v lo) eqn:Q; auto; apply fle_iff in Q; auto; congruence).
    specialize (Pf (fun w => flt w lo)). cbn beta in Pf. pose proof (filter_some (fun w => flt w lo) _ _ Hv Lt) as C.
    rewrite (fle_lt_trans d0 v lo (H0 v Hv) Lt) in Pf. cbn [filter] in Pf. rewrite flt_irrefl in Pf.
    rewrite (filter_none _ rest) in Pf; [|intros a Ha; apply fle_iff; auto; [apply Hns; right; right; auto]].
    destruct (flt s0 lo); cbn [length] in Pf; lia. }
  split; [|exact Hall].
  assert (Hin : In lo (before ++ d0 :: after)) by (eapply Permutation_in; [apply Permutation_sym; exact P|right; left; auto]).
  rewrite in_app_iff in Hin. cbn [In] in Hin.
  assert (Hc : In lo (before ++ after) \/ d0 = lo) by (rewrite in_app_iff; tauto). destruct Hc as [Hc| ->]; [exists lo; split; auto; apply feqb_refl; auto|].
  (* the least is attained twice *)
  assert (Es : feqb s0 lo = true).
  { apply fle_antisym; [apply F0; left; auto|]. assert (Hs0 : In s0 (before ++ lo :: after)) by (eapply Permutation_in; [apply Permutation_sym; exact P|left; auto]).
    rewrite in_app_iff in Hs0. cbn [In] in Hs0. destruct Hs0 as [Hs0|[<-|Hs0]]; [apply H0; rewrite in_app_iff; auto|apply fle_refl; auto|apply H0; rewrite in_app_iff; auto]. }
  specialize (Pf (fun w => feqb w lo)). cbn beta in Pf. rewrite (feqb_refl lo Nl) in Pf. cbn [filter] in Pf. rewrite Es, (feqb_refl lo Nl) in Pf. cbn [length] in Pf.
  destruct (filter (fun w => feqb w lo) (before ++ after)) as [|w l] eqn:Ef; [cbn in Pf; lia|].
  assert (Hw : In w (filter (fun w => feqb w lo) (before ++ after))) by (rewrite Ef; left; auto). apply filter_In in Hw. destruct Hw as [Hw Ew].
  exists w. split; auto. rewrite feqb_sym. auto.
Qed.
