(** Properties C106 and C107: synthetic series. *)
From Coq Require Import String QArith Lqa ZifyBool ZifyNat.
From Verif Require Import Base.Py Base.Float Base.Str Base.PyFacts Base.FloatFacts Model.Region Model.Results Model.Clustering Model.TrainInput Model.Synthetic
  Spec.Synthetic Proofs.ClusteringFacts Props.Clustering.
Local Close Scope Q_scope.
Local Open Scope nat_scope.
Local Notation length := List.length.

Section Choice.
Context (rnd : nat -> nat -> nat) (HR : picks rnd).

Lemma choose_ok {A} call (l : list A) : l <> [] -> exists x, choose rnd call l = Ok x /\ In x l.
Proof.
  intros N. unfold choose. destruct l as [|a l]; [congruence|]. set (L := a :: l) in *.
  assert (H : rnd call (length L) < length L) by (apply HR; cbn; lia). destruct (nth_error L (rnd call (length L))) as [x|] eqn:E.
  - exists x. split; [apply getitem_in; auto|eapply nth_error_In; eauto].
  - apply nth_error_None in E. lia.
Qed.
Lemma choose_range call n : (0 < n)%Z -> exists x, choose rnd call (zrange 0 n) = Ok x /\ (0 <= x < n)%Z.
Proof.
  intros N. destruct (choose_ok call (zrange 0 n)) as (x & E & H).
  - intros E. assert (In 0%Z (zrange 0 n)) by (apply in_zrange; lia). rewrite E in *. contradiction.
  - exists x. split; auto. apply in_zrange in H. lia.
Qed.
Lemma medoids_spec num x_len y_len : 0 < x_len -> 0 < y_len ->
  exists ms, random_medoids rnd num x_len y_len = Ok ms /\ length ms = num /\ forall m, In m ms -> inside x_len y_len m.
Proof.
  intros Hx Hy. unfold random_medoids. set (z := 0) at 4. generalize z. clear z. induction num as [|num IH]; intros s; [exists []; split; [reflexivity|]; split; auto; intros ? []|].
  cbn [seq mapM]. destruct (choose_range (2 * s) (Z.of_nat x_len)) as (x & Ex & Rx); [lia|]. destruct (choose_range (2 * s + 1) (Z.of_nat y_len)) as (y & Ey & Ry); [lia|].
  rewrite Ex. cbn [bind]. rewrite Ey. cbn [bind]. destruct (IH (S s)) as (ms & Em & Lm & Im). rewrite Em. cbn [bind].
  eexists. split; [reflexivity|]. split; [cbn; lia|]. intros m [<-|Hm]; auto. split; auto.
Qed.

End Choice.

Lemma mod2_odd s : (s mod 2 * 2 - 1 = if Z.odd s then 1 else -1)%Z.
Proof. rewrite Zmod_odd. destruct (Z.odd s); reflexivity. Qed.

(** every entry has a k and a seed of the lists, a cluster below k, one of the given number of medoids inside the region, and a
    series of the given length: normal noise around a line whose slope depends on k, the seed and the cluster *)
Theorem C106_entries rnd normal ks seeds num_medoids num_entries series_len x_len y_len a_weight b_min b_max noise :
  picks rnd -> ks <> [] -> (forall k, In k ks -> (0 < k)%Z) -> seeds <> [] -> 0 < num_medoids -> 0 < x_len -> 0 < y_len -> ~ (b_min == b_max)%Q -> flt noise (Fin 0) = false ->
  exists medoids entries,
    generate_synthetic_series rnd normal ks seeds num_medoids num_entries series_len x_len y_len (Fin a_weight) b_min b_max noise = Ok entries /\
    length entries = num_entries /\ length medoids = num_medoids /\ (forall m, In m medoids -> inside x_len y_len m) /\
    forall e en, nth_error entries e = Some en ->
      In (en_k en) ks /\ In (en_seed en) seeds /\ (0 <= en_cluster en < en_k en)%Z /\ In (en_medoid en) medoids /\ length (en_series en) = series_len /\
      exists b, (exists i, i < 12 /\ (b == b_min + inject_Z (Z.of_nat i) * ((b_max - b_min) / 12))%Q) /\
        forall j, j < series_len -> exists v, nth_error (en_series en) j = Some (normal e j (Fin v) noise) /\
          (v == line_slope (en_k en) (en_seed en) (en_cluster en) a_weight * inject_Z (Z.of_nat j) + b)%Q.
Proof.
  intros HR Nk Pk Ns Hm Hx Hy Hb Hn. destruct (medoids_spec rnd HR num_medoids x_len y_len Hx Hy) as (ms & Em & Lm & Im).
  assert (Nm : ms <> []) by (destruct ms; cbn in *; [lia|discriminate]).
  unfold generate_synthetic_series. rewrite Em. cbn [bind].
  set (P := fun e en => In (en_k en) ks /\ In (en_seed en) seeds /\ (0 <= en_cluster en < en_k en)%Z /\ In (en_medoid en) ms /\ length (en_series en) = series_len /\
      exists b, (exists i, i < 12 /\ (b == b_min + inject_Z (Z.of_nat i) * ((b_max - b_min) / 12))%Q) /\
        forall j, j < series_len -> exists v, nth_error (en_series en) j = Some (normal e j (Fin v) noise) /\
          (v == line_slope (en_k en) (en_seed en) (en_cluster en) a_weight * inject_Z (Z.of_nat j) + b)%Q).
  match goal with |- context [mapM ?f _] => set (F := f) end.
  assert (G : forall e, exists en, F e = Ok en /\ P e en).
  { intros e. unfold F. set (call := 2 * num_medoids + 5 * e).
    destruct (choose_ok rnd HR call ks Nk) as (k & Ek & Ik). destruct (choose_ok rnd HR (call + 1) seeds Ns) as (s & Es & Is).
    destruct (choose_range rnd HR (call + 2) k (Pk k Ik)) as (ci & Ec & Rc). destruct (choose_ok rnd HR (call + 3) ms Nm) as (m & Ed & Id).
    rewrite Ek. cbn [bind]. rewrite Es. cbn [bind]. rewrite Ec. cbn [bind]. rewrite Ed. cbn [bind].
    unfold synthetic_temperature, b_choices. destruct (Qeq_bool b_min b_max) eqn:Eb; [apply Qeq_bool_iff in Eb; contradiction|]. cbn [bind].
    destruct (choose_ok rnd HR (call + 4) (map (fun i => b_min + inject_Z (Z.of_nat i) * ((b_max - b_min) / 12))%Q (seq 0 12))) as (b & Ebb & Ib); [discriminate|].
    rewrite Ebb. cbn [bind]. unfold normals. rewrite Hn. cbn [bind]. eexists. split; [reflexivity|].
    unfold P. cbn [en_k en_seed en_cluster en_medoid en_series]. split; auto. split; auto. split; auto. split; auto. split.
    { rewrite map_length, enumerate_length, map_length, seq_length. auto. }
    exists b. split.
    { apply in_map_iff in Ib. destruct Ib as (i & <- & Hi). apply in_seq in Hi. exists i. split; [lia|reflexivity]. }
    intros j Hj. exists (inject_Z (Z.of_nat j) * (inject_Z ((k - ci) * (s mod 2 * 2 - 1)) * a_weight) + b)%Q. split.
    - rewrite nth_error_map, nth_error_enumerate, nth_error_map, (nth_error_nth' _ 0) by (rewrite seq_length; auto). rewrite seq_nth by auto. reflexivity.
    - unfold line_slope. rewrite mod2_odd, inject_Z_mult. destruct (Z.odd s); [change (inject_Z 1) with 1%Q|change (inject_Z (-1)) with (-1)%Q]; ring. }
  assert (GM : forall n s, exists l, mapM F (seq s n) = Ok l /\ length l = n /\ forall e en, nth_error l e = Some en -> P (s + e) en).
  { induction n as [|n IH]; intros s; [exists []; split; auto; split; auto; intros [|]; discriminate|]. cbn [seq mapM].
    destruct (G s) as (en & E & Pe). rewrite E. cbn [bind]. destruct (IH (S s)) as (l & El & Ll & Pl). rewrite El. cbn [bind]. eexists. split; [reflexivity|]. split; [cbn; lia|].
    intros [|e] en' He; cbn in He; [injection He as <-; rewrite Nat.add_0_r; auto|]. rewrite <- Nat.add_succ_comm. apply Pl; auto. }
  destruct (GM num_entries 0) as (l & El & Ll & Pl). exists ms, l. split; [exact El|]. split; [exact Ll|]. split; [exact Lm|]. split; [exact Im|]. intros e en He. apply (Pl e en He).
Qed.

(** the file has one row per entry with the columns of the header, and is a training file: the header of the training data of
    a k-medoids suite, and the row of the entry's clustering, cluster, medoid and series *)
Theorem C106_csv rnd normal ks seeds num_medoids num_entries series_len x_len y_len region_id a_weight b_min b_max noise entries :
  generate_synthetic_series rnd normal ks seeds num_medoids num_entries series_len x_len y_len a_weight b_min b_max noise = Ok entries ->
  exists header rows,
    generate_synthetic_csv rnd normal ks seeds num_medoids num_entries series_len x_len y_len region_id "kmedoids" "lite" a_weight b_min b_max noise = Ok (header, rows) /\
    (forall k seed medoids suite, csv_header ((c_repr (CKmedoids (kmeta_default k seed "lite")), medoids) :: suite) series_len = Ok header) /\
    length rows = length entries /\
    forall e en, nth_error entries e = Some en -> exists row, nth_error rows e = Some row /\ length header = length row /\
      medoid_row region_id (c_repr (CKmedoids (kmeta_default (en_k en) (en_seed en) "lite"))) (en_cluster en) (en_medoid en) (en_series en) = Ok row.
Proof.
  intros E.
  assert (RT : forall k s, factory_from_repr (c_repr (CKmedoids (kmeta_default k s "lite"))) = Ok (CKmedoids (kmeta_default k s "lite"))).
  { intros k s. unfold factory_from_repr. cbn [c_repr]. rewrite kmeta_split by auto. rewrite kmeta_round_trip by auto. reflexivity. }
  assert (Ls : forall en, In en entries -> length (en_series en) = series_len).
  { unfold generate_synthetic_series in E. destruct (random_medoids _ _ _ _); [|discriminate]. cbn [bind] in E. intros en Hen.
    apply In_nth_error in Hen. destruct Hen as [n Hn]. pose proof (mapM_length _ _ _ E) as L. rewrite seq_length in L.
    assert (n < length entries) by (apply nth_error_Some; congruence).
    destruct (mapM_nth _ _ _ E n n) as (y & Ey & Ny). { rewrite (nth_error_nth' _ 0) by (rewrite seq_length; lia). rewrite seq_nth by lia. auto. }
    assert (y = en) by congruence. subst y. clear -Ey.
    destruct (choose _ _ ks); [|discriminate]. cbn [bind] in Ey. destruct (choose _ _ seeds); [|discriminate]. cbn [bind] in Ey.
    destruct (choose _ _ (zrange 0 a0)); [|discriminate]. cbn [bind] in Ey. destruct (choose _ _ a); [|discriminate]. cbn [bind] in Ey.
    unfold synthetic_temperature in Ey. destruct (b_choices b_min b_max); [|discriminate]. cbn [bind] in Ey. destruct (choose _ _ a4); [|discriminate]. cbn [bind] in Ey.
    unfold normals in Ey. destruct (flt noise (Fin 0)); [discriminate|]. cbn [bind] in Ey. injection Ey as <-. cbn [en_series].
    rewrite map_length, enumerate_length, map_length, seq_length. auto. }
  unfold generate_synthetic_csv. rewrite E. cbn [bind]. do 2 eexists. split; [reflexivity|]. split.
  { intros k seed medoids su. unfold csv_header. cbn [map fst]. change (getitem (?a :: ?l) 0) with (Ok a). cbn [bind]. rewrite RT. cbn [bind]. reflexivity. }
  split; [apply map_length|]. intros e en He. eexists. split; [rewrite nth_error_map, He; reflexivity|]. split.
  - rewrite !app_length, !map_length, seq_length, (Ls en (nth_error_In _ _ He)). reflexivity.
  - unfold medoid_row. rewrite RT. reflexivity.
Qed.

(** nothing to choose from: IndexError *)
Theorem C106_nothing_to_choose rnd normal ks seeds num_medoids num_entries series_len x_len y_len a_weight b_min b_max noise :
  picks rnd -> 0 < num_entries -> 0 < x_len -> 0 < y_len -> (ks = [] \/ seeds = [] \/ num_medoids = 0 \/ forall k, In k ks -> (k <= 0)%Z) ->
  generate_synthetic_series rnd normal ks seeds num_medoids num_entries series_len x_len y_len a_weight b_min b_max noise = Raise IndexError.
Proof.
  intros HR Hn Hx Hy H. destruct (medoids_spec rnd HR num_medoids x_len y_len Hx Hy) as (ms & Em & Lm & _).
  unfold generate_synthetic_series. rewrite Em. cbn [bind]. destruct num_entries as [|n]; [lia|]. cbn [seq mapM].
  set (call := 2 * num_medoids + 5 * 0). 
  destruct ks as [|k0 ks0] eqn:Ek; [reflexivity|]. rewrite <- Ek in *. assert (Nk : ks <> []) by (subst; discriminate). clear Ek k0 ks0.
  destruct (choose_ok rnd HR call ks Nk) as (k & Ek & Ik). rewrite Ek. cbn [bind].
  destruct seeds as [|s0 sd] eqn:Es; [reflexivity|]. rewrite <- Es in *. assert (Nk' : seeds <> []) by (subst; discriminate). clear Es s0 sd.
  destruct (choose_ok rnd HR (call + 1) seeds Nk') as (s & Es & Is). rewrite Es. cbn [bind].
  destruct H as [H|[H|[H|H]]]; try contradiction.
  - subst num_medoids. destruct ms; [|discriminate]. destruct (choose rnd (call + 2) (zrange 0 k)) as [ci|e] eqn:Ec; [reflexivity|].
    unfold choose in Ec. cbn [bind]. destruct (zrange 0 k) as [|z l]; [injection Ec as <-; reflexivity|].
    destruct (nth_error (z :: l) (rnd (call + 2) (length (z :: l)))) eqn:En.
    + rewrite (getitem_in _ _ _ En) in Ec. discriminate.
    + apply nth_error_None in En. specialize (HR (call + 2) (length (z :: l))). cbn [length] in *. lia.
  - specialize (H k Ik). assert (Z0 : zrange 0 k = []).
    { destruct (zrange 0 k) as [|z l] eqn:Ez; auto. assert (In z (zrange 0 k)) by (rewrite Ez; left; auto). apply in_zrange in H0. lia. }
    rewrite Z0. reflexivity.
Qed.

(** the seed of the call does not fix the noise: the same choices give different series *)
Theorem C106_reproducible_refuted : exists rnd normal normal' entries entries', picks rnd /\
  generate_synthetic_series rnd normal [3%Z] [1%Z] 1 1 2 5 5 (Fin (1 # 100)) 298 302 (Fin (1 # 5)) = Ok entries /\
  generate_synthetic_series rnd normal' [3%Z] [1%Z] 1 1 2 5 5 (Fin (1 # 100)) 298 302 (Fin (1 # 5)) = Ok entries' /\ entries <> entries'.
Proof.
  exists (fun _ _ => 0), (fun _ _ _ _ => Fin 300), (fun _ _ _ _ => Fin 301). do 2 eexists. split; [intros ? ? H; exact H|].
  split; [vm_compute; reflexivity|]. split; [vm_compute; reflexivity|]. discriminate.
Qed.

Example C106_example : picks (fun _ n => n - 1) /\
  exists en, generate_synthetic_series (fun _ n => n - 1) (fun _ _ v _ => v) [32; 52]%Z [0; 1]%Z 2 1 3 90 80 (Fin 1) 0 12 (Fin 0) = Ok [en] /\
    en_k en = 52%Z /\ en_seed en = 1%Z /\ en_cluster en = 51%Z /\ en_medoid en = (89, 79)%Z /\ Forall2 feqv (en_series en) [Fin 11; Fin 12; Fin 13].
Proof. split; [intros ? ? ?; lia|]. eexists. split; [vm_compute; reflexivity|]. repeat split; repeat constructor. Qed.

(* ---------------------------------------------------------------- C107 *)
Lemma nth_repeat_lt {A} (a d : A) n i : i < n -> nth i (repeat a n) d = a.
Proof. revert i. induction n as [|n IH]; intros [|i] H; cbn; auto; try lia. apply IH. lia. Qed.

(** a delayed function of at least seven values: the series has the given length; noise around the profile, which starts after
    fewer values than the padding, and around 0 elsewhere *)
Theorem C107_delayed normal profile pad series_len : 7 <= series_len -> (forall n, 0 < n -> pad n < n) ->
  exists series delay padding, delayed_function_with_noise normal profile pad series_len = Ok series /\ length series = series_len /\
    delay < padding /\ padding <= 30 /\ 100 * padding <= 15 * series_len /\ (padding = 30 \/ 15 * series_len < 100 * (padding + 1)) /\
    forall j, j < series_len ->
      nth_error series j = Some (normal 0 j (if (delay <=? j) && (j <? delay + (series_len - padding)) then profile (j - delay) (series_len - padding) else Fin 0) (Fin (1 # 50))).
Proof.
  intros Hl Hp. set (p := padding_length series_len).
  assert (B1 : 100 * (series_len * 15 / 100) <= series_len * 15) by (apply Nat.mul_div_le; lia).
  assert (B2 : series_len * 15 < 100 * S (series_len * 15 / 100)) by (apply Nat.mul_succ_div_gt; lia).
  assert (P0 : 0 < p /\ p <= 30 /\ 100 * p <= 15 * series_len /\ (p = 30 \/ 15 * series_len < 100 * (p + 1))).
  { unfold p, padding_length. destruct (Nat.min_spec 30 (series_len * 15 / 100)) as [[H ->]|[H ->]]; lia. }
  destruct P0 as (P0 & P1 & P2 & P3). specialize (Hp p P0).
  unfold delayed_function_with_noise. fold p. destruct (Nat.eqb_spec p 0); [lia|]. cbn [flt Qltb normals].
  set (n0 := series_len - p). set (L := (repeat (Fin 0) (pad p) ++ map (fun j => profile j n0) (seq 0 n0) ++ repeat (Fin 0) (p - pad p))%list).
  assert (LL : length L = series_len). { unfold L. rewrite !app_length, !repeat_length, map_length, seq_length. unfold n0. lia. }
  exists (map (fun '(j, v) => normal 0 j v (Fin (1 # 50))) (enumerate L)), (pad p), p. split; [reflexivity|].
  split; [rewrite map_length, enumerate_length; auto|]. repeat (split; auto). fold n0. intros j Hj.
  rewrite nth_error_map, nth_error_enumerate. rewrite (nth_error_nth' L NaN) by lia. cbn [option_map]. do 2 f_equal.
  unfold L. destruct (Nat.leb_spec (pad p) j) as [H|H]; cbn [andb].
  - rewrite app_nth2; rewrite repeat_length; [|lia]. destruct (Nat.ltb_spec j (pad p + n0)) as [H'|H'].
    + rewrite app_nth1 by (rewrite map_length, seq_length; lia). rewrite (nth_indep _ NaN (profile 0 n0)) by (rewrite map_length, seq_length; lia).
      rewrite (map_nth (fun j => profile j n0)), seq_nth by lia. reflexivity.
    + rewrite app_nth2; rewrite map_length, seq_length; [|lia]. apply nth_repeat_lt. unfold n0 in *. lia.
  - rewrite app_nth1 by (rewrite repeat_length; lia). apply nth_repeat_lt. lia.
Qed.

(** shorter series leave no room for a delay: ValueError *)
Theorem C107_short normal profile pad series_len : series_len < 7 -> delayed_function_with_noise normal profile pad series_len = Raise ValueError.
Proof. intros H. do 7 (destruct series_len as [|series_len]; [reflexivity|]). lia. Qed.

Example C107_example : (forall n, 0 < n -> n - 1 < n) /\
  delayed_function_with_noise (fun _ _ v _ => v) (fun j _ => fof_nat j) (fun n => n - 1) 14 =
  Ok ([Fin 0] ++ map fof_nat (seq 0 12) ++ [Fin 0])%list.
Proof. split; [intros; lia|reflexivity]. Qed.

Print Assumptions C106_entries.
Print Assumptions C106_csv.
Print Assumptions C106_nothing_to_choose.
Print Assumptions C106_reproducible_refuted.
Print Assumptions C107_delayed.
Print Assumptions C107_short.
