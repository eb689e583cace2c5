(** Facts for Model/Series.v. *)
From Coq Require Import ZifyBool ZifyNat.
From Verif Require Import Base.Py Base.PyFacts Base.Arr Base.ArrFacts Base.Float Base.FloatFacts
     Spec.Grid Spec.Partition Spec.Rect Spec.Calendar Model.Region Model.Series
     Proofs.RegionFacts Proofs.PartitionFacts Proofs.SubsetFacts Proofs.ScalingFacts.

(* ---------- split ---------- *)
Lemma interval_subset_eq {A} (r : stregion A) ti :
  interval_subset r ti = t_new_st r (slice3 (t_data r) (Some (t1 ti, t2 ti)) None None).
Proof.
  induction r as [d|r IH p c|r IH mn mx]; cbn [interval_subset t_new_st t_data]; auto.
  rewrite IH, t_data_new_st. reflexivity.
Qed.

(** what reading a series checks before looking at the samples *)
Fixpoint guard {A} (r : stregion A) (pt : point) : res unit :=
  match r with
  | TPlain _ => Ok tt
  | TCluster r' p c => b <- is_member p pt c ;; if b then guard r' pt else Raise ValueError
  | TScaled r' _ _ => guard r' pt
  end.
Lemma series_at_guard {A} (r : stregion A) pt : series_at r pt = (_ <- guard r pt ;; series3 (t_data r) (fst pt) (snd pt)).
Proof.
  induction r as [d|r IH p c|r IH mn mx]; cbn [series_at guard t_data]; auto.
  destruct (is_member p pt c) as [[|]|e]; cbn [bind]; auto.
Qed.
Lemma guard_new_st {A} (r : stregion A) m pt : guard (t_new_st r m) pt = guard r pt.
Proof. induction r as [d|r IH p c|r IH mn mx]; cbn [guard t_new_st]; auto. rewrite IH; auto. Qed.
Lemma series_at_new_st {A} (r : stregion A) m pt :
  series_at (t_new_st r m) pt = (_ <- guard r pt ;; series3 m (fst pt) (snd pt)).
Proof. rewrite series_at_guard, guard_new_st, t_data_new_st. reflexivity. Qed.

(** the two halves of a series *)
Lemma slice_time_series {A} (d : arr3 A) a b pt s : wf3 d -> (0 <= a <= b)%Z -> (b <= Z.of_nat (a3t d))%Z ->
  in_grid (a3x d) (a3y d) pt -> series3 d (fst pt) (snd pt) = Ok s ->
  series3 (slice3 d (Some (a, b)) None None) (fst pt) (snd pt)
  = Ok (firstn (Z.to_nat b - Z.to_nat a) (skipn (Z.to_nat a) s)).
Proof.
  intros Hw Ha Hb [G1 G2] Es.
  assert (S1 : sok (a3t d) (Some (a, b))) by (cbn; auto).
  assert (S2 : sok (a3x d) None) by (cbn; auto). assert (S3 : sok (a3y d) None) by (cbn; auto).
  destruct (slice3_spec d (Some (a, b)) None None Hw S1 S2 S3) as (W & T & X & Y & _). cbn [srng fst snd] in X, Y.
  rewrite (slice3_series d (Some (a, b)) None None (fst pt) (snd pt) s Hw S1 S2 S3).
  - cbn [srng fst snd]. reflexivity.
  - rewrite X. clear - G1. lia.
  - rewrite Y. clear - G2. lia.
  - cbn [srng fst snd Z.of_nat]. rewrite !Z.add_0_l. exact Es.
Qed.

Lemma split_spec {A} (r : stregion A) (test_len : Z) : twf r -> (0 <= test_len <= Z.of_nat (t_len r))%Z ->
  let '(train, test) := split_training_and_test_last test_len r in
  Z.of_nat (t_len train) = (Z.of_nat (t_len r) - test_len)%Z /\ Z.of_nat (t_len test) = test_len /\
  t_x train = t_x r /\ t_y train = t_y r /\ t_x test = t_x r /\ t_y test = t_y r /\
  forall pt, in_grid (t_x r) (t_y r) pt ->
    match series_at r pt with
    | Ok s => exists s1 s2, series_at train pt = Ok s1 /\ series_at test pt = Ok s2 /\ s1 ++ s2 = s /\
                Z.of_nat (length s2) = test_len
    | Raise e => series_at train pt = Raise e /\ series_at test pt = Raise e
    end.
Proof.
  intros Hw Ht. unfold split_training_and_test_last. rewrite !interval_subset_eq. cbn [t1 t2].
  pose proof (twf_data r Hw) as Wd. unfold t_len, t_x, t_y in *. rewrite !t_data_new_st.
  set (L := a3t (t_data r)) in *. set (n := (Z.of_nat L - test_len)%Z) in *.
  assert (Hn : (0 <= n <= Z.of_nat L)%Z) by (unfold n; lia).
  assert (S1 : sok (a3t (t_data r)) (Some (0%Z, n))) by (cbn; fold L; lia).
  assert (S2 : sok (a3t (t_data r)) (Some (n, Z.of_nat L))) by (cbn; fold L; lia).
  assert (S3 : sok (a3x (t_data r)) None) by (cbn; auto). assert (S4 : sok (a3y (t_data r)) None) by (cbn; auto).
  destruct (slice3_spec _ _ None None Wd S1 S3 S4) as (_ & T1 & X1 & Y1 & _).
  destruct (slice3_spec _ _ None None Wd S2 S3 S4) as (_ & T2 & X2 & Y2 & _).
  cbn [srng fst snd] in *. rewrite T1, T2, X1, X2, Y1, Y2. clear T1 T2 X1 X2 Y1 Y2.
  split; [clear - Hn Ht; lia|]. split; [clear - Hn Ht; unfold n in *; lia|].
  do 4 (split; [lia|]). intros pt Hg. rewrite series_at_guard, !series_at_new_st.
  destruct (guard r pt) as [[]|e]; cbn [bind]; auto.
  destruct (series3_ok (t_data r) (fst pt) (snd pt) Wd) as (s & Es & Ls & _); [apply Hg|apply Hg|].
  rewrite Es. rewrite (slice_time_series _ _ _ pt s Wd) by (auto; clear - Hn; lia).
  rewrite (slice_time_series _ _ _ pt s Wd) by (auto; clear - Hn; lia).
  do 2 eexists. split; [reflexivity|]. split; [reflexivity|].
  cbn [Z.to_nat skipn]. rewrite Nat.sub_0_r.
  split.
  - rewrite firstn_all2 with (l := skipn _ s); [apply firstn_skipn|]. rewrite skipn_length, Ls. fold L. lia.
  - rewrite firstn_length, skipn_length, Ls. fold L. clear - Hn Ht. unfold n in *. lia.
Qed.

(** any other test length silently behaves as one in range *)
Definition effective (L test_len : Z) : Z :=
  (if test_len <? 0 then 0 else if test_len <=? L then test_len
   else if test_len <? 2 * L then test_len - L else L)%Z.
Lemma effective_range L t : (0 <= L)%Z -> (0 <= effective L t <= L)%Z.
Proof. unfold effective. intros H. destruct (Z.ltb_spec t 0), (Z.leb_spec t L), (Z.ltb_spec t (2 * L)); lia. Qed.
Lemma slice3_bounds {A} (d : arr3 A) a b a' b' :
  slice_bound (a3t d) a = slice_bound (a3t d) a' -> slice_bound (a3t d) b = slice_bound (a3t d) b' ->
  slice3 d (Some (a, b)) None None = slice3 d (Some (a', b')) None None.
Proof. intros E1 E2. unfold slice3. rewrite E1, E2. reflexivity. Qed.
Lemma split_effective {A} (r : stregion A) (t : Z) :
  split_training_and_test_last t r = split_training_and_test_last (effective (Z.of_nat (t_len r)) t) r.
Proof.
  unfold split_training_and_test_last. rewrite !interval_subset_eq. cbn [t1 t2].
  f_equal; f_equal; apply slice3_bounds; auto; fold (t_len r); set (L := t_len r);
    unfold slice_bound, effective;
    destruct (Z.ltb_spec t 0), (Z.leb_spec t (Z.of_nat L)), (Z.ltb_spec t (2 * Z.of_nat L)); try lia;
    repeat match goal with |- context [(?u <? 0)%Z] => destruct (Z.ltb_spec u 0) end; lia.
Qed.

(* ---------- calendar ---------- *)
Lemma jan_first_ok y : (1 <= y <= 9999)%Z ->
  jan_first y = Ok ((y - 1) * 365 + (y - 1) / 4 - (y - 1) / 100 + (y - 1) / 400)%Z.
Proof. intros H. unfold jan_first. replace ((1 <=? y) && (y <=? 9999))%Z with true by lia. reflexivity. Qed.

Definition ord (y : Z) : Z := ((y - 1) * 365 + (y - 1) / 4 - (y - 1) / 100 + (y - 1) / 400)%Z.
Lemma div_step y n : (0 < n)%Z -> (y / n = (y - 1) / n + (if y mod n =? 0 then 1 else 0))%Z.
Proof.
  intros Hn. pose proof (Z.div_mod y n ltac:(lia)) as E. pose proof (Z.mod_pos_bound y n Hn) as B.
  set (q := (y / n)%Z) in *. set (r := (y mod n)%Z) in *. clearbody q r.
  destruct (Z.eqb_spec r 0).
  - replace (y - 1)%Z with ((q - 1) * n + (n - 1))%Z by lia. rewrite Z.div_add_l by lia. rewrite Z.div_small by lia. lia.
  - replace (y - 1)%Z with (q * n + (r - 1))%Z by lia. rewrite Z.div_add_l by lia. rewrite Z.div_small by lia. lia.
Qed.
Lemma mod_dvd y a b : (0 < a)%Z -> (0 < b)%Z -> (y mod (a * b) = 0)%Z -> (y mod a = 0)%Z.
Proof.
  intros Ha Hb H. apply Z.mod_divide in H; [|lia]. destruct H as [k ->].
  replace (k * (a * b))%Z with ((k * b) * a)%Z by ring. apply Z.mod_mul. lia.
Qed.
Lemma ord_succ y : ord (y + 1) = (ord y + days_in_year y)%Z.
Proof.
  unfold ord, days_in_year, leap. replace (y + 1 - 1)%Z with y by ring.
  pose proof (div_step y 4 ltac:(lia)). pose proof (div_step y 100 ltac:(lia)). pose proof (div_step y 400 ltac:(lia)).
  pose proof (mod_dvd y 4 25 ltac:(lia) ltac:(lia)) as D1. pose proof (mod_dvd y 100 4 ltac:(lia) ltac:(lia)) as D2.
  change (4 * 25)%Z with 100%Z in D1. change (100 * 4)%Z with 400%Z in D2.
  set (a := (y / 4)%Z) in *. set (b := (y / 100)%Z) in *. set (c := (y / 400)%Z) in *.
  set (a' := ((y - 1) / 4)%Z) in *. set (b' := ((y - 1) / 100)%Z) in *. set (c' := ((y - 1) / 400)%Z) in *.
  set (m := (y mod 4)%Z) in *. set (m1 := (y mod 100)%Z) in *. set (m2 := (y mod 400)%Z) in *.
  clearbody a b c a' b' c' m m1 m2.
  destruct (Z.eqb_spec m 0), (Z.eqb_spec m1 0), (Z.eqb_spec m2 0); cbn [negb andb orb]; try lia.
Qed.
Lemma ord_days a n : ord (a + Z.of_nat n) = (ord a + days_in_years a n)%Z.
Proof.
  revert a. induction n as [|n IH]; intros a; cbn [days_in_years]; [rewrite Z.add_0_r; ring|].
  replace (a + Z.of_nat (S n))%Z with ((a + 1) + Z.of_nat n)%Z by lia. rewrite IH, ord_succ. ring.
Qed.

Lemma years_spec first a b spd : (1 <= first <= a)%Z -> (a <= b + 1)%Z -> (b < 9999)%Z ->
  years_to_series_interval a b first spd
  = Ok (days_in_years first (Z.to_nat (a - first)) * spd,
        (days_in_years first (Z.to_nat (a - first)) + days_in_years a (Z.to_nat (b + 1 - a))) * spd)%Z.
Proof.
  intros H1 H2 H3. unfold years_to_series_interval.
  rewrite !jan_first_ok by lia. cbn [bind]. fold (ord first) (ord a) (ord (b + 1)).
  pose proof (ord_days first (Z.to_nat (a - first))) as E1. pose proof (ord_days a (Z.to_nat (b + 1 - a))) as E2.
  replace (first + Z.of_nat (Z.to_nat (a - first)))%Z with a in E1 by lia.
  replace (a + Z.of_nat (Z.to_nat (b + 1 - a)))%Z with (b + 1)%Z in E2 by lia.
  rewrite E2, E1. do 2 f_equal; ring.
Qed.
Lemma years_rejected first a b spd :
  ~ (1 <= first <= 9999)%Z \/ ~ (1 <= a <= 9999)%Z \/ ~ (1 <= b + 1 <= 9999)%Z ->
  years_to_series_interval a b first spd = Raise ValueError.
Proof.
  intros H. unfold years_to_series_interval, jan_first.
  destruct ((1 <=? first) && (first <=? 9999))%Z eqn:E1; cbn [bind]; auto.
  destruct ((1 <=? a) && (a <=? 9999))%Z eqn:E2; cbn [bind]; auto.
  destruct ((1 <=? b + 1) && (b + 1 <=? 9999))%Z eqn:E3; cbn [bind]; auto. lia.
Qed.
(** works before the first year too: the interval of adjacent ranges *)
Lemma years_adjacent first a b c spd i j k l :
  years_to_series_interval a b first spd = Ok (i, j) -> years_to_series_interval (b + 1) c first spd = Ok (k, l) ->
  j = k /\ years_to_series_interval a c first spd = Ok (i, l).
Proof.
  unfold years_to_series_interval. intros H1 H2.
  destruct (jan_first first) as [f|]; [|discriminate]. cbn [bind] in *.
  destruct (jan_first a) as [da|]; [|discriminate]. cbn [bind] in *.
  destruct (jan_first (b + 1)) as [db|]; [|discriminate]. cbn [bind] in *.
  destruct (jan_first (c + 1)) as [dc|]; [|discriminate]. cbn [bind] in *.
  injection H1 as <- <-. injection H2 as <- <-. auto.
Qed.

(* ---------- daily averages ---------- *)
Lemma rows_of_4_spec {A} n (l : list A) : length l = n * 4 ->
  length (rows_of_4 n l) = n /\
  forall k, k < n -> nth_error (rows_of_4 n l) k = Some (firstn 4 (skipn (4 * k) l)).
Proof.
  revert l. induction n as [|n IH]; intros l Hl; cbn [rows_of_4 length]; [split; [auto|intros; lia]|].
  destruct (IH (skipn 4 l)) as [IH1 IH2]; [rewrite skipn_length; lia|].
  split; [lia|]. intros [|k] Hk; cbn [nth_error]; auto.
  rewrite IH2 by lia. f_equal. f_equal. rewrite skipn_skipn'. f_equal. lia.
Qed.

Lemma foldM_grid {S} (f : S -> nat -> nat -> res S) x y s :
  foldM (fun s i => foldM (fun s j => f s i j) (seq 0 y) s) (seq 0 x) s
  = foldM (fun s p => f s (Z.to_nat (fst p)) (Z.to_nat (snd p))) (grid x y) s.
Proof.
  unfold grid. generalize (seq 0 x) as l. intros l. revert s.
  induction l as [|i l IH]; intros s; cbn [foldM flat_map]; auto.
  rewrite foldM_app, foldM_map. cbn [fst snd].
  match goal with |- bind ?u _ = bind ?v _ => assert (E : u = v) end.
  { apply foldM_ext. intros s' j _. rewrite !Nat2Z.id. reflexivity. }
  rewrite E. clear E. match goal with |- bind ?u _ = bind ?u _ => destruct u end; cbn [bind]; [apply IH|reflexivity].
Qed.

Definition day_means (n : nat) (s : list fnum) : list fnum := map fmean (rows_of_4 n s).

Lemma average_spec garbage (d : arr3 fnum) n : wf3 d -> a3t d = (4 * n)%nat ->
  exists m, average_4spd_to_1spd garbage d = Ok m /\ wf3 m /\ a3t m = n /\ a3x m = a3x d /\ a3y m = a3y d /\
    forall pt, in_grid (a3x d) (a3y d) pt ->
      exists s s', series3 d (fst pt) (snd pt) = Ok s /\ series3 m (fst pt) (snd pt) = Ok s' /\ length s' = n /\
        forall k, k < n -> nth_error s' k = Some (fmean (firstn 4 (skipn (4 * k) s))).
Proof.
  intros Hw Hn. unfold average_4spd_to_1spd.
  assert (En : a3t d / 4 = n) by (rewrite Hn, Nat.mul_comm; apply Nat.div_mul; lia). rewrite En.
  rewrite foldM_grid.
  set (r := TPlain d). assert (Wr : twf r) by exact Hw.
  destruct (write_series_loop n (a3x d) (a3y d) (full3 n (a3x d) (a3y d) garbage)
     (fun pt => s <- series3 d (fst pt) (snd pt) ;; rows <- reshape_n_4 s n ;; Ok (map fmean rows))
     (fun pt => day_means n (t_ser r pt)) (fun pt => pt) eq_refl eq_refl eq_refl (wf3_full _ _ _ _)
     (grid (a3x d) (a3y d))) as (m & E & W & T & X & Y & P & Q).
  - rewrite map_id. apply grid_nodup.
  - intros pt Hin. apply in_grid_iff in Hin. split; auto.
    pose proof (series3_t_ser r pt Wr Hin) as Es. cbn [t_data r] in Es. rewrite Es. cbn [bind].
    pose proof (t_ser_length r pt Wr Hin) as L. unfold t_len in L. cbn [t_data r] in L. rewrite Hn in L.
    unfold reshape_n_4. replace (length (t_ser r pt) =? n * 4)%nat with true by lia. cbn [bind].
    split; [reflexivity|]. unfold day_means. rewrite map_length. apply rows_of_4_spec. lia.
  - exists m. split.
    { rewrite <- E. apply foldM_ext. intros s pt Hin. apply in_grid_iff in Hin. destruct Hin as [G1 G2].
      rewrite !Z2Nat.id by lia. rewrite !bind_assoc. destruct (series3 _ _ _); cbn [bind]; auto.
      rewrite !bind_assoc. reflexivity. }
    repeat (split; [assumption|]). intros pt Hg.
    pose proof (series3_t_ser r pt Wr Hg) as Es. pose proof (t_ser_length r pt Wr Hg) as L.
    unfold t_len in L. cbn [t_data r] in Es, L. rewrite Hn in L.
    exists (t_ser r pt), (day_means n (t_ser r pt)). split; [exact Es|].
    split; [apply P; apply in_grid_iff; auto|].
    destruct (rows_of_4_spec n (t_ser r pt)) as [R1 R2]; [lia|].
    unfold day_means. rewrite map_length. split; auto.
    intros k Hk. rewrite nth_error_map, R2 by auto. reflexivity.
Qed.

Lemma average_rejected garbage (d : arr3 fnum) : wf3 d -> (a3t d mod 4 <> 0)%nat -> 0 < a3x d -> 0 < a3y d ->
  average_4spd_to_1spd garbage d = Raise ValueError.
Proof.
  intros Hw Hn Hx Hy. unfold average_4spd_to_1spd.
  destruct (a3x d) as [|x] eqn:Ex; [lia|]. destruct (a3y d) as [|y] eqn:Ey; [lia|]. cbn [seq foldM].
  destruct (series3_ok d 0 0 Hw) as (s & Es & Ls & _); try (rewrite ?Ex, ?Ey; lia).
  cbn [Z.of_nat]. rewrite Es. cbn [bind]. unfold reshape_n_4. rewrite Ls.
  pose proof (Nat.div_mod (a3t d) 4 ltac:(lia)) as D. set (q := a3t d / 4) in *. set (mm := a3t d mod 4) in *.
  clearbody q mm. replace (a3t d =? q * 4)%nat with false by lia. reflexivity.
Qed.

(* ---------- labelled windows ---------- *)
Lemma filter_le {A} (f : A -> bool) l : length (filter f l) <= length l.
Proof. induction l as [|a l IH]; cbn; [lia|]. destruct (f a); cbn; lia. Qed.
Lemma filter_lt {A} (f : A -> bool) l x : In x l -> f x = false -> length (filter f l) < length l.
Proof.
  induction l as [|a l IH]; cbn; [tauto|]. intros [<-|Hin] Hf.
  - rewrite Hf. pose proof (filter_le f l). lia.
  - pose proof (IH Hin Hf). destruct (f a); cbn; lia.
Qed.

Definition windows_of {A} (w : nat) (s : list A) : list (list A) :=
  map (fun i => firstn w (skipn i s)) (seq 0 (length s + 1 - w)).

Lemma rolling_calls_all w s : forallb is_fin s = true -> rolling_calls w s = windows_of w s.
Proof.
  intros H. unfold rolling_calls. fold (windows_of w s). apply filter_all. intros l Hl.
  unfold windows_of in Hl. apply in_map_iff in Hl. destruct Hl as (i & <- & _).
  apply forallb_forall. intros v Hv. rewrite forallb_forall in H. apply H.
  apply firstn_In' in Hv. eapply skipn_In'; eauto.
Qed.

Lemma extract_spec {L} (lab : L) s w n : length s = n -> forallb is_fin s = true -> 1 <= w <= n + 1 ->
  extract_windows_from_one_tuple (lab, s) (Z.of_nat w) n
  = Ok (map (fun i => (lab, firstn w (skipn i s), i)) (seq 0 (n + 1 - w))).
Proof.
  intros Hn Hf Hw. unfold extract_windows_from_one_tuple.
  replace (Z.of_nat w <? 1)%Z with false by lia. rewrite Nat2Z.id.
  rewrite firstn_all2 by lia. rewrite rolling_calls_all by auto.
  assert (Lw : length (windows_of w s) = n + 1 - w) by (unfold windows_of; rewrite map_length, seq_length; lia).
  rewrite app_length, repeat_length, map_length, Lw.
  replace (w - 1 + (n + 1 - w) =? length s)%nat with true by lia. cbn [negb].
  rewrite skipn_app, repeat_length, Nat.sub_diag. cbn [skipn].
  rewrite skipn_all2 by (rewrite repeat_length; lia). cbn [app].
  rewrite map_length, Lw. replace (n + 1 - w =? Z.to_nat (Z.of_nat n - Z.of_nat w + 1))%nat with true by lia.
  cbn [negb]. f_equal. unfold enumerate. rewrite map_length, Lw. unfold windows_of. rewrite Hn.
  generalize (n + 1 - w) as c. intros c. rewrite map_map.
  generalize 0. induction c as [|c IH]; intros k; cbn [seq map combine]; auto. f_equal. apply IH.
Qed.

Lemma extract_too_long {L} (lab : L) s w n : length s = n -> (w < 1)%Z \/ (Z.of_nat n + 1 < w)%Z ->
  extract_windows_from_one_tuple (lab, s) w n = Raise ValueError.
Proof.
  intros Hn Hw. unfold extract_windows_from_one_tuple. destruct (Z.ltb_spec w 1); auto.
  rewrite firstn_all2 by lia. rewrite app_length, repeat_length.
  match goal with |- context [(?u + ?v =? ?k)%nat] => replace (u + v =? k)%nat with false by lia end. reflexivity.
Qed.

Lemma extract_missing {L} (lab : L) s w n : length s = n -> forallb is_fin s = false -> (1 <= w <= Z.of_nat n)%Z ->
  extract_windows_from_one_tuple (lab, s) w n = Raise ValueError.
Proof.
  intros Hn Hf Hw. unfold extract_windows_from_one_tuple. destruct (Z.ltb_spec w 1); [lia|].
  rewrite firstn_all2 by lia. rewrite app_length, repeat_length, map_length.
  assert (Hb : exists i v, nth_error s i = Some v /\ is_fin v = false).
  { clear - Hf. induction s as [|a s IH]; cbn in Hf; [discriminate|].
    destruct (is_fin a) eqn:E; [|exists 0, a; auto]. cbn in Hf. destruct (IH Hf) as (i & v & H & H').
    exists (S i), v. auto. }
  destruct Hb as (i & v & Hi & Hv). assert (Hil : i < n) by (rewrite <- Hn; apply nth_error_Some; congruence).
  set (wn := Z.to_nat w). assert (Hwn : 1 <= wn <= n) by (unfold wn; lia).
  assert (Hlt : length (rolling_calls wn s) < length (windows_of wn s)).
  { unfold rolling_calls. fold (windows_of wn s).
    set (st := min i (n - wn)). apply filter_lt with (x := firstn wn (skipn st s)).
    - unfold windows_of. apply in_map_iff. exists st. split; auto. apply in_seq. unfold st. lia.
    - destruct (forallb is_fin (firstn wn (skipn st s))) eqn:E; auto. rewrite forallb_forall in E.
      assert (Hin : In v (firstn wn (skipn st s))).
      { apply nth_error_In with (n := i - st). rewrite nth_error_firstn; replace (i - st <? wn)%nat with true by (unfold st; lia).
        rewrite nth_error_skipn. replace (st + (i - st)) with i by (unfold st; lia). exact Hi. }
      rewrite (E v Hin) in Hv. discriminate. }
  unfold windows_of in Hlt. rewrite map_length, seq_length in Hlt.
  match goal with |- context [(?u + ?v =? ?k)%nat] => replace (u + v =? k)%nat with false by lia end. reflexivity.
Qed.

Lemma labelled_windows {L} (df : list (L * list fnum)) w n : df <> [] ->
  (forall lab s, In (lab, s) df -> length s = n /\ forallb is_fin s = true) -> 1 <= w <= n + 1 ->
  apply_sliding_window_to_labeled_series df (Z.of_nat w) n
  = Ok (flat_map (fun '(lab, s) => map (fun i => (lab, firstn w (skipn i s), i)) (seq 0 (n + 1 - w))) df).
Proof.
  intros Hne Hrow Hw. unfold apply_sliding_window_to_labeled_series.
  rewrite mapM_ok with (g := fun '(lab, s) => map (fun i => (lab, firstn w (skipn i s), i)) (seq 0 (n + 1 - w))).
  2:{ intros [lab s] Hin. destruct (Hrow lab s Hin). apply extract_spec; auto. }
  cbn [bind]. destruct df as [|row df]; [congruence|]. cbn [map]. rewrite flat_map_concat_map. reflexivity.
Qed.

Lemma labelled_rejected {L} (df : list (L * list fnum)) (w : Z) n :
  (forall lab s, In (lab, s) df -> length s = n) ->
  df = [] \/ (w < 1)%Z \/ (Z.of_nat n + 1 < w)%Z \/
    ((w <= Z.of_nat n)%Z /\ exists lab s, In (lab, s) df /\ forallb is_fin s = false) ->
  apply_sliding_window_to_labeled_series df w n = Raise ValueError.
Proof.
  intros Hlen H. unfold apply_sliding_window_to_labeled_series.
  destruct df as [|[lab s] df]; [reflexivity|].
  assert (Hany : forall l : list (L * list fnum), (forall lab s, In (lab, s) l -> length s = n) ->
     (w < 1)%Z \/ (Z.of_nat n + 1 < w)%Z \/ ((w <= Z.of_nat n)%Z /\ exists lab s, In (lab, s) l /\ forallb is_fin s = false) ->
     l <> [] -> mapM (fun row => extract_windows_from_one_tuple row w n) l = Raise ValueError).
  { clear. induction l as [|[lab s] l IH]; intros Hl Hc Hne; [congruence|]. cbn [mapM].
    assert (Ls : length s = n) by (apply (Hl lab); left; auto).
    destruct (Z.ltb_spec w 1); [rewrite extract_too_long; auto|].
    destruct (Z.ltb_spec (Z.of_nat n + 1) w); [rewrite extract_too_long; auto|].
    destruct Hc as [Hc|[Hc|(Hc & lab' & s' & Hin & Hf)]]; try lia.
    destruct (forallb is_fin s) eqn:E.
    - pose proof (extract_spec lab s (Z.to_nat w) n Ls E ltac:(lia)) as Ex. rewrite Z2Nat.id in Ex by lia. rewrite Ex. cbn [bind].
      destruct Hin as [Hin|Hin]; [injection Hin as <- <-; congruence|].
      rewrite IH; auto.
      + intros; eapply Hl; right; eauto.
      + right; right; split; auto. eauto.
      + intros ->. destruct Hin.
    - rewrite extract_missing by (auto; lia). reflexivity. }
  rewrite Hany; auto; [|discriminate]. destruct H as [H|H]; [discriminate|]. tauto.
Qed.
