(** Properties C23-C25 and C65: splitting, dating, averaging and windowing series. *)
From Coq Require Import ZifyBool ZifyNat.
From Verif Require Import Base.Py Base.Arr Base.Float Spec.Grid Spec.Calendar Model.Region Model.Series
     Proofs.RegionFacts Proofs.SeriesFacts Props.Regions Props.Scaling.

(* ---------------------------------------------------------------- C23 *)
(** Any region (plain, cluster, scaled, nested), any test length in range: the two parts have the right
    lengths, and at every point training followed by test is the series of the region; a point the region
    refuses to read is refused by both parts. *)
Theorem C23_split : forall A (r : stregion A) (test_len : Z), twf r -> (0 <= test_len <= Z.of_nat (t_len r))%Z ->
  let '(train, test) := split_training_and_test_last test_len r in
  Z.of_nat (t_len train) = (Z.of_nat (t_len r) - test_len)%Z /\ Z.of_nat (t_len test) = test_len /\
  t_x train = t_x r /\ t_y train = t_y r /\ t_x test = t_x r /\ t_y test = t_y r /\
  forall pt, in_grid (t_x r) (t_y r) pt ->
    match series_at r pt with
    | Ok s => exists s1 s2, series_at train pt = Ok s1 /\ series_at test pt = Ok s2 /\ s1 ++ s2 = s /\
                Z.of_nat (length s2) = test_len
    | Raise e => series_at train pt = Raise e /\ series_at test pt = Raise e
    end.
Proof. exact @split_spec. Qed.
Print Assumptions C23_split.

(** A test length out of range is not rejected: it silently acts as another one.  With L samples, a negative
    length acts as 0, a length between L and 2L as (length - L), and a longer one as L. *)
Theorem C23_out_of_range : forall A (r : stregion A) (t : Z),
  let L := Z.of_nat (t_len r) in
  ((t < 0)%Z -> split_training_and_test_last t r = split_training_and_test_last 0 r) /\
  ((L < t < 2 * L)%Z -> split_training_and_test_last t r = split_training_and_test_last (t - L) r) /\
  ((2 * L <= t)%Z -> split_training_and_test_last t r = split_training_and_test_last L r).
Proof.
  intros A r t L. pose proof (split_effective r t) as E. fold L in E. unfold effective in E.
  assert (0 <= L)%Z by (unfold L; lia).
  repeat split; intros H'.
  - replace (t <? 0)%Z with true in E by lia. exact E.
  - replace (t <? 0)%Z with false in E by lia. replace (t <=? L)%Z with false in E by lia.
    replace (t <? 2 * L)%Z with true in E by lia. exact E.
  - rewrite E. destruct (Z.ltb_spec t 0); [lia|]. destruct (Z.leb_spec t L); [f_equal; lia|].
    replace (t <? 2 * L)%Z with false by lia. reflexivity.
Qed.
Print Assumptions C23_out_of_range.

Theorem C23_test_length_as_asked_refuted : ~ (forall A (r : stregion A) (t : Z), twf r -> (0 <= t)%Z ->
  Z.of_nat (t_len (snd (split_training_and_test_last t r))) = t).
Proof.
  intros H. specialize (H Z (TPlain ex_t) 3%Z ltac:(vm_compute; reflexivity) ltac:(lia)). vm_compute in H. discriminate.
Qed.
Print Assumptions C23_test_length_as_asked_refuted.

Example C23_ex : twf (TPlain ex_t) /\ (0 <= 1 <= Z.of_nat (t_len (TPlain ex_t)))%Z /\
  split_training_and_test_last 1 (TPlain ex_t)
  = (TPlain (mk3 1 2 3 [10; 11; 12; 20; 21; 22]%Z), TPlain (mk3 1 2 3 [110; 111; 112; 120; 121; 122]%Z)).
Proof. split; [vm_compute; reflexivity|]. split; [vm_compute; split; discriminate|]. vm_compute. reflexivity. Qed.

(* ---------------------------------------------------------------- C24 *)
Theorem C24_days_in_years : forall first a b spd, (1 <= first <= a)%Z -> (a <= b + 1)%Z -> (b < 9999)%Z ->
  years_to_series_interval a b first spd
  = Ok (days_in_years first (Z.to_nat (a - first)) * spd,
        (days_in_years first (Z.to_nat (a - first)) + days_in_years a (Z.to_nat (b + 1 - a))) * spd)%Z.
Proof. exact years_spec. Qed.
Print Assumptions C24_days_in_years.

Theorem C24_adjacent : forall first a b c spd i j k l,
  years_to_series_interval a b first spd = Ok (i, j) -> years_to_series_interval (b + 1) c first spd = Ok (k, l) ->
  j = k /\ years_to_series_interval a c first spd = Ok (i, l).
Proof. exact years_adjacent. Qed.
Print Assumptions C24_adjacent.

Theorem C24_out_of_calendar : forall first a b spd,
  ~ (1 <= first <= 9999)%Z \/ ~ (1 <= a <= 9999)%Z \/ ~ (1 <= b + 1 <= 9999)%Z ->
  years_to_series_interval a b first spd = Raise ValueError.
Proof. exact years_rejected. Qed.
Print Assumptions C24_out_of_calendar.

Example C24_ex : years_to_series_interval 1979 1979 1979 4 = Ok (0, 1460)%Z /\
  years_to_series_interval 1980 1980 1979 4 = Ok (1460, 2924)%Z /\
  years_to_series_interval 2014 2015 1979 4 = Ok (51136, 54056)%Z /\
  days_in_year 2000 = 366%Z /\ days_in_year 1900 = 365%Z /\ days_in_years 1979 2 = 731%Z.
Proof. repeat split; vm_compute; reflexivity. Qed.

(* ---------------------------------------------------------------- C25 *)
Theorem C25_daily_means : forall garbage (d : arr3 fnum) n, wf3 d -> a3t d = (4 * n)%nat ->
  exists m, average_4spd_to_1spd garbage d = Ok m /\ wf3 m /\ a3t m = n /\ a3x m = a3x d /\ a3y m = a3y d /\
    forall pt, in_grid (a3x d) (a3y d) pt ->
      exists s s', series3 d (fst pt) (snd pt) = Ok s /\ series3 m (fst pt) (snd pt) = Ok s' /\ length s' = n /\
        forall k, k < n -> nth_error s' k = Some (fmean (firstn 4 (skipn (4 * k) s))).
Proof. exact average_spec. Qed.
Print Assumptions C25_daily_means.

Theorem C25_other_lengths_rejected : forall garbage (d : arr3 fnum), wf3 d -> (a3t d mod 4 <> 0)%nat ->
  0 < a3x d -> 0 < a3y d -> average_4spd_to_1spd garbage d = Raise ValueError.
Proof. exact average_rejected. Qed.
Print Assumptions C25_other_lengths_rejected.

Definition ex_8 : arr3 fnum := mk3 8 1 2 (fl [1; 10; 2; 20; 3; 30; 4; 40;  5; 50; 6; 60; 7; 70; 8; 80])%Z.
Example C25_ex : wf3 ex_8 /\ a3t ex_8 = (4 * 2)%nat /\
  exists m, average_4spd_to_1spd NaN ex_8 = Ok m /\
    Forall2 feqv (a3d m) [Fin (5#2); Fin 25; Fin (13#2); Fin 65].
Proof.
  split; [reflexivity|]. split; [reflexivity|]. eexists. split; [vm_compute; reflexivity|].
  repeat constructor; vm_compute; reflexivity.
Qed.

(* ---------------------------------------------------------------- C65 *)
Theorem C65_labelled_windows : forall L (df : list (L * list fnum)) w n, df <> [] ->
  (forall lab s, In (lab, s) df -> length s = n /\ forallb is_fin s = true) -> 1 <= w <= n + 1 ->
  apply_sliding_window_to_labeled_series df (Z.of_nat w) n
  = Ok (flat_map (fun '(lab, s) => map (fun i => (lab, firstn w (skipn i s), i)) (seq 0 (n + 1 - w))) df).
Proof. exact @labelled_windows. Qed.
Print Assumptions C65_labelled_windows.

(** no rows, a window that is not positive or longer than the series (by more than one), or a missing sample in
    any row: ValueError *)
Theorem C65_rejected : forall L (df : list (L * list fnum)) (w : Z) n,
  (forall lab s, In (lab, s) df -> length s = n) ->
  df = [] \/ (w < 1)%Z \/ (Z.of_nat n + 1 < w)%Z \/
    ((w <= Z.of_nat n)%Z /\ exists lab s, In (lab, s) df /\ forallb is_fin s = false) ->
  apply_sliding_window_to_labeled_series df w n = Raise ValueError.
Proof. exact @labelled_rejected. Qed.
Print Assumptions C65_rejected.

Example C65_ex :
  apply_sliding_window_to_labeled_series [(7%Z, fl [1; 2; 3]%Z); (8%Z, fl [4; 5; 6]%Z)] 2 3
  = Ok [(7%Z, fl [1; 2]%Z, 0); (7%Z, fl [2; 3]%Z, 1); (8%Z, fl [4; 5]%Z, 0); (8%Z, fl [5; 6]%Z, 1)] /\
  apply_sliding_window_to_labeled_series [(7%Z, [Fin 1; NaN; Fin 2])] 2 3 = Raise ValueError.
Proof. split; vm_compute; reflexivity. Qed.
