(** Splitting, dating, averaging and windowing series:
    spta/model/train.py (split), spta/util/maths.py (years), spta/dataset/temp_brazil.py (averaging),
    spta/classifier/sliding_window.py. *)
From Verif Require Import Base.Py Base.Arr Base.Float Model.Region.

(** train.py:208-247 SplitTrainingAndTestLast(test_len).split(spt_region); names and logging left out *)
Definition split_training_and_test_last {A} (test_len : Z) (r : stregion A) : stregion A * stregion A :=
  let series_len := Z.of_nat (t_len r) in
  let training_size := (series_len - test_len)%Z in
  (interval_subset r (Interval 0 training_size),
   interval_subset r (Interval training_size series_len)).

(** The proleptic Gregorian ordinal of 1 January of a year, as CPython's datetime computes it
    (Lib/datetime.py _days_before_year); datetime(year, 1, 1) raises ValueError outside 1..9999.
    Not code of /repo: the datetime calls of maths.py:120-122. *)
Definition jan_first (year : Z) : res Z :=
  if ((1 <=? year) && (year <=? 9999))%Z
  then let y := (year - 1)%Z in Ok (y * 365 + y / 4 - y / 100 + y / 400)%Z
  else Raise ValueError.

(** maths.py:77-128 years_to_series_interval *)
Definition years_to_series_interval (year_start year_end first_year_in_sample samples_per_day : Z) : res (Z * Z) :=
  date_first_year_in_sample <- jan_first first_year_in_sample ;;
  date_year_start <- jan_first year_start ;;
  date_year_end <- jan_first (year_end + 1) ;;
  let day_offset_for_year_start := (date_year_start - date_first_year_in_sample)%Z in
  let day_offset_for_year_end := (date_year_end - date_first_year_in_sample)%Z in
  Ok (day_offset_for_year_start * samples_per_day, day_offset_for_year_end * samples_per_day)%Z.

(** np.reshape(series, (n, 4)) as the list of its rows *)
Fixpoint rows_of_4 {A} (n : nat) (l : list A) : list (list A) :=
  match n with O => [] | S n' => firstn 4 l :: rows_of_4 n' (skipn 4 l) end.
Definition reshape_n_4 {A} (l : list A) (n : nat) : res (list (list A)) :=
  if (length l =? n * 4)%nat then Ok (rows_of_4 n l) else Raise ValueError.

(** temp_brazil.py:144-169 average_4spd_to_1spd; np.empty's content is the argument [garbage];
    int(series_len / 4) is the integer quotient *)
Definition average_4spd_to_1spd (garbage : fnum) (d : arr3 fnum) : res (arr3 fnum) :=
  let new_series_len := (a3t d / 4)%nat in
  foldM (fun out x =>
    foldM (fun out y =>
      point_series <- series3 d (Z.of_nat x) (Z.of_nat y) ;;
      rows <- reshape_n_4 point_series new_series_len ;;
      setseries3 out (Z.of_nat x) (Z.of_nat y) (map fmean rows))
      (seq 0 (a3y d)) out)
    (seq 0 (a3x d)) (full3 new_series_len (a3x d) (a3y d) garbage).

(** The windows on which pandas calls the function of Series.rolling(w).apply (raw=True): every full window
    without a missing sample (min_periods = w; infinities count as missing).  Not code of /repo. *)
Definition rolling_calls (w : nat) (series : list fnum) : list (list fnum) :=
  filter (forallb is_fin) (map (fun i => firstn w (skipn i series)) (seq 0 (length series + 1 - w))).

(** sliding_window.py:62-87 extract_windows_from_one_tuple; a data frame row is its label and its columns
    s0, s1, ...; assigning a column of another length raises ValueError.  Result rows: label, window, offset.
    A window column element is [None] for the zeros put in front (they are dropped again). *)
Definition extract_windows_from_one_tuple {L} (row : L * list fnum) (window_size : Z) (series_len : nat)
  : res (list (L * list fnum * nat)) :=
  let '(label, series) := row in
  if (window_size <? 1)%Z then Raise ValueError (* np.zeros((window_size - 1,)) *)
  else
    let w := Z.to_nat window_size in
    let melted := firstn series_len series in
    let window_elems := repeat None (w - 1) ++ map Some (rolling_calls w melted) in
    if negb (length window_elems =? length melted)%nat then Raise ValueError (* df_melted['window'] = ... *)
    else
      let kept := skipn (w - 1) window_elems in
      let num_windows := (Z.of_nat series_len - window_size + 1)%Z in
      if negb (length kept =? Z.to_nat num_windows)%nat then Raise ValueError (* df_melted['offset'] = ... *)
      else Ok (map (fun '(n, e) => (label, match e with Some v => v | None => [] end, n)) (enumerate kept)).

(** sliding_window.py:5-60 apply_sliding_window_to_labeled_series; pd.concat of nothing raises ValueError *)
Definition apply_sliding_window_to_labeled_series {L} (df : list (L * list fnum)) (window_size : Z) (series_len : nat)
  : res (list (L * list fnum * nat)) :=
  partial_results <- mapM (fun row => extract_windows_from_one_tuple row window_size series_len) df ;;
  match partial_results with
  | [] => Raise ValueError
  | _ => Ok (concat partial_results)
  end.
