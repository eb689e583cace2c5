(** spta/util/arrays.py: extrema, regular partitioning, sliding windows; and the extrema of spatial regions
    (spta/region/spatial.py). *)
From Verif Require Import Base.Py Base.Arr Base.Float Model.Region Model.Maths.

(** coordinates of flat position [n] in a C-order array of the given shape (np.where / np.unravel_index) *)
Fixpoint unravel (shape : list nat) (n : nat) : list nat :=
  match shape with
  | [] => []
  | _ :: rest => let size := fold_right Nat.mul 1 rest in (n / size) :: unravel rest (n mod size)
  end.

(** first position satisfying a test *)
Fixpoint find_pos {A} (f : A -> bool) (l : list A) (n : nat) : option nat :=
  match l with
  | [] => None
  | x :: xs => if f x then Some n else find_pos f xs (S n)
  end.

(** arrays.py:52-66 minimum_value_and_index on an n-dimensional array with flat content [data]:
    [np.where(dataset == minimum)] lists the coordinates of the equal entries in C order, [[0]] takes the
    first of each dimension and raises IndexError if there is none (NaN == NaN is false).  A 0-dimensional
    array is not considered. *)
Definition minimum_value_and_index (shape : list nat) (data : list fnum) : res (fnum * list nat) :=
  minimum <- nanmin data ;;
  match find_pos (fun v => feqb v minimum) data 0 with
  | Some n => Ok (minimum, unravel shape n)
  | None => Raise IndexError
  end.

(** arrays.py:69-83 maximum_value_and_index *)
Definition maximum_value_and_index (shape : list nat) (data : list fnum) : res (fnum * list nat) :=
  maximum <- nanmax data ;;
  match find_pos (fun v => feqb v maximum) data 0 with
  | Some n => Ok (maximum, unravel shape n)
  | None => Raise IndexError
  end.

(** spatial.py:141-157 find_minimum: the loop body *)
Definition min_step (best : option point * fnum) (item : point * fnum) : option point * fnum :=
  if flt (snd item) (snd best) then (Some (fst item), snd item) else best.
Definition find_minimum (r : sregion fnum) : res (option point * fnum) :=
  items <- s_items r ;; Ok (fold_left min_step items (None, PInf)).

(** spatial.py:159-175 find_maximum *)
Definition max_step (best : option point * fnum) (item : point * fnum) : option point * fnum :=
  if flt (snd best) (snd item) then (Some (fst item), snd item) else best.
Definition find_maximum (r : sregion fnum) : res (option point * fnum) :=
  items <- s_items r ;; Ok (fold_left max_step items (None, NInf)).

(** arrays.py:180-181 can_increase_lines_per_cluster *)
Definition can_increase_lines (divisor residue lines : Z) : bool :=
  (divisor * (divisor - lines - 1) <? residue)%Z.

(** arrays.py:163-172 and 184-190 (rows) or 193-197 (columns): lines per block and residue;
    [residue > lines / 2] (float division) is [2 * residue > lines] *)
Definition lines_and_residue (len div : Z) : Z * Z :=
  let lines := (len / div)%Z in
  let residue := (len mod div)%Z in
  if ((lines <? 2 * residue)%Z && can_increase_lines div residue lines)%bool
  then (lines + 1, len - (lines + 1) * div)%Z
  else (lines, residue).

(** arrays.py:138-236 regular_partitioning; slices are clamped as by numpy.  [int(x_len / div_x)] is the
    integer quotient (float division, exact below 2^53). *)
Definition regular_partitioning (x_len y_len : nat) (k : Z) : res (arr2 Z) :=
  '(div_x, div_y) <- two_balanced_divisors_order_x_y k (Z.of_nat x_len) (Z.of_nat y_len) ;;
  if ((Z.of_nat x_len <? div_x)%Z || (Z.of_nat y_len <? div_y)%Z)%bool then Raise ValueError
  else if ((div_x =? 0)%Z || (div_y =? 0)%Z)%bool then Raise ZeroDivisionError
  else
    let '(lines_row, residue_row) := lines_and_residue (Z.of_nat x_len) div_x in
    let '(lines_col, residue_col) := lines_and_residue (Z.of_nat y_len) div_y in
    Ok (fold_left (fun matrix row =>
          fold_left (fun matrix col =>
            let i := (row * div_y + col)%Z in
            let x_start := (lines_row * row)%Z in
            let y_start := (lines_col * col)%Z in
            let x_end := (x_start + lines_row + (if (row =? div_x - 1)%Z then residue_row else 0))%Z in
            let y_end := (y_start + lines_col + (if (col =? div_y - 1)%Z then residue_col else 0))%Z in
            assign_block matrix (slice_bound x_len x_start) (slice_bound x_len x_end)
                         (slice_bound y_len y_start) (slice_bound y_len y_end) i)
          (zrange 0 div_y) matrix)
        (zrange 0 div_x) (full2 x_len y_len 0%Z)).

(** arrays.py:239-250 sliding_window (stride 0 raises ValueError in range) *)
Definition sliding_window {A} (array : list A) (window_len stride : Z) : res (list (list A)) :=
  starts <- py_range 0 (Z.of_nat (length array) - window_len + 1) stride ;;
  Ok (map (fun i => py_slice i (i + window_len) array) starts).

(** partition.py:400-419 PartitionRegionCrisp.with_regular_partition (the 2-d matrix is reshaped to its own shape) *)
Definition with_regular_partition (k : Z) (x_len y_len : nat) : res crisp :=
  m <- regular_partitioning x_len y_len k ;;
  from_membership_array (a2d m) x_len y_len.
