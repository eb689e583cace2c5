(** Model of spta/dba/dba.py: dynamic time warping and DTW barycenter averaging.

    Series are one-dimensional float arrays (lists); the scratch matrices are two-dimensional arrays threaded through
    the calls.  np.random.choice is a parameter.  Not modelled: DTW (l.65-66, the square root of squared_DTW) and main
    (l.159-197, a demo). *)
From Verif Require Import Base.Py Base.Arr Base.Float.

(** spta/dba/dba.py:98-101 fill_delta_mat_dtw: the top left block becomes the squared differences; a matrix that is too
    small gives a block of another shape, which subtract.outer refuses (ValueError) *)
Definition fill_delta_mat_dtw (center s : list fnum) (delta : arr2 fnum) : res (arr2 fnum) :=
  if (length center <=? a2x delta) && (length s <=? a2y delta)
  then Ok (mk2 (a2x delta) (a2y delta)
             (map (fun '(k, old) =>
                     match nth_error center (k / a2y delta), nth_error s (k mod a2y delta) with
                     | Some c, Some v => fmul (fsub c v) (fsub c v)
                     | _, _ => old
                     end) (enumerate (a2d delta))))
  else Raise ValueError.

(** l.83-92 and l.125-138: the least of the three neighbours and the number of the move that leads to it *)
Definition least3 (diag left top : fnum) : fnum * Z :=
  if fle diag left
  then if fle diag top then (diag, 0%Z) else (top, 2%Z)
  else if fle left top then (left, 1%Z) else (top, 2%Z).

(** spta/dba/dba.py:69-95 squared_DTW; returns the scratch matrices too *)
Definition squared_DTW (s t : list fnum) (cost delta : arr2 fnum) : res (fnum * arr2 fnum * arr2 fnum) :=
  let s_len := Z.of_nat (length s) in
  let t_len := Z.of_nat (length t) in
  delta <- fill_delta_mat_dtw s t delta ;;
  d00 <- get2 delta 0 0 ;;
  cost <- set2 cost 0 0 d00 ;;
  cost <- foldM (fun cost i => c <- get2 cost (i - 1) 0 ;; d <- get2 delta i 0 ;; set2 cost i 0 (fadd c d)) (zrange 1 s_len) cost ;;
  cost <- foldM (fun cost j => c <- get2 cost 0 (j - 1) ;; d <- get2 delta 0 j ;; set2 cost 0 j (fadd c d)) (zrange 1 t_len) cost ;;
  cost <- foldM (fun cost i =>
            foldM (fun cost j =>
              diag <- get2 cost (i - 1) (j - 1) ;;
              left <- get2 cost i (j - 1) ;;
              top <- get2 cost (i - 1) j ;;
              d <- get2 delta i j ;;
              set2 cost i j (fadd (fst (least3 diag left top)) d)) (zrange 1 t_len) cost) (zrange 1 s_len) cost ;;
  r <- get2 cost (s_len - 1) (t_len - 1) ;;
  Ok (r, cost, delta).

(** spta/dba/dba.py:61-62 sum_of_squares *)
Definition sum_of_squares (s : list fnum) (series : list (list fnum)) (cost delta : arr2 fnum)
  : res (fnum * arr2 fnum * arr2 fnum) :=
  foldM (fun '(acc, cost, delta) t =>
           x <- squared_DTW s t cost delta ;;
           let '(v, cost, delta) := x in
           Ok (fadd acc v, cost, delta)) series (Fin 0, cost, delta).

(** spta/dba/dba.py:44-58 approximate_medoid_index; [choice] is np.random.choice(range(n), 50, replace=False) *)
Definition approximate_medoid_index (choice : nat -> list Z) (series : list (list fnum)) (cost delta : arr2 fnum)
  : res (Z * arr2 fnum * arr2 fnum) :=
  let n := length series in
  let indices := if n <=? 50 then zrange 0 (Z.of_nat n) else choice n in
  x <- foldM (fun '(medoid_ind, best_ss, cost, delta) index_candidate =>
            candidate <- getitem series index_candidate ;;
            y <- sum_of_squares candidate series cost delta ;;
            let '(ss, cost, delta) := y in
            if (medoid_ind =? -1)%Z || flt ss best_ss
            then Ok (index_candidate, ss, cost, delta)
            else Ok (medoid_ind, best_ss, cost, delta))
         indices ((-1)%Z, Fin (inject_Z (10 ^ 20)), cost, delta) ;;
  let '(medoid_ind, _, cost, delta) := x in
  Ok (medoid_ind, cost, delta).

(** l.105 *)
Definition options_argmin : list (Z * Z) := [(-1, -1); (0, -1); (-1, 0)]%Z.

(** l.143-148: the while loop.  Each round with valid indices lowers i + j, so [fuel] = len(center) + len(s) rounds are
    enough (proved: Diverges is not reached) *)
Fixpoint backtrack (fuel : nat) (path : arr2 Z) (s : list fnum) (i j : Z) (updated : list fnum) (n_elements : list Z)
  : res (Z * Z * list fnum * list Z) :=
  p <- get2 path i j ;;
  if (p =? -1)%Z then Ok (i, j, updated, n_elements)
  else match fuel with
       | O => Raise Diverges
       | S fuel =>
           v <- getitem s j ;;
           u <- getitem updated i ;;
           updated <- setitem updated i (fadd u v) ;;
           n <- getitem n_elements i ;;
           n_elements <- setitem n_elements i (n + 1)%Z ;;
           move <- getitem options_argmin p ;;
           backtrack fuel path s (i + fst move)%Z (j + snd move)%Z updated n_elements
       end.

(** l.109-151: the body of the loop over the series; the state is the sums, the counts and the scratch matrices *)
Definition DBA_step (center : list fnum) (st : list fnum * list Z * arr2 fnum * arr2 Z * arr2 fnum) (s : list fnum)
  : res (list fnum * list Z * arr2 fnum * arr2 Z * arr2 fnum) :=
  let '(updated, n_elements, cost, path, delta) := st in
  let center_length := Z.of_nat (length center) in
  let s_len := Z.of_nat (length s) in
  delta <- fill_delta_mat_dtw center s delta ;;
  d00 <- get2 delta 0 0 ;;
  cost <- set2 cost 0 0 d00 ;;
  path <- set2 path 0 0 (-1)%Z ;;
  cp <- foldM (fun '(cost, path) i =>
          c <- get2 cost (i - 1) 0 ;; d <- get2 delta i 0 ;;
          cost <- set2 cost i 0 (fadd c d) ;; path <- set2 path i 0 2%Z ;; Ok (cost, path)) (zrange 1 center_length) (cost, path) ;;
  cp <- foldM (fun '(cost, path) j =>
          c <- get2 cost 0 (j - 1) ;; d <- get2 delta 0 j ;;
          cost <- set2 cost 0 j (fadd c d) ;; path <- set2 path 0 j 1%Z ;; Ok (cost, path)) (zrange 1 s_len) cp ;;
  cp <- foldM (fun cp i =>
          foldM (fun '(cost, path) j =>
            diag <- get2 cost (i - 1) (j - 1) ;;
            left <- get2 cost i (j - 1) ;;
            top <- get2 cost (i - 1) j ;;
            path <- set2 path i j (snd (least3 diag left top)) ;;
            d <- get2 delta i j ;;
            cost <- set2 cost i j (fadd (fst (least3 diag left top)) d) ;;
            Ok (cost, path)) (zrange 1 s_len) cp) (zrange 1 center_length) cp ;;
  let '(cost, path) := cp in
  x <- backtrack (length center + length s) path s (center_length - 1) (s_len - 1) updated n_elements ;;
  let '(i, j, updated, n_elements) := x in
  _ <- py_assert ((i =? 0)%Z && (j =? 0)%Z) ;;
  v <- getitem s j ;;
  u <- getitem updated i ;;
  updated <- setitem updated i (fadd u v) ;;
  n <- getitem n_elements i ;;
  n_elements <- setitem n_elements i (n + 1)%Z ;;
  Ok (updated, n_elements, cost, path, delta).

(** spta/dba/dba.py:104-156 DBA_update; l.156 np.divide *)
Definition DBA_update (center : list fnum) (series : list (list fnum)) (cost : arr2 fnum) (path : arr2 Z) (delta : arr2 fnum)
  : res (list fnum * arr2 fnum * arr2 Z * arr2 fnum) :=
  x <- foldM (DBA_step center) series
         (repeat (Fin 0) (length center), repeat 0%Z (length center), cost, path, delta) ;;
  let '(updated, n_elements, cost, path, delta) := x in
  Ok (map (fun '(u, n) => fdiv u (Fin (inject_Z n))) (combine updated n_elements), cost, path, delta).

(** spta/dba/dba.py:27-41 performDBA; reduce(max) of no lengths raises TypeError *)
Definition performDBA (choice : nat -> list Z) (series : list (list fnum)) (n_iterations : nat) : res (list fnum) :=
  match map (@length fnum) series with
  | [] => Raise TypeError
  | l :: ls =>
      let max_length := fold_left Nat.max ls l in
      let cost := full2 max_length max_length (Fin 0) in
      let delta := full2 max_length max_length (Fin 0) in
      let path := full2 max_length max_length 0%Z in
      m <- approximate_medoid_index choice series cost delta ;;
      let '(medoid_ind, cost, delta) := m in
      center <- getitem series medoid_ind ;;
      x <- foldM (fun '(center, cost, path, delta) (_ : nat) => DBA_update center series cost path delta)
             (seq 0 n_iterations) (center, cost, path, delta) ;;
      let '(center, _, _, _) := x in
      Ok center
  end.
