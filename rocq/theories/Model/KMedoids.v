(** spta/kmedoids/kmedoids.py: the k-medoids algorithm. *)
From Verif Require Import Base.Py Base.Arr Base.Float.

(** The data set X: one series per sample (2-d array, one row per sample). *)
Definition dataset := list (list fnum).

(** The distance measure object: with a precomputed matrix (distance_matrix is not None), or measuring two
    series (spta/distance/__init__.py; the measure is an arbitrary function that does not raise). *)
Inductive distance : Type :=
| DMatrix (m : arr2 fnum)
| DMeasure (f : list fnum -> list fnum -> fnum).

(** kmedoids/__init__.py:4 Medoid(index, series) *)
Definition medoid : Type := (Z * list fnum)%type.

(** kmedoids/__init__.py:7-12 *)
Definition get_medoid_indices (medoids : list medoid) : list Z := map fst medoids.

(** kmedoids.py:30-45 choose_initial_medoids; [choice n k] is what numpy.random.choice(n, size=k,
    replace=False) returns after seed(random_seed).  [None] and the empty list are both falsy.
    X[indices, :] accepts negative indices and raises IndexError out of range. *)
Definition choose_initial_medoids (choice : nat -> Z -> res (list Z)) (X : dataset) (k : Z)
           (initial_indices : option (list Z)) : res (list medoid) :=
  indices <- match initial_indices with
             | None | Some [] => choice (length X) k
             | Some l => Ok l
             end ;;
  mapM (fun i => s <- getitem X i ;; Ok (i, s)) indices.

(** What _get_cost returns: labels, costs, total_cost, dist_mat *)
Record cost := mkcost { c_labels : list nat; c_costs : list fnum; c_total : fnum; c_dist : list (list fnum) }.

(** one row of a 2-d array *)
Definition row2 {A} (m : arr2 A) (i : Z) : res (list A) :=
  match norm_index (a2x m) i with
  | Some r => Ok (firstn (a2y m) (skipn (r * a2y m) (a2d m)))
  | None => Raise IndexError
  end.

(** kmedoids.py:51-79: the distances of every sample to every medoid, one row per sample
    (distance_matrix[medoid_indices, :].transpose(), or measured with 0 at the medoid itself) *)
Definition dist_to_medoids (X : dataset) (D : distance) (medoids : list medoid) : res (list (list fnum)) :=
  match D with
  | DMatrix m =>
      rows <- mapM (fun md => row2 m (fst md)) medoids ;;
      Ok (map (fun i => map (fun row => nth i row NaN) rows) (seq 0 (a2y m)))
  | DMeasure f =>
      Ok (map (fun '(i, x) =>
            map (fun md => if (Z.of_nat i =? fst md)%Z then Fin 0 else f x (snd md)) medoids)
          (enumerate X))
  end.

(** kmedoids.py:84-92: the distances summed in costs[j] *)
Definition member_dists (labels : list nat) (dist_mat : list (list fnum)) (j : nat) : list fnum :=
  map (fun '(_, row) => nth j row NaN) (filter (fun '(l, _) => (l =? j)%nat) (combine labels dist_mat)).

(** kmedoids.py:48-99 _get_cost (np.argmin along an axis of length 0 raises ValueError) *)
Definition get_cost (X : dataset) (D : distance) (medoids : list medoid) : res cost :=
  let k := length medoids in
  dist_mat <- dist_to_medoids X D medoids ;;
  _ <- (if (k =? 0)%nat then Raise ValueError else Ok tt) ;;
  labels <- mapM np_argmin dist_mat ;;
  let costs := map (fun j => fsum (member_dists labels dist_mat j)) (seq 0 k) in
  Ok (mkcost labels costs (fsum costs) dist_mat).

Inductive mode := Lite | Robust | OtherMode.

(** kmedoids.py:102-118 candidate generators; any other mode leaves candidate_generator unbound (l.136-139) *)
Definition candidates (md : mode) (n_samples : nat) (labels : list nat) (cluster_label : nat) : res (list nat) :=
  match md with
  | Lite => Ok (map fst (filter (fun '(_, l) => (l =? cluster_label)%nat) (enumerate labels)))
  | Robust => Ok (seq 0 n_samples)
  | OtherMode => Raise UnboundLocalError
  end.

(** the variables medoids, labels/costs/tot_cost/dist_mat of run_kmedoids *)
Record kstate := mkst { st_medoids : list medoid; st_cost : cost }.

(** kmedoids.py:160-186: the body for one cluster j and one candidate i *)
Definition try_swap (X : dataset) (D : distance) (tol : fnum) (j : nat) (s : kstate * bool) (i : nat)
  : res (kstate * bool) :=
  let '(st, swapped) := s in
  if existsb (Z.eqb (Z.of_nat i)) (get_medoid_indices (st_medoids st)) then Ok (st, swapped)
  else
    x <- getitem X (Z.of_nat i) ;;
    medoids_ <- setitem (st_medoids st) (Z.of_nat j) (Z.of_nat i, x) ;;
    c <- get_cost X D medoids_ ;;
    if flt tol (fsub (c_total (st_cost st)) (c_total c))
    then Ok (mkst medoids_ c, true)
    else Ok (st, swapped).

(** kmedoids.py:146-186: one pass over all clusters and candidates *)
Definition one_pass (X : dataset) (D : distance) (k : Z) (md : mode) (tol : fnum) (st : kstate) : res (kstate * bool) :=
  foldM (fun s j =>
           cands <- candidates md (length X) (c_labels (st_cost (fst s))) j ;;
           foldM (try_swap X D tol j) cands s)
        (seq 0 (Z.to_nat k)) (st, false).

(** kmedoids.py:141-198: the main loop; also returns the final iteration counter cc *)
Fixpoint kmedoids_loop (fuel : nat) (X : dataset) (D : distance) (k : Z) (md : mode) (max_iter : Z) (tol : fnum)
         (cc : Z) (st : kstate) : res (kstate * Z) :=
  match fuel with
  | O => Raise Diverges
  | S fuel' =>
      '(st', swapped) <- one_pass X D k md tol st ;;
      if (max_iter <? cc)%Z then Ok (st', cc)
      else if negb swapped then Ok (st', cc)
      else kmedoids_loop fuel' X D k md max_iter tol (cc + 1) st'
  end.

(** the value returned (k, random_seed and mode are copies of the arguments) and the counter cc *)
Record kresult := mkres { r_medoids : list Z; r_cost : cost; r_cc : Z }.

(** kmedoids.py:226-235 show_report: points_per_cluster has one entry per label that occurs *)
Definition show_report (k : Z) (medoids : list Z) (labels : list nat) : res unit :=
  foldM (fun _ i =>
    _ <- getitem (nodup Nat.eq_dec labels) i ;;
    _ <- getitem medoids i ;;
    Ok tt) (zrange 0 k) tt.

(** kmedoids.py:121-211 run_kmedoids (X is 2-d; the fuel covers every possible number of passes) *)
Definition run_kmedoids (choice : nat -> Z -> res (list Z)) (X : dataset) (k : Z) (D : distance)
           (initial_medoids : option (list Z)) (md : mode) (max_iter : Z) (tol : fnum) (verbose : bool) : res kresult :=
  medoids <- choose_initial_medoids choice X k initial_medoids ;;
  c <- get_cost X D medoids ;;
  '(st, cc) <- kmedoids_loop (S (S (Z.to_nat (max_iter + 1)))) X D k md max_iter tol 0 (mkst medoids c) ;;
  let result := mkres (get_medoid_indices (st_medoids st)) (st_cost st) cc in
  _ <- (if verbose then show_report k (r_medoids result) (c_labels (r_cost result)) else Ok tt) ;;
  Ok result.
