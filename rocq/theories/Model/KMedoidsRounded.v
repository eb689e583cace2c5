(** The k-medoids search in floating point: Model/KMedoids.v with the sums of the distances formed in any way and the
    difference of two totals rounded. The distances are floats of the matrix (or of the measure) and are only compared. *)
From Coq Require Import QArith.
From Verif Require Import Base.Py Base.Arr Base.Float Model.KMedoids Model.Rounded.
Local Open Scope nat_scope.

Section Rounded.
(** rounding of a difference, and np.sum of a list (numpy's order of additions depends on the length only) *)
Context (rnd : Q -> fnum) (sum : list fnum -> fnum).

(** kmedoids.py:48-99 _get_cost, with rounded sums *)
Definition get_cost_r (X : dataset) (D : distance) (medoids : list medoid) : res cost :=
  let k := length medoids in
  dist_mat <- dist_to_medoids X D medoids ;;
  _ <- (if (k =? 0)%nat then Raise ValueError else Ok tt) ;;
  labels <- mapM np_argmin dist_mat ;;
  let costs := map (fun j => sum (member_dists labels dist_mat j)) (seq 0 k) in
  Ok (mkcost labels costs (sum costs) dist_mat).

(** kmedoids.py:160-186: the body for one cluster j and one candidate i; tot_cost - tot_cost_ is rounded *)
Definition try_swap_r (X : dataset) (D : distance) (tol : fnum) (j : nat) (s : kstate * bool) (i : nat)
  : res (kstate * bool) :=
  let '(st, swapped) := s in
  if existsb (Z.eqb (Z.of_nat i)) (get_medoid_indices (st_medoids st)) then Ok (st, swapped)
  else
    x <- getitem X (Z.of_nat i) ;;
    medoids_ <- setitem (st_medoids st) (Z.of_nat j) (Z.of_nat i, x) ;;
    c <- get_cost_r X D medoids_ ;;
    if flt tol (rsub rnd (c_total (st_cost st)) (c_total c))
    then Ok (mkst medoids_ c, true)
    else Ok (st, swapped).

(** kmedoids.py:146-186: one pass over all clusters and candidates *)
Definition one_pass_r (X : dataset) (D : distance) (k : Z) (md : mode) (tol : fnum) (st : kstate) : res (kstate * bool) :=
  foldM (fun s j =>
           cands <- candidates md (length X) (c_labels (st_cost (fst s))) j ;;
           foldM (try_swap_r X D tol j) cands s)
        (seq 0 (Z.to_nat k)) (st, false).

(** kmedoids.py:141-198: the main loop; also returns the final iteration counter cc *)
Fixpoint kmedoids_loop_r (fuel : nat) (X : dataset) (D : distance) (k : Z) (md : mode) (max_iter : Z) (tol : fnum)
         (cc : Z) (st : kstate) : res (kstate * Z) :=
  match fuel with
  | O => Raise Diverges
  | S fuel' =>
      '(st', swapped) <- one_pass_r X D k md tol st ;;
      if (max_iter <? cc)%Z then Ok (st', cc)
      else if negb swapped then Ok (st', cc)
      else kmedoids_loop_r fuel' X D k md max_iter tol (cc + 1) st'
  end.

(** kmedoids.py:121-211 run_kmedoids with rounded arithmetic (not verbose) *)
Definition run_kmedoids_r (choice : nat -> Z -> res (list Z)) (X : dataset) (k : Z) (D : distance)
           (initial_medoids : option (list Z)) (md : mode) (max_iter : Z) (tol : fnum) : res kresult :=
  medoids <- choose_initial_medoids choice X k initial_medoids ;;
  c <- get_cost_r X D medoids ;;
  '(st, cc) <- kmedoids_loop_r (S (S (Z.to_nat (max_iter + 1)))) X D k md max_iter tol 0 (mkst medoids c) ;;
  Ok (mkres (get_medoid_indices (st_medoids st)) (st_cost st) cc).
End Rounded.
