(** spta/kmedoids/kmedoids_fuzzy.py: fuzzy k-medoids. *)
From Verif Require Import Base.Py Base.Arr Base.Float Model.KMedoids Model.FuzzyMask.
Local Open Scope Q_scope.

(** [np.power(x, y)] on floats, an external function *)
Definition power_fn := fnum -> Q -> fnum.

(** uij, fuzzy_costs, total_cost, dist_mat; one row per sample *)
Record fcost := mkfcost { f_u : list (list fnum); f_costs : list fnum; f_total : fnum; f_dist : list (list fnum) }.

(** kmedoids_fuzzy.py:118-141: the memberships of sample [j] at distances [ds] from the medoids [ms]:
    powers of the inverse distances, divided by their sum, with 1 at the clusters whose medoid is sample j *)
Definition fcm_row (power : power_fn) (m : Q) (n : nat) (ms : list Z) (j : nat) (ds : list fnum) : list fnum :=
  let pows := map (fun d => power (fdiv (Fin 1) d) (1 / (m - 1))) ds in
  let den := fsum pows in
  map (fun '(p, mi) => match norm_index n mi with
                       | Some j' => if (j =? j')%nat then Fin 1 else fdiv p den
                       | None => fdiv p den
                       end)
      (combine pows ms).

(** [np.testing.assert_allclose(a, 1, rtol=tol)] for one value *)
Definition close_to_one (tol a : fnum) : bool := fle (fabs (fsub a (Fin 1))) tol.

(** kmedoids_fuzzy.py:63-158 compute_membership_fcm.  The distances to the medoids are computed as in
    kmedoids.py:51-79 (here l.81-109); a distance matrix whose number of columns is not the number of
    samples makes the assignment of l.128 fail (ValueError; numpy's broadcasting of a single column is left
    out).  1 / (m - 1) raises ZeroDivisionError for m = 1. *)
Definition compute_membership_fcm (power : power_fn) (X : dataset) (m : Q) (medoids : list medoid) (D : distance)
           (tol : fnum) : res fcost :=
  let n := length X in
  let k := length medoids in
  let ms := get_medoid_indices medoids in
  dist_mat <- dist_to_medoids X D medoids ;;
  _ <- (if (k =? 0)%nat then Ok tt
        else if Qeq_bool m 1 then Raise ZeroDivisionError
        else if (length dist_mat =? n)%nat then Ok tt else Raise ValueError) ;;
  _ <- mapM (fun mi => match norm_index n mi with Some _ => Ok tt | None => Raise IndexError end) ms ;;
  let uij := map (fun '(j, ds) => fcm_row power m n ms j ds) (enumerate dist_mat) in
  _ <- py_assert (forallb (fun row => close_to_one tol (fsum row)) uij) ;;
  let costs := map (fun i => fsum (map (fun '(u, d) => fmul (nth i u NaN) (nth i d NaN)) (combine uij dist_mat))) (seq 0 k) in
  Ok (mkfcost uij costs (fsum costs) dist_mat).

(** the variables medoids, uij (unbound until the first swap), costs and tot_cost *)
Record fstate := mkfst { fs_medoids : list medoid; fs_u : option (list (list fnum)); fs_costs : list fnum; fs_total : fnum }.

(** kmedoids_fuzzy.py:185-215: the body for one sample i and one cluster j *)
Definition f_try_swap (power : power_fn) (X : dataset) (m : Q) (D : distance) (tol : fnum) (i : nat)
           (s : fstate * bool) (j : nat) : res (fstate * bool) :=
  let '(st, swapped) := s in
  if existsb (Z.eqb (Z.of_nat i)) (get_medoid_indices (fs_medoids st)) then Ok (st, swapped)
  else
    x <- getitem X (Z.of_nat i) ;;
    medoids_ <- setitem (fs_medoids st) (Z.of_nat j) (Z.of_nat i, x) ;;
    c <- compute_membership_fcm power X m medoids_ D tol ;;
    if flt tol (fsub (fs_total st) (f_total c))
    then Ok (mkfst medoids_ (Some (f_u c)) (f_costs c) (f_total c), true)
    else Ok (st, swapped).

(** kmedoids_fuzzy.py:175-215: one pass *)
Definition f_one_pass (power : power_fn) (X : dataset) (k : Z) (m : Q) (D : distance) (tol : fnum) (st : fstate)
  : res (fstate * bool) :=
  foldM (fun s i => foldM (f_try_swap power X m D tol i) (seq 0 (Z.to_nat k)) s) (seq 0 (length X)) (st, false).

(** kmedoids_fuzzy.py:173-226: the main loop *)
Fixpoint f_loop (fuel : nat) (power : power_fn) (X : dataset) (k : Z) (m : Q) (D : distance) (max_iter : Z) (tol : fnum)
         (cc : Z) (st : fstate) : res (fstate * Z) :=
  match fuel with
  | O => Raise Diverges
  | S fuel' =>
      '(st', swapped) <- f_one_pass power X k m D tol st ;;
      if (max_iter <? cc)%Z then Ok (st', cc)
      else if negb swapped then Ok (st', cc)
      else f_loop fuel' power X k m D max_iter tol (cc + 1) st'
  end.

Record fresult := mkfres { fr_medoids : list Z; fr_u : list (list fnum); fr_costs : list fnum; fr_total : fnum; fr_cc : Z }.

(** kmedoids_fuzzy.py:235-260 show_report: the number of members of each fuzzy cluster *)
Definition f_show_report (k : Z) (r : fresult) : res unit :=
  let n := length (fr_u r) in
  let width := match fr_u r with [] => 0%nat | row :: _ => length row end in
  foldM (fun _ i =>
    mask <- from_uij_and_region (mk2 n width (concat (fr_u r))) 1 n i (Fin 0) ;;
    _ <- snd (fmask_cluster_len mask 0) ;;
    _ <- (if (n =? 0)%nat then Raise ZeroDivisionError else Ok tt) ;;
    _ <- getitem (fr_medoids r) i ;;
    Ok tt) (zrange 0 k) tt.

(** kmedoids_fuzzy.py:161-232 run_kmedoids_fuzzy *)
Definition run_kmedoids_fuzzy (power : power_fn) (choice : nat -> Z -> res (list Z)) (X : dataset) (k : Z) (m : Q)
           (D : distance) (initial_medoids : option (list Z)) (max_iter : Z) (tol : fnum) : res fresult :=
  medoids <- choose_initial_medoids choice X k initial_medoids ;;
  c <- compute_membership_fcm power X m medoids D tol ;;
  '(st, cc) <- f_loop (S (S (Z.to_nat (max_iter + 1)))) power X k m D max_iter tol 0
                 (mkfst medoids None (f_costs c) (f_total c)) ;;
  match fs_u st with
  | None => Raise UnboundLocalError
  | Some u =>
      let result := mkfres (get_medoid_indices (fs_medoids st)) u (fs_costs st) (fs_total st) cc in
      _ <- f_show_report k result ;;
      Ok result
  end.
