(** The search of fuzzy k-medoids in floating point: Model/KMedoidsFuzzy.v with rounded memberships, costs and differences. *)
From Coq Require Import QArith.
From Verif Require Import Base.Py Base.Arr Base.Float Model.KMedoids Model.KMedoidsFuzzy Model.Rounded Model.FuzzyRounded Model.FuzzyMaskRounded.

Section Rounded.
(** the rounding of one operation, np.sum and np.power(x, 1 / (m - 1)) as in Model/FuzzyRounded.v *)
Context (rnd : Q -> fnum) (sum : list fnum -> fnum) (power : power_fn).

(** kmedoids_fuzzy.py:185-215: the body for one sample i and one cluster j; tot_cost - tot_cost_ is rounded *)
Definition f_try_swap_r (X : dataset) (m : Q) (D : distance) (tol : fnum) (i : nat) (s : fstate * bool) (j : nat) : res (fstate * bool) :=
  let '(st, swapped) := s in
  if existsb (Z.eqb (Z.of_nat i)) (get_medoid_indices (fs_medoids st)) then Ok (st, swapped)
  else
    x <- getitem X (Z.of_nat i) ;;
    medoids_ <- setitem (fs_medoids st) (Z.of_nat j) (Z.of_nat i, x) ;;
    c <- compute_membership_fcm_r rnd sum power X m medoids_ D tol ;;
    if flt tol (rsub rnd (fs_total st) (f_total c))
    then Ok (mkfst medoids_ (Some (f_u c)) (f_costs c) (f_total c), true)
    else Ok (st, swapped).

(** kmedoids_fuzzy.py:175-215: one pass *)
Definition f_one_pass_r (X : dataset) (k : Z) (m : Q) (D : distance) (tol : fnum) (st : fstate) : res (fstate * bool) :=
  foldM (fun s i => foldM (f_try_swap_r X m D tol i) (seq 0 (Z.to_nat k)) s) (seq 0 (length X)) (st, false).

(** kmedoids_fuzzy.py:173-226: the main loop *)
Fixpoint f_loop_r (fuel : nat) (X : dataset) (k : Z) (m : Q) (D : distance) (max_iter : Z) (tol : fnum) (cc : Z) (st : fstate) : res (fstate * Z) :=
  match fuel with
  | O => Raise Diverges
  | S fuel' =>
      '(st', swapped) <- f_one_pass_r X k m D tol st ;;
      if (max_iter <? cc)%Z then Ok (st', cc)
      else if negb swapped then Ok (st', cc)
      else f_loop_r fuel' X k m D max_iter tol (cc + 1) st'
  end.

(** kmedoids_fuzzy.py:161-232 run_kmedoids_fuzzy with rounded arithmetic *)
Definition run_kmedoids_fuzzy_r (choice : nat -> Z -> res (list Z)) (X : dataset) (k : Z) (m : Q)
           (D : distance) (initial_medoids : option (list Z)) (max_iter : Z) (tol : fnum) : res fresult :=
  medoids <- choose_initial_medoids choice X k initial_medoids ;;
  c <- compute_membership_fcm_r rnd sum power X m medoids D tol ;;
  '(st, cc) <- f_loop_r (S (S (Z.to_nat (max_iter + 1)))) X k m D max_iter tol 0 (mkfst medoids None (f_costs c) (f_total c)) ;;
  match fs_u st with
  | None => Raise UnboundLocalError
  | Some u =>
      let result := mkfres (get_medoid_indices (fs_medoids st)) u (fs_costs st) (fs_total st) cc in
      _ <- f_show_report_r rnd k result ;;
      Ok result
  end.
End Rounded.
