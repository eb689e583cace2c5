(** The memberships of fuzzy k-medoids in floating point: Model/KMedoidsFuzzy.v with every result rounded. *)
From Coq Require Import QArith.
From Verif Require Import Base.Py Base.Arr Base.Float Model.KMedoids Model.KMedoidsFuzzy Model.Rounded.

Section Rounded.
(** the rounding of one operation, and np.sum (numpy's order of additions depends on the length only) *)
Context (rnd : Q -> fnum) (sum : list fnum -> fnum).
(** [power x m]: np.power(x, 1 / (m - 1)), an external function *)
Context (power : power_fn).

(** kmedoids_fuzzy.py:128 the powers of one sample at distances [ds] from the medoids *)
Definition powers_r (m : Q) (ds : list fnum) : list fnum := map (fun d => power (rdiv rnd (Fin 1) d) m) ds.

(** kmedoids_fuzzy.py:114-145: the memberships of sample [j]; l.132 adds the powers one after the other to zero *)
Definition fcm_row_r (m : Q) (n : nat) (ms : list Z) (j : nat) (ds : list fnum) : list fnum :=
  let pows := powers_r m ds in
  let den := fold_left (radd rnd) pows (Fin 0) in
  map (fun '(p, mi) => match norm_index n mi with
                       | Some j' => if (j =? j')%nat then Fin 1 else rdiv rnd p den
                       | None => rdiv rnd p den
                       end)
      (combine pows ms).

(** [np.testing.assert_allclose(a, 1, rtol=tol)] for one value: the difference is rounded *)
Definition close_to_one_r (tol a : fnum) : bool := fle (fabs (rsub rnd a (Fin 1))) tol.

(** kmedoids_fuzzy.py:63-158 compute_membership_fcm, rounded; simplifications as in Model/KMedoidsFuzzy.v *)
Definition compute_membership_fcm_r (X : dataset) (m : Q) (medoids : list medoid) (D : distance) (tol : fnum) : res fcost :=
  let n := length X in
  let k := length medoids in
  let ms := get_medoid_indices medoids in
  dist_mat <- dist_to_medoids X D medoids ;;
  _ <- (if (k =? 0)%nat then Ok tt
        else if Qeq_bool m 1 then Raise ZeroDivisionError
        else if (length dist_mat =? n)%nat then Ok tt else Raise ValueError) ;;
  _ <- mapM (fun mi => match norm_index n mi with Some _ => Ok tt | None => Raise IndexError end) ms ;;
  let uij := map (fun '(j, ds) => fcm_row_r m n ms j ds) (enumerate dist_mat) in
  _ <- py_assert (forallb (fun row => close_to_one_r tol (sum row)) uij) ;;
  let costs := map (fun i => sum (map (fun '(u, d) => rmul rnd (nth i u NaN) (nth i d NaN)) (combine uij dist_mat))) (seq 0 k) in
  Ok (mkfcost uij costs (sum costs) dist_mat).
End Rounded.
