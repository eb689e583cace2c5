(** spta/kmedoids/iris_kmedoid.py: a k-medoids algorithm of its own, and the script that runs it.

    The rows of a data set are values of a type [A]; [eqb] is the equality of two rows as tuples (false for rows with NaN)
    and [d_p x m] is np.linalg.norm(x - m, ord=p) ** p.  Simplification: the array of starting medoids shares no memory
    with the data set; that array is updated in place, of which the model shows only the value returned. *)
From Verif Require Import Base.Py Base.Float.

(** medoids[i] = x, iris_kmedoid.py:106 *)
Definition replace {A} (i : nat) (x : A) (l : list A) : list A := firstn i l ++ match skipn i l with [] => [] | _ :: t => x :: t end.

Section Iris.
Context {A : Type} (eqb : A -> A -> bool) (d_p : A -> A -> fnum).

(** iris_kmedoid.py:50-56 init_medoids; [choice n k] is numpy.random.choice(n, size=k, replace=False) after seed(1) *)
Definition init_medoids (choice : nat -> Z -> res (list Z)) (X : list A) (k : Z) : res (list A) :=
  samples <- choice (length X) k ;; mapM (getitem X) samples.

(** iris_kmedoid.py:60-75 compute_d_p for a 2-d array of medoids *)
Definition compute_d_p (X medoids : list A) : list (list fnum) := map (fun x => map (d_p x) medoids) X.
(** ... for one medoid, and its np.sum (l.95, 101) *)
Definition dissimilarity (X : list A) (medoid : A) : fnum := fsum (map (fun x => d_p x medoid) X).

(** iris_kmedoid.py:81-82 assign_labels, for an array with [k] columns *)
Definition assign_labels (k : nat) (S : list (list fnum)) : res (list nat) := if (k =? 0)%nat then Raise ValueError else mapM np_argmin S.

(** iris_kmedoid.py:97 points[labels == i] *)
Definition members (points : list A) (labels : list nat) (i : nat) : list A := map snd (filter (fun '(l, _) => (l =? i)%nat) (combine labels points)).

(** iris_kmedoid.py:99-106: the members are tried one after the other *)
Definition try_member (points : list A) (st : fnum * A) (datap : A) : fnum * A :=
  let new_dissimilarity := dissimilarity points datap in
  if flt new_dissimilarity (fst st) then (new_dissimilarity, datap) else st.

(** iris_kmedoid.py:93-106: one index of set(labels).  out_medoids is the array medoids itself (l.91), but no other index
    is read or written. *)
Definition update_one (points : list A) (labels : list nat) (medoids : list A) (i : nat) : list A :=
  match nth_error medoids i with
  | None => medoids
  | Some m => replace i (snd (fold_left (try_member points) (members points labels i) (dissimilarity points m, m))) medoids
  end.

(** iris_kmedoid.py:86-108 update_medoids: the data set that is used is the global [points], not the argument X; [order] gives
    the order in which set(labels) is traversed *)
Definition update_medoids (points : list A) (order : list nat -> list nat) (medoids : list A) : res (list A) :=
  labels <- assign_labels (length medoids) (compute_d_p points medoids) ;;
  Ok (fold_left (update_one points labels) (order labels) medoids).

(** iris_kmedoid.py:110-111 has_converged: two sets of tuples *)
Definition has_converged (old_medoids medoids : list A) : bool :=
  forallb (fun x => existsb (eqb x) medoids) old_medoids && forallb (fun x => existsb (eqb x) old_medoids) medoids.

(** iris_kmedoid.py:124-133: the loop; without fuel it does not end *)
Fixpoint iris_loop (fuel : nat) (points : list A) (order : list nat -> list nat) (X : list A) (max_steps : option Z) (i : Z)
    (converged : bool) (medoids : list A) (labels : list nat) : res (list A * list nat) :=
  match fuel with
  | O => Raise Diverges
  | S fuel' =>
      if (negb converged && match max_steps with None => true | Some n => (i <=? n)%Z end)%bool then
        labels' <- assign_labels (length medoids) (compute_d_p X medoids) ;;
        medoids' <- update_medoids points order medoids ;;
        iris_loop fuel' points order X max_steps (i + 1) (has_converged medoids medoids') medoids' labels'
      else Ok (medoids, labels)
  end.

(** iris_kmedoid.py:114-134 kmedoids; max_steps = None stands for np.inf *)
Definition iris_kmedoids (fuel : nat) (points : list A) (order : list nat -> list nat) (choice : nat -> Z -> res (list Z)) (X : list A) (k : Z)
    (starting_medoids : option (list A)) (max_steps : option Z) : res (list A * list nat) :=
  medoids <- match starting_medoids with None => init_medoids choice X k | Some l => Ok l end ;;
  iris_loop fuel points order X max_steps 1 false medoids (repeat 0%nat (length X)).
End Iris.

(** iris_kmedoid.py:141-173 mark_matches, for arrays of one dimension *)
Definition is_label (v : Z) : bool := ((v =? 0) || (v =? 1) || (v =? 2))%Z.
Definition mark_matches (a b : list Z) (exact : bool) : res (list bool) :=
  _ <- py_assert (length a =? length b)%nat ;;
  _ <- py_assert (forallb is_label a) ;;
  _ <- py_assert (forallb is_label b) ;;
  let exact_matches := map (fun '(x, y) => (x =? y)%Z) (combine a b) in
  if exact then Ok exact_matches
  else
    let num_exact_matches := length (filter (fun m => m) exact_matches) in
    if (length a <=? 2 * num_exact_matches)%nat then Ok exact_matches else Ok (map negb exact_matches).
(** iris_kmedoid.py:175-191 count_matches *)
Definition count_matches (a b : list Z) (exact : bool) : res nat :=
  matches <- mark_matches a b exact ;; Ok (length (filter (fun m => m) matches)).

(** iris_kmedoid.py:37, 58, 77-84, 136-138, 193: the number of matches that the script prints, for data points and the species
    of each ([labels] is bound to the species in l.16 and to other labels in l.84) *)
Definition iris_script {A} (eqb : A -> A -> bool) (d_p : A -> A -> fnum) (fuel : nat) (order : list nat -> list nat) (choice : nat -> Z -> res (list Z))
    (datapoints : list A) (species : list Z) : res nat :=
  medoids_initial <- init_medoids choice datapoints 3 ;;
  labels <- assign_labels (length medoids_initial) (compute_d_p d_p datapoints medoids_initial) ;;
  results <- iris_kmedoids eqb d_p fuel datapoints order choice datapoints 3 None None ;;
  count_matches (map Z.of_nat labels) (map Z.of_nat (snd results)) false.
