(** spta/kmedoids/kmedoids_bad.py: the first k-medoids algorithm, which measures a medoid against all the samples.  The
    distance measure is given by [measure] and [combine], arbitrary functions that do not raise. *)
From Verif Require Import Base.Py Base.Float Model.KMedoids.

Section Bad.
Context (measure : list fnum -> list fnum -> fnum) (combine_d : list (list fnum) -> fnum).

(** kmedoids_bad.py:30-56 compute_cluster_distances: one row per sample, one column per medoid *)
Definition compute_cluster_distances (X : dataset) (medoids : list medoid) : list (list fnum) :=
  map (fun x => map (fun md => measure x (snd md)) medoids) X.

(** kmedoids_bad.py:61-62 assign_labels for the distances to [k] medoids; an axis of length 0 raises ValueError *)
Definition assign_labels (k : nat) (S : list (list fnum)) : res (list nat) :=
  if (k =? 0)%nat then Raise ValueError else mapM np_argmin S.

(** kmedoids_bad.py:86-109 one sample considered for cluster i; out_medoids is the same list as medoids (l.74) *)
Definition consider (X : dataset) (i : nat) (st : list medoid * list nat * fnum) (sample : nat * list fnum) : res (list medoid * list nat * fnum) :=
  let '(medoids, labels, avg) := st in
  let '(index, datap) := sample in
  l <- getitem labels (Z.of_nat index) ;;
  md <- getitem medoids (Z.of_nat i) ;;
  if negb (l =? i)%nat || (Z.of_nat index =? fst md)%Z then Ok st
  else
    let new_medoid := (Z.of_nat index, datap) in
    let new := combine_d (compute_cluster_distances X [new_medoid]) in
    if flt new avg then
      medoids' <- setitem medoids (Z.of_nat i) new_medoid ;;
      labels' <- assign_labels (length medoids') (compute_cluster_distances X medoids') ;;
      Ok (medoids', labels', new)
    else Ok st.

(** kmedoids_bad.py:77-109 the loop body for cluster i *)
Definition update_cluster (X : dataset) (st : list medoid * list nat) (i : nat) : res (list medoid * list nat) :=
  let '(medoids, labels) := st in
  md <- getitem medoids (Z.of_nat i) ;;
  let avg := combine_d (compute_cluster_distances X [md]) in
  '(medoids', labels', _) <- foldM (consider X i) (enumerate X) (medoids, labels, avg) ;;
  Ok (medoids', labels').

(** kmedoids_bad.py:67-111 update_medoids *)
Definition update_medoids (X : dataset) (medoids : list medoid) : res (list medoid) :=
  labels <- assign_labels (length medoids) (compute_cluster_distances X medoids) ;;
  '(medoids', _) <- foldM (update_cluster X) (seq 0 (length medoids)) (medoids, labels) ;;
  Ok medoids'.

(** kmedoids_bad.py:114-116 *)
Definition has_converged (old_medoids medoids : list medoid) : bool := if list_eq_dec Z.eq_dec (map fst old_medoids) (map fst medoids) then true else false.

(** kmedoids_bad.py:129-143 the loop; max_steps None is infinity *)
Fixpoint bad_loop (fuel : nat) (X : dataset) (max_steps : option Z) (i : Z) (converged : bool) (medoids : list medoid) (labels : list nat)
  : res (list medoid * list nat) :=
  if negb converged && match max_steps with None => true | Some s => (i <=? s)%Z end then
    match fuel with
    | O => Raise Diverges
    | S fuel' =>
        labels' <- assign_labels (length medoids) (compute_cluster_distances X medoids) ;;
        medoids' <- update_medoids X medoids ;;
        bad_loop fuel' X max_steps (i + 1) (has_converged medoids medoids') medoids' labels'
    end
  else Ok (medoids, labels).

(** kmedoids_bad.py:14-25, 119-145 kmedoids; [choice n k] is numpy's choice after seed(1).  A pass that does not converge makes
    a medoid better, so the fuel covers every run (Props/KMedoidsBad.v, C104_terminates) *)
Definition kmedoids_bad (choice : nat -> Z -> res (list Z)) (X : dataset) (k : Z) (starting_medoids : option (list medoid)) (max_steps : option Z)
  : res (list medoid * list nat) :=
  medoids <- match starting_medoids with None => choose_initial_medoids choice X k None | Some ms => Ok ms end ;;
  bad_loop (S (length medoids * length X)) X max_steps 1 false medoids (repeat 0 (length X)).

(** the list of starting medoids after the call: it is the list that the loop updates (l.74, 103, 124) *)
Definition starting_medoids_after (X : dataset) (k : Z) (starting_medoids : list medoid) (max_steps : option Z) : res (list medoid) :=
  '(medoids, _) <- kmedoids_bad (fun _ _ => Raise ValueError) X k (Some starting_medoids) max_steps ;;
  Ok medoids.
End Bad.
