(** The centroid of a region in floating point: Model/Distance.v with the sums of the distances formed in any way. *)
From Verif Require Import Base.Py Base.Arr Base.Float Model.Region Model.Distance.

Section Rounded.
(** np.sum of a list (numpy's order of additions depends on the length only) *)
Context (sum : list fnum -> fnum).

(** region/centroid.py:38-50, with rounded sums *)
Definition centroid_step_r (env : denv) (r : stregion fnum) (md : option dmeta) (use_distance_matrix : bool) (indices : list nat)
    (st : (option point * fnum * option (list fnum)) * dobj) (pt : point)
    : res ((option point * fnum * option (list fnum)) * dobj) :=
  let '((best, least, dists), o) := st in
  match distances_to_point env r md pt indices use_distance_matrix true o with
  | (Raise e, _) => Raise e
  | (Ok ds, o') =>
      let s := sum ds in
      Ok (if flt s least then ((Some pt, s, Some ds), o') else ((best, least, dists), o'))
  end.

(** region/centroid.py:15-61 find_centroid_and_distances, with rounded sums *)
Definition find_centroid_and_distances_r (env : denv) (r : stregion fnum) (md : option dmeta) (use_distance_matrix : bool) (o : dobj)
    : res (option point * option (list fnum)) :=
  indices <- all_point_indices r ;;
  items <- t_items r ;;
  st <- foldM (centroid_step_r env r md use_distance_matrix indices) (map fst items) ((None, PInf, None), o) ;;
  let '((best, _, dists), _) := st in Ok (best, dists).
End Rounded.
