(** spta/region/mask.py: fuzzy masks. *)
From Verif Require Import Base.Py Base.Arr Base.Float Model.Region.

(** mask.py:98-114 a MaskRegionFuzzy: memberships of shape (k, x_len, y_len), cluster index, threshold *)
Record fmask := FMask { fm_u : arr3 fnum; fm_cluster : Z; fm_threshold : fnum }.

(** mask.py:98-114 MaskRegionFuzzy.__init__ (ndim is 3 by typing) *)
Definition mk_fmask (u : arr3 fnum) (cluster_index : Z) (threshold : fnum) : res fmask :=
  _ <- py_assert (fle (Fin 0) threshold) ;;
  _ <- py_assert (fle threshold (Fin 1)) ;;
  _ <- py_assert (0 <=? cluster_index)%Z ;;
  _ <- py_assert (cluster_index <? Z.of_nat (a3t u))%Z ;;
  Ok (FMask u cluster_index threshold).

(** mask.py:125-147 is_member; [None] is the Python None *)
Definition fmask_is_member (m : fmask) (point : option point) : res bool :=
  match point with
  | None => Ok false
  | Some (x, y) =>
      u <- series3 (fm_u m) x y ;;
      best <- np_argmax u ;;
      u_best <- getitem u (Z.of_nat best) ;;
      u_this <- getitem u (fm_cluster m) ;;
      Ok (fle (fsub u_best u_this) (fm_threshold m))
  end.

(** mask.py:44-69 MaskRegion.__next__ from counter [idx] of the base iterator *)
Definition fmask_next (m : fmask) (idx : nat) : nat * res (option point) :=
  let x := a3x (fm_u m) in
  let y := a3y (fm_u m) in
  member_next (fun pt => fmask_is_member m (Some pt)) x y (S (x * y)) idx.

(** [for point in mask] *)
Definition fmask_for (m : fmask) (idx : nat) : nat * res (list point) :=
  run_for (fmask_next m) (S (a3x (fm_u m) * a3y (fm_u m))) idx.

(** mask.py:116-123 cluster_len *)
Definition fmask_cluster_len (m : fmask) (idx : nat) : nat * res nat :=
  match fmask_for m idx with
  | (i, Ok l) => (i, Ok (length l))
  | (i, Raise e) => (i, Raise e)
  end.

(** mask.py:149-150 clone: same content, fresh iterator *)
Definition fmask_clone (m : fmask) : res fmask := mk_fmask (fm_u m) (fm_cluster m) (fm_threshold m).

(** mask.py:152-169 from_uij_and_region: [uij] has shape (N, k), one row per point; swapping its axes and
    reshaping puts membership j of sample i*y_len+l at (j, i, l). *)
Definition from_uij_and_region (uij : arr2 fnum) (x_len y_len : nat) (cluster_index : Z) (threshold : fnum) : res fmask :=
  _ <- py_assert (a2x uij =? x_len * y_len)%nat ;;
  flat <- mapM (fun '(j, i) => get2 uij (Z.of_nat i) (Z.of_nat j))
               (flat_map (fun j => map (fun i => (j, i)) (seq 0 (a2x uij))) (seq 0 (a2y uij))) ;;
  u <- reshape3 flat (a2y uij) x_len y_len ;;
  mk_fmask u cluster_index threshold.
