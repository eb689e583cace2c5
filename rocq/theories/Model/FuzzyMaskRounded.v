(** spta/region/mask.py in floating point: fuzzy masks that round the difference of two memberships. *)
From Coq Require Import QArith.
From Verif Require Import Base.Py Base.Arr Base.Float Model.Region Model.FuzzyMask Model.KMedoids Model.KMedoidsFuzzy Model.Rounded.
Local Open Scope nat_scope.

Section Rounded.
Context (rnd : Q -> fnum).

(** mask.py:125-147 is_member; the difference of l.147 is rounded *)
Definition fmask_is_member_r (m : fmask) (point : option point) : res bool :=
  match point with
  | None => Ok false
  | Some (x, y) =>
      u <- series3 (fm_u m) x y ;;
      best <- np_argmax u ;;
      u_best <- getitem u (Z.of_nat best) ;;
      u_this <- getitem u (fm_cluster m) ;;
      Ok (fle (rsub rnd u_best u_this) (fm_threshold m))
  end.

(** mask.py:44-69 MaskRegion.__next__ from counter [idx] of the base iterator *)
Definition fmask_next_r (m : fmask) (idx : nat) : nat * res (option point) :=
  let x := a3x (fm_u m) in
  let y := a3y (fm_u m) in
  member_next (fun pt => fmask_is_member_r m (Some pt)) x y (S (x * y)) idx.

(** [for point in mask] *)
Definition fmask_for_r (m : fmask) (idx : nat) : nat * res (list point) :=
  run_for (fmask_next_r m) (S (a3x (fm_u m) * a3y (fm_u m))) idx.

(** mask.py:116-123 cluster_len *)
Definition fmask_cluster_len_r (m : fmask) (idx : nat) : nat * res nat :=
  match fmask_for_r m idx with
  | (i, Ok l) => (i, Ok (length l))
  | (i, Raise e) => (i, Raise e)
  end.

(** kmedoids_fuzzy.py:235-260 show_report: the number of members of each fuzzy cluster *)
Definition f_show_report_r (k : Z) (r : fresult) : res unit :=
  let n := length (fr_u r) in
  let width := match fr_u r with [] => 0%nat | row :: _ => length row end in
  foldM (fun _ i =>
    mask <- from_uij_and_region (mk2 n width (concat (fr_u r))) 1 n i (Fin 0) ;;
    _ <- snd (fmask_cluster_len_r mask 0) ;;
    _ <- (if (n =? 0)%nat then Raise ZeroDivisionError else Ok tt) ;;
    _ <- getitem (fr_medoids r) i ;;
    Ok tt) (zrange 0 k) tt.
End Rounded.
