(** Distance measures and their distance matrices: spta/distance/{__init__,dtw,dtw_parallel,rmse}.py, the centroid
    (spta/region/centroid.py) and the intra-cluster cost (spta/region/partition.py). *)
From Coq Require Import String.
From Verif Require Import Base.Py Base.Arr Base.Float Model.Region Model.Pool.
Local Notation length := List.length.

(** A two-dimensional float array by rows; numpy keeps the column count even when there are no rows. *)
Record mat := Mat { m_cols : nat; m_rows : list (list fnum) }.

(** [M[i, j]] *)
Definition m_get (M : mat) (i j : Z) : res fnum := row <- getitem (m_rows M) i ;; getitem row j.
(** [M[i, :] = v]: numpy requires the lengths to agree, or broadcasts a single value *)
Definition m_set_row (M : mat) (i : Z) (v : list fnum) : res mat :=
  match norm_index (length (m_rows M)) i with
  | None => Raise IndexError
  | Some n =>
      if (length v =? m_cols M)%nat then Ok (Mat (m_cols M) (replace_nth (m_rows M) n v))
      else match v with
           | [x] => Ok (Mat (m_cols M) (replace_nth (m_rows M) n (repeat x (m_cols M))))
           | _ => Raise ValueError
           end
  end.
(** [np.empty((n, n))]; its content is arbitrary *)
Definition m_empty (junk : fnum) (n : nat) : mat := Mat n (repeat (repeat junk n) n).

(** distance/dtw.py:19-23 measure; [dtw] is tslearn's dtw *)
Definition dtw_measure (dtw : list fnum -> list fnum -> fnum) (a b : list fnum) : fnum :=
  if existsb is_nan a || existsb is_nan b then NaN else dtw a b.

(** distance/rmse.py:16-25 measure, for series of equal length (numpy broadcasting of other lengths is not
    modelled); [sqrt] is np.sqrt *)
Definition rmse_measure (sqrt : fnum -> fnum) (a b : list fnum) : fnum :=
  if existsb is_nan a || existsb is_nan b then NaN
  else sqrt (fmean (map (fun '(x, y) => let e := fsub x y in fmul e e) (combine a b))).

Section Matrix.
Context (measure : list fnum -> list fnum -> fnum) (junk : fnum).

(** distance/dtw.py:113-127 compute_distances_to_a_series *)
Definition distances_to_a_series (a : list fnum) (others : list (list fnum)) : list fnum := map (measure a) others.

(** distance/dtw.py:61-81 compute_distance_matrix_series_array *)
Definition matrix_of_series_array (X : list (list fnum)) : res mat :=
  foldM (fun M i => s <- getitem X i ;; m_set_row M i (distances_to_a_series s X))
        (zrange 0 (Z.of_nat (length X))) (m_empty junk (length X)).

(** distance/dtw.py:83-111 compute_distance_matrix_sptr *)
Definition matrix_of_region (r : stregion fnum) : res mat :=
  let x_len := t_x r in let y_len := t_y r in
  sptr_2d <- as_list r ;;
  foldM (fun M i =>
           foldM (fun M j =>
                    s <- series_at r (i, j) ;;
                    m_set_row M (i * Z.of_nat y_len + j) (distances_to_a_series s sptr_2d))
                 (zrange 0 (Z.of_nat y_len)) M)
        (zrange 0 (Z.of_nat x_len)) (m_empty junk (x_len * y_len)).

(** the argument of compute_distance_matrix: by number of dimensions *)
Inductive temporal_data := Data2 (X : list (list fnum)) | Data3 (r : stregion fnum) | DataOther.

(** distance/dtw_parallel.py:56-70 dtw_i_j, the inter-points task *)
Definition dtw_i_j (region : stregion fnum) (k1 k2 : nat) : res fnum :=
  if (k1 <=? k2)%nat then Ok (Fin 0)
  else
    sptr_2d <- as_list region ;;
    a <- getitem sptr_2d (Z.of_nat k1) ;;
    b <- getitem sptr_2d (Z.of_nat k2) ;;
    Ok (measure a b).

(** numpy: M + np.transpose(M) for a square matrix *)
Definition add_transpose (M : mat) : mat :=
  Mat (m_cols M)
      (map (fun i => map (fun j => fadd (nth j (nth i (m_rows M) []) NaN) (nth i (nth j (m_rows M) []) NaN)) (seq 0 (m_cols M)))
           (seq 0 (length (m_rows M)))).

(** util/parallel.py:28-73 inter_points_task_wrapper applied to dtw_i_j: the task with index [k_index].  The workers
    see a plain region with the data of the whole grid (l.92-109, 52-56), whatever class of region was given.  The
    task writes output_2d[i, j], which is slot i * n + j = k_index of the shared array (l.68-71). *)
Definition inter_points_task (r : stregion fnum) (k_index : nat) : res fnum :=
  let n := t_x r * t_y r in
  dtw_i_j (TPlain (t_data r)) (k_index / n) (k_index mod n).
Definition inter_points_slot (r : stregion fnum) (k_index : nat) : nat :=
  let n := t_x r * t_y r in (k_index / n) * n + k_index mod n.

(** util/parallel.py:132-155 operate, 76-129: all (x_len * y_len)^2 tasks, a zeroed output and chunks of 50 *)
Definition inter_points_start (num_proc : nat) (r : stregion fnum) : pstate nat :=
  let n := t_x r * t_y r in
  pool_start num_proc 50 (seq 0 (n * n)) (repeat (Fin 0) (n * n)).
Definition inter_points_steps (r : stregion fnum) : pstate nat -> pstate nat -> Prop :=
  psteps (inter_points_slot r) (inter_points_task r).

(** distance/dtw_parallel.py:40-53 compute_distance_matrix_sptr, from the pool that has finished *)
Definition matrix_parallel (r : stregion fnum) (final : pstate nat) : res mat :=
  let n := t_x r * t_y r in
  output <- pool_outcome final ;;
  Ok (add_transpose (Mat n (map (fun i => firstn n (skipn (i * n) output)) (seq 0 n)))).
End Matrix.

(* ---------- the distance measure object ---------- *)

(** DistanceByDTW, or DistanceBySpatialDTW with its weight *)
Inductive dkind := PlainDTW | SpatialDTW (weight : fnum).
(** attributes distance_matrix and weighted *)
Record dobj := DObj { d_kind : dkind; d_matrix : option mat; d_weighted : bool }.
Definition fresh (k : dkind) : dobj := DObj k None false.

(** what the object depends on: np.load, the measure, np.linalg.norm of an integer vector, np.empty *)
Record denv := DEnv { np_load : string -> res mat; env_measure : list fnum -> list fnum -> fnum;
                      norm2 : Z -> Z -> fnum; env_junk : fnum }.

(** the parts of region_metadata used here *)
Record dmeta := DMeta { md_filename : string; md_region : rect }.

Definition r_points (g : rect) : Z := ((x2 g - x1 g) * (y2 g - y1 g))%Z.

(** distance/__init__.py:41-71 load_distance_matrix_2d *)
Definition base_load (env : denv) (filename : string) (expected : rect) (o : dobj) : res (option mat) * dobj :=
  match np_load env filename with
  | Raise IOError => (Ok None, o)
  | Raise e => (Raise e, o)
  | Ok M =>
      if (Z.of_nat (length (m_rows M)) =? r_points expected)%Z && (Z.of_nat (m_cols M) =? r_points expected)%Z
      then (Ok (Some M), DObj (d_kind o) (Some M) (d_weighted o))
      else (Raise ValueError, o)
  end.

(** spta/util/arrays.py:113-125 list_of_2d_points *)
Definition list_of_2d_points (x_len y_len : Z) : list point :=
  flat_map (fun i => map (fun j => (i, j)) (zrange 0 y_len)) (zrange 0 x_len).

(** distance/dtw.py:165-173: one row of the loop.  numpy broadcasts a single weight over the row; the sum is
    assigned to the row, whose length must fit. *)
Definition weight_row (env : denv) (weight : fnum) (points : list point) (y_len : Z) (M : mat) (index : Z) : res mat :=
  if (y_len =? 0)%Z then Raise ZeroDivisionError else
  let at_index := (Z.quot index y_len, Z.modulo index y_len) in
  let added := map (fun q => fmul (norm2 env (fst q - fst at_index) (snd q - snd at_index)) weight) points in
  row <- getitem (m_rows M) index ;;
  match added with
  | [v] => m_set_row M index (map (fun d => fadd d v) row)
  | _ =>
      if (length added =? length row)%nat then m_set_row M index (map (fun '(d, v) => fadd d v) (combine row added))
      else Raise ValueError
  end.

(** distance/dtw.py:149-183 weight_distance_matrix.  An exception in the loop leaves the rows already done. *)
Fixpoint weight_rows (env : denv) (weight : fnum) (points : list point) (y_len : Z) (indices : list Z) (M : mat) : mat * option exn :=
  match indices with
  | [] => (M, None)
  | i :: l =>
      match weight_row env weight points y_len M i with
      | Ok M' => weight_rows env weight points y_len l M'
      | Raise e => (M, Some e)
      end
  end.
Definition weight_distance_matrix (env : denv) (region : rect) (o : dobj) : res mat * dobj :=
  match d_kind o, d_matrix o with
  | PlainDTW, _ => (Raise AttributeError, o)
  | SpatialDTW _, None => (Raise ValueError, o)
  | SpatialDTW weight, Some M =>
      if d_weighted o then (Ok M, o)
      else
        let x_len := (x2 region - x1 region)%Z in let y_len := (y2 region - y1 region)%Z in
        match weight_rows env weight (list_of_2d_points x_len y_len) y_len (zrange 0 (x_len * y_len)) M with
        | (M', None) => (Ok M', DObj (d_kind o) (Some M') true)
        | (M', Some e) => (Raise e, DObj (d_kind o) (Some M') false)
        end
  end.

(** distance/__init__.py:41-71, or distance/dtw.py:185-197 (spatial: read normally, then weight) *)
Definition load_distance_matrix_2d (env : denv) (filename : string) (expected : rect) (o : dobj) : res (option mat) * dobj :=
  match d_kind o with
  | PlainDTW => base_load env filename expected o
  | SpatialDTW _ =>
      match base_load env filename expected o with
      | (Raise e, o') => (Raise e, o')
      | (Ok _, o') => match weight_distance_matrix env expected o' with
                      | (Ok M, o'') => (Ok (Some M), o'')
                      | (Raise e, o'') => (Raise e, o'')
                      end
      end
  end.

(** distance/__init__.py:73-80 load_distance_matrix_md; None has no attribute distances_filename *)
Definition load_distance_matrix_md (env : denv) (md : option dmeta) (o : dobj) : res (option mat) * dobj :=
  match md with
  | None => (Raise AttributeError, o)
  | Some m => load_distance_matrix_2d env (md_filename m) (md_region m) o
  end.

(** distance/__init__.py:82-90 try_load_distance_matrix *)
Definition try_load_distance_matrix (env : denv) (md : option dmeta) (o : dobj) : res (option mat) * dobj :=
  match md with None => (Ok None, o) | Some _ => load_distance_matrix_md env md o end.

(** distance/dtw.py:34-59 compute_distance_matrix *)
Definition compute_distance_matrix (env : denv) (data : temporal_data) (o : dobj) : res mat * dobj :=
  let r := match data with
           | Data2 X => matrix_of_series_array (env_measure env) (env_junk env) X
           | Data3 r => matrix_of_region (env_measure env) (env_junk env) r
           | DataOther => Raise ValueError
           end in
  match r with
  | Ok M => (Ok M, DObj (d_kind o) (Some M) (d_weighted o))
  | Raise e => (Raise e, o)
  end.

(** distance/__init__.py:143-165 distances_to_point_with_matrix: fancy indexing of one row *)
Definition distances_to_point_with_matrix (o : dobj) (y_len : nat) (pt : point) (indices : list nat) : res (list fnum) :=
  match d_matrix o with
  | None => Raise AssertionError
  | Some M => mapM (fun j => m_get M (encode_point y_len pt) (Z.of_nat j)) indices
  end.

(** distance/__init__.py:92-141 distances_to_point *)
Definition distances_to_point (env : denv) (r : stregion fnum) (md : option dmeta) (pt : point) (indices : list nat)
    (use_distance_matrix only_if_precalculated : bool) (o : dobj) : res (list fnum) * dobj :=
  if negb use_distance_matrix then (Raise NotImplementedError, o)
  else
    let '(ready, o) :=
      match d_matrix o with
      | Some _ => (Ok tt, o)
      | None =>
          match load_distance_matrix_md env md o with
          | (Ok _, o') => (Ok tt, o')
          | (Raise _, o') =>
              if only_if_precalculated then (Raise ValueError, o')
              else match compute_distance_matrix env (Data3 r) o' with
                   | (Ok _, o'') => (Ok tt, o'')
                   | (Raise e, o'') => (Raise e, o'')
                   end
          end
      end in
    match ready with
    | Raise e => (Raise e, o)
    | Ok _ => (distances_to_point_with_matrix o (t_y r) pt indices, o)
    end.

(* ---------- centroid ---------- *)

(** region/centroid.py:38-50: the state of the loop is the best point, the sum and the distances so far; the
    distances start as np.Inf (None here) *)
Definition centroid_step (env : denv) (r : stregion fnum) (md : option dmeta) (use_distance_matrix : bool) (indices : list nat)
    (st : (option point * fnum * option (list fnum)) * dobj) (pt : point)
    : res ((option point * fnum * option (list fnum)) * dobj) :=
  let '((best, least, dists), o) := st in
  match distances_to_point env r md pt indices use_distance_matrix true o with
  | (Raise e, _) => Raise e
  | (Ok ds, o') =>
      let s := fsum ds in
      Ok (if flt s least then ((Some pt, s, Some ds), o') else ((best, least, dists), o'))
  end.

(** region/centroid.py:15-61 find_centroid_and_distances *)
Definition find_centroid_and_distances (env : denv) (r : stregion fnum) (md : option dmeta) (use_distance_matrix : bool) (o : dobj)
    : res (option point * option (list fnum)) :=
  indices <- all_point_indices r ;;
  items <- t_items r ;;
  st <- foldM (centroid_step env r md use_distance_matrix indices) (map fst items) ((None, PInf, None), o) ;;
  let '((best, _, dists), _) := st in Ok (best, dists).

(* ---------- intra-cluster cost ---------- *)

(** region/partition.py:429-461 intra_cluster_cost; [sum_squared] is np.sum(np.square(.)), spta/util/arrays.py:86-91 *)
Definition sum_squared (l : list fnum) : fnum := fsum (map (fun d => fmul d d) l).
Definition intra_cluster_cost (env : denv) (p : crisp) (medoids : list point) (r : stregion fnum) (md : option dmeta) (o : dobj)
    : res fnum :=
  clusters <- create_all_spt_clusters p r ;;
  st <- foldM (fun '(cost, o) '(i, cluster) =>
                 medoid <- getitem medoids (Z.of_nat i) ;;
                 items <- t_items cluster ;;
                 let indices := map (fun item => Z.to_nat (encode_point (t_y r) (fst item))) items in
                 match distances_to_point env r md medoid indices true true o with
                 | (Raise e, _) => Raise e
                 | (Ok ds, o') => Ok (fadd cost (sum_squared ds), o')
                 end)
              (enumerate clusters) (Fin 0, o) ;;
  Ok (fst st).
