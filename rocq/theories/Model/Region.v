(** Regions, their iterators, crisp partitions and clusters:
    spta/region/{__init__,base,spatial,temporal,partition}.py.

    Simplifications: numpy views are values (no aliasing); a region's mutable iterator counter
    [point_index] is threaded explicitly in [base_next]/[s_next]/[t_next] and starts at rest (0) in the
    methods that loop over the region; [int(a / b)] on non-negative ints is exact division (CPython
    uses float division, exact below 2^53); loggers, names, metadata and the `point is None` branches are
    left out except where noted. *)
From Verif Require Import Base.Py Base.Arr.

(** spta/region/__init__.py:5 [Point = namedtuple('Point', ['x', 'y'])] *)
Notation point := (Z * Z)%type.

(** spta/region/__init__.py:6 [Region = namedtuple('Region', ['x1', 'x2', 'y1', 'y2'])] *)
Record rect : Type := Rect { x1 : Z; x2 : Z; y1 : Z; y2 : Z }.

(** spta/region/__init__.py:7 [TimeInterval = namedtuple('TimeInterval', ['t1', 't2'])] *)
Record interval : Type := Interval { t1 : Z; t2 : Z }.

(** spta/region/base.py:82-101 BaseRegion.__next__: new value of point_index, and the point
    ([None] = StopIteration). *)
Definition base_next (x_len y_len : nat) (point_index : nat) : nat * option point :=
  if (y_len * x_len <=? point_index)%nat then (0, None)
  else
    let i := point_index / y_len in
    let j := point_index mod y_len in
    (S point_index, Some (Z.of_nat i, Z.of_nat j)).

(** The Python [for] statement over an object whose iterator is itself: call __next__ until
    StopIteration, collecting the items.  The loop body is run on the collected items by the callers,
    which never touch the iterator.  [fuel] bounds the number of calls. *)
Fixpoint run_for {S I} (next : S -> S * res (option I)) (fuel : nat) (s : S) : S * res (list I) :=
  match fuel with
  | O => (s, Raise Diverges)
  | Datatypes.S fuel' =>
      match next s with
      | (s', Raise e) => (s', Raise e)
      | (s', Ok None) => (s', Ok [])
      | (s', Ok (Some i)) =>
          match run_for next fuel' s' with
          | (s'', Ok l) => (s'', Ok (i :: l))
          | (s'', Raise e) => (s'', Raise e)
          end
      end
  end.

(** A [for] loop left by [break] after its [m]-th item (or at the end if there are fewer). *)
Fixpoint run_for_break {S I} (next : S -> S * res (option I)) (m : nat) (s : S) : S * res (list I) :=
  match m with
  | O => (s, Ok [])
  | Datatypes.S m' =>
      match next s with
      | (s', Raise e) => (s', Raise e)
      | (s', Ok None) => (s', Ok [])
      | (s', Ok (Some i)) =>
          match run_for_break next m' s' with
          | (s'', Ok l) => (s'', Ok (i :: l))
          | (s'', Raise e) => (s'', Raise e)
          end
      end
  end.

Definition lift_next {I} (n : nat * option I) : nat * res (option I) := (fst n, Ok (snd n)).

(** [for point in region] on a BaseRegion object (also PartitionRegion), from counter [idx] *)
Definition base_for (x_len y_len idx : nat) : nat * res (list point) :=
  run_for (fun i => lift_next (base_next x_len y_len i)) (S (x_len * y_len)) idx.

(** the same loop left by [break] after [m] items *)
Definition base_for_break (x_len y_len idx m : nat) : nat * res (list point) :=
  run_for_break (fun i => lift_next (base_next x_len y_len i)) m idx.

(** A loop over a region nested in a loop over the same region object, as in
    [for p in r: for q in r: ...]: the state after the body of the outer loop has run [n] times, together
    with the points of the outer loop so far; [None] once the outer loop has stopped. *)
Fixpoint nested_for (x_len y_len n idx : nat) : option (nat * list point) :=
  match n with
  | O => Some (idx, [])
  | S n' =>
      match nested_for x_len y_len n' idx with
      | None => None
      | Some (i, l) =>
          match base_next x_len y_len i with
          | (_, None) => None
          | (i', Some p) => Some (fst (base_for x_len y_len i'), l ++ [p])
          end
      end
  end.

(* ------------------------------------------------------------------ crisp partitions *)

(** spta/region/partition.py:229-257 PartitionRegionCrisp: the membership matrix and k. *)
Record crisp : Type := Crisp { labels : arr2 Z; pk : Z }.

(** [np.max] of an integer array; empty raises ValueError *)
Definition np_max_int (l : list Z) : res Z :=
  match l with
  | [] => Raise ValueError
  | x :: xs => Ok (fold_left Z.max xs x)
  end.

(** spta/region/partition.py:249-257 PartitionRegionCrisp.__init__ (ndim is 2 by typing) *)
Definition mk_crisp (mat : arr2 Z) (k : Z) : res crisp :=
  m <- np_max_int (a2d mat) ;;
  _ <- py_assert (k =? m + 1)%Z ;;
  Ok (Crisp mat k).

(** spta/region/partition.py:386-398 from_membership_array *)
Definition from_membership_array (membership : list Z) (x_len y_len : nat) : res crisp :=
  m <- np_max_int membership ;;
  mat <- reshape2 membership x_len y_len ;;
  mk_crisp mat (m + 1)%Z.

(** spta/region/partition.py:259-267 is_member (for a point that is not None) *)
Definition is_member (p : crisp) (pt : point) (cluster_index : Z) : res bool :=
  l <- get2 (labels p) (fst pt) (snd pt) ;;
  Ok (l =? cluster_index)%Z.

(** spta/region/partition.py:269-278 membership_of_point_indices: [numpy_dataset.take(indices)] on the
    flattened array; numpy's take accepts negative indices and raises IndexError out of range *)
Definition membership_of_point_indices (p : crisp) (indices : list Z) : res (list Z) :=
  mapM (getitem (a2d (labels p))) indices.

(** spta/region/partition.py:77-91 membership_of_points *)
Definition membership_of_points (p : crisp) (points : list point) : res (list Z) :=
  membership_of_point_indices p
    (map (fun pt => (fst pt * Z.of_nat (a2y (labels p)) + snd pt)%Z) points).

(** spta/region/partition.py:280-285 PartitionRegionCrisp.cluster_len *)
Definition cluster_len (p : crisp) (cluster_index : Z) : nat :=
  length (filter (fun l => (l =? cluster_index)%Z) (a2d (labels p))).

(** spta/region/partition.py:103-113 PartitionRegion.cluster_len, the inherited implementation,
    for a subclass with membership function [mem] on a grid: [members += 0] for each member *)
Definition default_cluster_len (x_len y_len : nat) (mem : point -> Z -> res bool) (cluster_index : Z)
  : res Z :=
  points <- snd (base_for x_len y_len 0) ;;
  foldM (fun members pt => b <- mem pt cluster_index ;; Ok (if b then members + 0 else members)%Z) points 0%Z.

(* ------------------------------------------------------------------ regions and clusters *)

(** A SpatialRegion object (spatial.py:98) or a SpatialCluster (spatial.py:271) decorating one *)
Inductive sregion (A : Type) : Type :=
| SPlain (data : arr2 A)
| SCluster (decorated : sregion A) (p : crisp) (cluster_index : Z).
Arguments SPlain {A} data.
Arguments SCluster {A} decorated p cluster_index.

(** A SpatioTemporalRegion (temporal.py:17), a SpatioTemporalCluster (temporal.py:290) or a
    SpatioTemporalScaled (scaling.py:88) decorating one *)
Inductive stregion (A : Type) : Type :=
| TPlain (data : arr3 A)
| TCluster (decorated : stregion A) (p : crisp) (cluster_index : Z)
| TScaled (decorated : stregion A) (scale_min scale_max : sregion A).
Arguments TPlain {A} data.
Arguments TCluster {A} decorated p cluster_index.
Arguments TScaled {A} decorated scale_min scale_max.

(** [numpy_dataset]: a decorator shares its decorated region's array (spatial.py:229-233) *)
Fixpoint s_data {A} (r : sregion A) : arr2 A :=
  match r with SPlain d => d | SCluster r' _ _ => s_data r' end.
Fixpoint t_data {A} (r : stregion A) : arr3 A :=
  match r with TPlain d => d | TCluster r' _ _ => t_data r' | TScaled r' _ _ => t_data r' end.

(** base.py:27-31 x_len, y_len; temporal.py:28,232 series_len *)
Definition s_x {A} (r : sregion A) := a2x (s_data r).
Definition s_y {A} (r : sregion A) := a2y (s_data r).
Definition t_x {A} (r : stregion A) := a3x (t_data r).
Definition t_y {A} (r : stregion A) := a3y (t_data r).
Definition t_len {A} (r : stregion A) := a3t (t_data r).

(** spatial.py:134-139 SpatialRegion.value_at; spatial.py:353-364 SpatialCluster.value_at *)
Fixpoint value_at {A} (r : sregion A) (pt : point) : res A :=
  match r with
  | SPlain d => get2 d (fst pt) (snd pt)
  | SCluster r' p c =>
      b <- is_member p pt c ;;
      if b then value_at r' pt else Raise ValueError
  end.

(** temporal.py:53-58 SpatioTemporalRegion.series_at; temporal.py:357-369 SpatioTemporalCluster.series_at;
    temporal.py:237-238 (SpatioTemporalScaled) *)
Fixpoint series_at {A} (r : stregion A) (pt : point) : res (list A) :=
  match r with
  | TPlain d => series3 d (fst pt) (snd pt)
  | TCluster r' p c =>
      b <- is_member p pt c ;;
      if b then series_at r' pt else Raise ValueError
  | TScaled r' _ _ => series_at r' pt
  end.

(** spatial.py:375-394 (= temporal.py:399-417, mask.py:50-67): the loop of a cluster's __next__ over
    candidate points until a member is found; fuel bounds the candidates *)
Fixpoint member_next (mem : point -> res bool) (x_len y_len fuel idx : nat) : nat * res (option point) :=
  match fuel with
  | O => (idx, Raise Diverges)
  | S fuel' =>
      match base_next x_len y_len idx with
      | (idx', None) => (idx', Ok None)
      | (idx', Some pt) =>
          match mem pt with
          | Raise e => (idx', Raise e)
          | Ok true => (idx', Ok (Some pt))
          | Ok false => member_next mem x_len y_len fuel' idx'
          end
      end
  end.

(** attach the value of the point: the tuple returned by __next__ *)
Definition with_value {A} (value : point -> res A) (n : nat * res (option point))
  : nat * res (option (point * A)) :=
  match n with
  | (idx, Ok None) => (idx, Ok None)
  | (idx, Ok (Some pt)) =>
      match value pt with Ok v => (idx, Ok (Some (pt, v))) | Raise e => (idx, Raise e) end
  | (idx, Raise e) => (idx, Raise e)
  end.

(** spatial.py:107-117 SpatialRegion.__next__; spatial.py:366-397 SpatialCluster.__next__ *)
Definition s_next {A} (r : sregion A) (idx : nat) : nat * res (option (point * A)) :=
  match r with
  | SPlain d => with_value (value_at r) (lift_next (base_next (s_x r) (s_y r) idx))
  | SCluster _ p c =>
      with_value (value_at r)
        (member_next (fun pt => is_member p pt c) (s_x r) (s_y r) (S (s_x r * s_y r)) idx)
  end.

(** temporal.py:30-51 SpatioTemporalRegion.__next__; temporal.py:393-420 SpatioTemporalCluster.__next__;
    scaling.py:221-226 SpatioTemporalScaled.__next__ (delegates to the decorated object's iterator) *)
Fixpoint t_next {A} (r : stregion A) (idx : nat) : nat * res (option (point * list A)) :=
  match r with
  | TPlain d => with_value (series_at r) (lift_next (base_next (t_x r) (t_y r) idx))
  | TCluster _ p c =>
      with_value (series_at r)
        (member_next (fun pt => is_member p pt c) (t_x r) (t_y r) (S (t_x r * t_y r)) idx)
  | TScaled r' _ _ => t_next r' idx
  end.

(** [for (point, value) in region], from counter [idx] *)
Definition s_for {A} (r : sregion A) (idx : nat) : nat * res (list (point * A)) :=
  run_for (s_next r) (S (s_x r * s_y r)) idx.
Definition t_for {A} (r : stregion A) (idx : nat) : nat * res (list (point * list A)) :=
  run_for (t_next r) (S (t_x r * t_y r)) idx.

(** the items of a loop over a region at rest *)
Definition s_items {A} (r : sregion A) : res (list (point * A)) := snd (s_for r 0).
Definition t_items {A} (r : stregion A) : res (list (point * list A)) := snd (t_for r 0).

(** spatial.py:18-22, 235-240, 321-330 new_spatial_region on spatial regions *)
Fixpoint s_new_spatial {A B} (r : sregion A) (d : arr2 B) : sregion B :=
  match r with
  | SPlain _ => SPlain d
  | SCluster r' p c => SCluster (s_new_spatial r' d) p c
  end.

(** new_spatial_region on spatio-temporal regions: spatial.py:18-22 (plain), 321-330 (cluster),
    235-240 (scaled: delegates) *)
Fixpoint t_new_spatial {A B} (r : stregion A) (d : arr2 B) : sregion B :=
  match r with
  | TPlain _ => SPlain d
  | TCluster r' p c => SCluster (t_new_spatial r' d) p c
  | TScaled r' _ _ => t_new_spatial r' d
  end.

(** new_spatio_temporal_region: spatial.py:24-30, 332-344 on spatial regions *)
Fixpoint s_new_st {A B} (r : sregion A) (d : arr3 B) : stregion B :=
  match r with
  | SPlain _ => TPlain d
  | SCluster r' p c => TCluster (s_new_st r' d) p c
  end.

(** new_spatio_temporal_region on spatio-temporal regions: spatial.py:24-30, temporal.py:322-334,
    scaling.py:120-132 *)
Fixpoint t_new_st {A} (r : stregion A) (d : arr3 A) : stregion A :=
  match r with
  | TPlain _ => TPlain d
  | TCluster r' p c => TCluster (t_new_st r' d) p c
  | TScaled r' mn mx => TScaled (t_new_st r' d) mn mx
  end.

(** partition.py:121-132 create_spatial_cluster *)
Definition create_spatial_cluster {A} (p : crisp) (r : sregion A) (i : Z) : res (sregion A) :=
  _ <- py_assert (a2x (labels p) =? s_x r)%nat ;;
  _ <- py_assert (a2y (labels p) =? s_y r)%nat ;;
  Ok (SCluster r p i).

(** partition.py:134-144 create_all_spatial_clusters *)
Definition create_all_spatial_clusters {A} (p : crisp) (r : sregion A) : res (list (sregion A)) :=
  mapM (create_spatial_cluster p r) (zrange 0 (pk p)).

(** partition.py:146-157 create_spt_cluster *)
Definition create_spt_cluster {A} (p : crisp) (r : stregion A) (i : Z) : res (stregion A) :=
  _ <- py_assert (a2x (labels p) =? t_x r)%nat ;;
  _ <- py_assert (a2y (labels p) =? t_y r)%nat ;;
  Ok (TCluster r p i).

(** partition.py:159-198 create_all_spt_clusters; the optional centroids are represented by the list of
    centroids attached to the clusters (see [decode_index] for the index form) *)
Definition create_all_spt_clusters {A} (p : crisp) (r : stregion A) : res (list (stregion A)) :=
  mapM (create_spt_cluster p r) (zrange 0 (pk p)).

(** partition.py:186-189 (= metadata.py:104-106, kmedoids partition_impl): point of an index.
    [int(index / y_len)] truncates towards zero and [%] is the floor modulus; y_len = 0 raises. *)
Definition decode_index (y_len : nat) (index : Z) : res point :=
  if (y_len =? 0)%nat then Raise ZeroDivisionError
  else Ok (Z.quot index (Z.of_nat y_len), Z.modulo index (Z.of_nat y_len)).

(** the index of a point, as computed at partition.py:86, 364, 452 and elsewhere *)
Definition encode_point (y_len : nat) (pt : point) : Z := (fst pt * Z.of_nat y_len + snd pt)%Z.

(** metadata.py:111-119 absolute_position_of_point, for a region with corner (x1, y1) *)
Definition absolute_position_of_point (reg : rect) (pt : point) : point :=
  (fst pt + x1 reg, snd pt + y1 reg)%Z.

(** metadata.py:94-109 index_to_absolute_point; the metadata's y_len is y2 - y1 (metadata.py:63-64) *)
Definition index_to_absolute_point (reg : rect) (index : Z) : res point :=
  let y_len := (y2 reg - y1 reg)%Z in
  if (y_len =? 0)%Z then Raise ZeroDivisionError
  else Ok (absolute_position_of_point reg (Z.quot index y_len, Z.modulo index y_len)).

(** metadata.py:121-135 absolute_coordinates_of_region *)
Definition absolute_coordinates_of_region (reg r : rect) : rect :=
  let c1 := absolute_position_of_point reg (x1 r, y1 r) in
  let c2 := absolute_position_of_point reg (x2 r, y2 r) in
  Rect (fst c1) (fst c2) (snd c1) (snd c2).

(** temporal.py:160-170 (plain), 285-287 (scaled: delegates), 371-385 (cluster) all_point_indices *)
Fixpoint all_point_indices {A} (r : stregion A) : res (list nat) :=
  match r with
  | TPlain d => Ok (seq 0 (a3x d * a3y d))
  | TScaled r' _ _ => all_point_indices r'
  | TCluster r' p c =>
      memberships <- membership_of_point_indices p (map Z.of_nat (seq 0 (t_x r' * t_y r'))) ;;
      Ok (map fst (filter (fun '(_, l) => (l =? c)%Z) (enumerate memberships)))
  end.

(** temporal.py:172-181 as_list (and as_2d, 183-189) *)
Definition as_list {A} (r : stregion A) : res (list (list A)) :=
  items <- t_items r ;; Ok (map snd items).

(** spta/util/arrays.py:20-37 copy_value_as_matrix_elements (the namedtuple branch builds the same
    array of repeated values).  np.repeat of a 1-element or scalar value; a value that is itself a
    sequence is not supported. *)
Definition copy_value_as_matrix_elements {A} (value : A) (m n : nat) : res (arr2 A) :=
  reshape2 (repeat value (m * n)) m n.

(** spta/util/arrays.py:6-17 copy_array_as_matrix_elements: np.repeat(array, m*n).reshape(len, m, n) *)
Definition copy_array_as_matrix_elements {A} (array : list A) (m n : nat) : res (arr3 A) :=
  reshape3 (flat_map (fun v => repeat v (m * n)) array) (length array) m n.

(** spatial.py:177-184 repeat_value *)
Definition repeat_value {A} (r : sregion A) (value : A) : res (sregion A) :=
  d <- copy_value_as_matrix_elements value (s_x r) (s_y r) ;;
  Ok (s_new_spatial r d).

(** spatial.py:186-193 repeat_point *)
Definition s_repeat_point {A} (r : sregion A) (pt : point) : res (sregion A) :=
  v <- value_at r pt ;; repeat_value r v.

(** temporal.py:83-90 repeat_series *)
Definition repeat_series {A} (r : stregion A) (series : list A) : res (stregion A) :=
  d <- copy_array_as_matrix_elements series (t_x r) (t_y r) ;;
  Ok (t_new_st r d).

(** temporal.py:92-99 repeat_point on a SpatioTemporalRegion.  On decorators the method resolution
    order (SpatialDecorator -> SpatialRegion before SpatioTemporalRegion, temporal.py:218, 290) picks
    spatial.py:186-193, which calls value_at: a spatio-temporal cluster checks membership
    (spatial.py:353-364) and then, like a scaled region, asks the decorated region for value_at,
    which a plain SpatioTemporalRegion does not have: AttributeError. *)
Fixpoint t_value_at {A} (r : stregion A) (pt : point) : res A :=
  match r with
  | TPlain _ => Raise AttributeError
  | TCluster r' p c =>
      b <- is_member p pt c ;;
      if b then t_value_at r' pt else Raise ValueError
  | TScaled r' _ _ => t_value_at r' pt
  end.
Definition t_repeat_point {A} (r : stregion A) (pt : point) : res (stregion A) :=
  match r with
  | TPlain d => s <- series_at r pt ;; repeat_series r s
  | _ => _ <- t_value_at r pt ;; Raise AttributeError   (* t_value_at always raises: the rest is unreachable *)
  end.

(** temporal.py:206-215 repeat_series_over_region *)
Definition repeat_series_over_region {A} (series : list A) (x_len y_len : nat) : res (stregion A) :=
  d <- copy_array_as_matrix_elements series x_len y_len ;; Ok (TPlain d).

(** spta/util/arrays.py:40-49 spatio_temporal_to_list_of_time_series *)
Definition spatio_temporal_to_list_of_time_series {A} (d : arr3 A) : res (list (list A)) :=
  mapM (fun '(x, y) => series3 d x y)
       (flat_map (fun x => map (fun y => (x, y)) (zrange 0 (Z.of_nat (a3y d)))) (zrange 0 (Z.of_nat (a3x d)))).

(** spatial.py:195-201 create_from_1d *)
Definition create_from_1d {A} (l : list A) (x y : nat) : res (sregion A) :=
  d <- reshape2 l x y ;; Ok (SPlain d).

(** spatial.py:119-125 as_array *)
Definition as_array {A} (r : sregion A) : list A := a2d (s_data r).

(* ------------------------------------------------------------------ subsets *)

(** spatial.py:127-132 SpatialRegion.region_subset; 346-351 SpatialCluster: NotImplementedError *)
Definition s_region_subset {A} (r : sregion A) (g : rect) : res (sregion A) :=
  match r with
  | SPlain d => Ok (SPlain (slice2 d (x1 g) (x2 g) (y1 g) (y2 g)))
  | SCluster _ _ _ => Raise NotImplementedError
  end.

(** temporal.py:60-65 SpatioTemporalRegion.region_subset; 336-338 cluster: NotImplementedError;
    scaling.py:134-151 SpatioTemporalScaled.region_subset (via temporal.py:234-235 the decorated
    region is asked for the subset) *)
Fixpoint t_region_subset {A} (r : stregion A) (g : rect) : res (stregion A) :=
  match r with
  | TPlain d => Ok (TPlain (slice3 d None (Some (x1 g, x2 g)) (Some (y1 g, y2 g))))
  | TCluster _ _ _ => Raise NotImplementedError
  | TScaled r' mn mx =>
      sub <- t_region_subset r' g ;;
      mn' <- s_region_subset mn g ;;
      mx' <- s_region_subset mx g ;;
      Ok (TScaled sub mn' mx')
  end.

(** temporal.py:67-72 interval_subset (also used by SpatioTemporalScaled, whose MRO reaches it);
    340-355 SpatioTemporalCluster.interval_subset *)
Fixpoint interval_subset {A} (r : stregion A) (ti : interval) : stregion A :=
  match r with
  | TPlain d => TPlain (slice3 d (Some (t1 ti, t2 ti)) None None)
  | TScaled _ _ _ => t_new_st r (slice3 (t_data r) (Some (t1 ti, t2 ti)) None None)
  | TCluster r' _ _ => t_new_st r (t_data (interval_subset r' ti))
  end.

(** temporal.py:74-81 subset (inherited by all decorators) *)
Definition subset {A} (r : stregion A) (g : rect) (ti : interval) : stregion A :=
  t_new_st r (slice3 (t_data r) (Some (t1 ti, t2 ti)) (Some (x1 g, x2 g)) (Some (y1 g, y2 g))).

(* ------------------------------------------------------------------ function regions *)

(** spta/region/function.py: a function region: its 2-d shape and the function at each point
    (function_at, l.23-34; subclasses override it).  Functions may raise. *)
Record fregion (A B : Type) : Type := FRegion { f_x : nat; f_y : nat; f_at : point -> res (A -> res B) }.
Arguments FRegion {A B} f_x f_y f_at.
Arguments f_x {A B} f.
Arguments f_y {A B} f.
Arguments f_at {A B} f.

(** function.py:69-82, 113-126 FunctionRegionScalarSame / FunctionRegionSeriesSame: the same function in
    every cell of an (x_len, y_len) array *)
Definition fregion_same {A B} (f : A -> res B) (x_len y_len : nat) : fregion A B :=
  FRegion x_len y_len (fun pt => get2 (full2 x_len y_len f) (fst pt) (snd pt)).

(** function.py:9-34 a function region given by an array of functions *)
Definition fregion_of_array {A B} (fs : arr2 (A -> res B)) : fregion A B :=
  FRegion (a2x fs) (a2y fs) (fun pt => get2 fs (fst pt) (snd pt)).

(** the loop body of spatial.py:53-61 *)
Definition apply_scalar_step {A B} (f : fregion A B) (out : arr2 B) (item : point * A) : res (arr2 B) :=
  let '(pt, value) := item in
  fn <- f_at f pt ;;
  v <- fn value ;;
  set2 out (fst pt) (snd pt) v.

(** spatial.py:32-65 apply_function_scalar on a spatial region ([zero] is the 0 of the result dtype) *)
Definition s_apply_scalar {A B} (zero : B) (f : fregion A B) (r : sregion A) : res (sregion B) :=
  _ <- py_assert (s_x r =? f_x f)%nat ;;
  _ <- py_assert (s_y r =? f_y f)%nat ;;
  items <- s_items r ;;
  out <- foldM (apply_scalar_step f) items (full2 (s_x r) (s_y r) zero) ;;
  Ok (s_new_spatial r out).

(** the same method on a spatio-temporal region *)
Definition t_apply_scalar {A B} (zero : B) (f : fregion (list A) B) (r : stregion A) : res (sregion B) :=
  _ <- py_assert (t_x r =? f_x f)%nat ;;
  _ <- py_assert (t_y r =? f_y f)%nat ;;
  items <- t_items r ;;
  out <- foldM (apply_scalar_step f) items (full2 (t_x r) (t_y r) zero) ;;
  Ok (t_new_spatial r out).

(** the loop body of spatial.py:85-91 *)
Definition apply_series_step {A B} (f : fregion A (list B)) (out : arr3 B) (item : point * A) : res (arr3 B) :=
  let '(pt, value) := item in
  fn <- f_at f pt ;;
  s <- fn value ;;
  setseries3 out (fst pt) (snd pt) s.

(** spatial.py:67-95 apply_function_series on a spatial region *)
Definition s_apply_series {A B} (zero : B) (f : fregion A (list B)) (r : sregion A) (output_len : nat)
  : res (stregion B) :=
  _ <- py_assert (s_x r =? f_x f)%nat ;;
  _ <- py_assert (s_y r =? f_y f)%nat ;;
  items <- s_items r ;;
  out <- foldM (apply_series_step f) items (full3 output_len (s_x r) (s_y r) zero) ;;
  Ok (s_new_st r out).

(** the same method on a spatio-temporal region *)
Definition t_apply_series {A} (zero : A) (f : fregion (list A) (list A)) (r : stregion A) (output_len : nat)
  : res (stregion A) :=
  _ <- py_assert (t_x r =? f_x f)%nat ;;
  _ <- py_assert (t_y r =? f_y f)%nat ;;
  items <- t_items r ;;
  out <- foldM (apply_series_step f) items (full3 output_len (t_x r) (t_y r) zero) ;;
  Ok (t_new_st r out).

(* ------------------------------------------------------------------ partition methods *)

(** partition.py:290-331 merge_clusters_2d.  The list holds cluster objects (region, cluster_index);
    [sorted(...)] at l.305 discards its result.  A cluster is given as a region with its index;
    [zero] stands for the uninitialised content of np.empty (l.319; every cell is overwritten).
    spatial_clusters[0] (l.318) exists if k >= 1; for k <= 0 it raises IndexError. *)
Definition cluster_index_of {A} (r : sregion A) : res Z :=
  match r with SCluster _ _ c => Ok c | SPlain _ => Raise AttributeError end.

Definition merge_clusters_2d {A} (zero : A) (p : crisp) (clusters : list (sregion A)) : res (sregion A) :=
  _ <- mapM (fun c => _ <- py_assert (s_x c =? a2x (labels p))%nat ;;
                      py_assert (s_y c =? a2y (labels p))%nat) clusters ;;
  indices <- mapM cluster_index_of clusters ;;
  _ <- (if list_eq_dec Z.eq_dec indices (zrange 0 (pk p)) then Ok tt else Raise ValueError) ;;
  _ <- getitem clusters 0 ;;
  points <- snd (base_for (a2x (labels p)) (a2y (labels p)) 0) ;;
  merged <- foldM (fun m pt =>
                     l <- get2 (labels p) (fst pt) (snd pt) ;;
                     c <- getitem clusters l ;;
                     v <- value_at c pt ;;
                     set2 m (fst pt) (snd pt) v)
                  points (full2 (a2x (labels p)) (a2y (labels p)) zero) ;;
  Ok (SPlain merged).

(** partition.py:333-350 merge_with_representatives_2d *)
Definition merge_with_representatives_2d {A} (zero : A) (p : crisp) (clusters : list (sregion A))
           (representatives : list point) : res (sregion A) :=
  _ <- py_assert (length clusters =? length representatives)%nat ;;
  repeated <- mapM (fun '(i, cluster) =>
                      rep <- getitem representatives (Z.of_nat i) ;; s_repeat_point cluster rep)
                   (enumerate clusters) ;;
  merge_clusters_2d zero p repeated.

(** partition.py:352-369 find_indices_of_clusters_intersecting_with; [list(set(...))] removes
    duplicates, its order is unspecified (here: [nodup]) *)
Definition find_indices_of_clusters_intersecting_with (p : crisp) (g : rect) : res (list Z) :=
  let indices := flat_map (fun x => map (fun y => (x * Z.of_nat (a2y (labels p)) + y)%Z) (zrange (y1 g) (y2 g)))
                          (zrange (x1 g) (x2 g)) in
  memberships <- membership_of_point_indices p indices ;;
  Ok (nodup Z.eq_dec memberships).

(** partition.py:371-384 find_medoids_of_clusters_intersecting_with; [None] = no medoids attribute *)
Definition find_medoids_of_clusters_intersecting_with {M} (p : crisp) (medoids : option (list M)) (g : rect)
  : res (list M) :=
  match medoids with
  | None => Raise ValueError
  | Some ms =>
      indices <- find_indices_of_clusters_intersecting_with p g ;;
      mapM (getitem ms) indices
  end.

(** [n] complete [for] loops over the same region object, one after the other *)
Fixpoint successive_loops (x_len y_len n idx : nat) : nat * list (res (list point)) :=
  match n with
  | O => (idx, [])
  | S n' =>
      let '(idx', items) := base_for x_len y_len idx in
      let '(idx'', rest) := successive_loops x_len y_len n' idx' in
      (idx'', items :: rest)
  end.
