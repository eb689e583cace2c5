(** What the histograms of distances show, stated without the model's histogram functions. *)
From Coq Require Import String Sorted.
From Verif Require Import Base.Py Base.Arr Base.Float Model.Region Model.Distance Model.Variance Spec.Grid Spec.Partition Spec.Distance.
Local Notation length := List.length.

(** the region covers a grid of x by y points *)
Fixpoint grid_of (r : stregion fnum) (x y : nat) : Prop :=
  match r with
  | TPlain d => wf3 d /\ a3x d = x /\ a3y d = y
  | TScaled r' _ _ => grid_of r' x y
  | TCluster r' p c => grid_of r' x y /\ valid_partition p x y
  end.

(** the point belongs to the region: any point, except in a cluster *)
Fixpoint inside (r : stregion fnum) (pt : point) : bool :=
  match r with
  | TPlain _ => true
  | TScaled r' _ _ => inside r' pt
  | TCluster _ p c => match get2 (labels p) (fst pt) (snd pt) with Ok l => (l =? c)%Z | Raise _ => false end
  end.
(** the points of the region, row by row *)
Definition members (r : stregion fnum) (x y : nat) : list point := filter (inside r) (grid x y).
(** the points of the grid that are not in the region *)
Definition outsiders (r : stregion fnum) (x y : nat) : list point := filter (fun pt => negb (inside r pt)) (grid x y).

(** the centroid the region answers: its own, or (a decorated region) the one of the region underneath *)
Definition answered_centroid (h : hregion) : option point :=
  match h_own h, h_region h with
  | Some c, _ => Some c
  | None, TPlain _ => None
  | None, _ => h_inherited h
  end.

(** [m] is the greatest value; NaN if there is a NaN *)
Definition greatest (l : list fnum) (m : fnum) : Prop :=
  In m l /\ ((exists v, In v l /\ is_nan v = true) -> m = NaN) /\
  ((forall v, In v l -> is_nan v = false) -> forall v, In v l -> fle v m = true).

(** [s] is the values of [l] from least to greatest *)
Definition in_order (l s : list fnum) : Prop := Permutation l s /\ StronglySorted (fun a b => fle a b = true) s.

(** the distances of the points [pts] to [c], taken from the matrix [M] of a grid with y columns *)
Definition distances_of (M : mat) (y : nat) (c : point) (pts : list point) (ds : list fnum) : Prop :=
  row_at M (index_of y c) (map (index_of y) pts) ds.

(** the distances of k different points outside the region *)
Definition outside_distances (M : mat) (x y : nat) (r : stregion fnum) (c : point) (k : nat) (ds : list fnum) : Prop :=
  exists pts, NoDup pts /\ length pts = k /\ (forall pt, In pt pts -> in_grid x y pt /\ inside r pt = false) /\
    distances_of M y c pts ds.

(** how many random points are shown when [n] are asked for: 0 asks for as many as the cluster has *)
Definition random_count (r : stregion fnum) (x y : nat) (n : Z) : nat :=
  Nat.min (if (n =? 0)%Z then length (members r x y) else Z.to_nat n) (length (outsiders r x y)).

(** what a panel shows *)
Definition shown_values (calls : list draw_call) : list (list fnum) :=
  flat_map (fun c => match c with DrawHist v _ => [v] | _ => [] end) calls.
Definition shown_limits (calls : list draw_call) : list fnum :=
  flat_map (fun c => match c with DrawXLim v => [v] | _ => [] end) calls.
Definition shown_texts (calls : list draw_call) : list (list (string * Results.field)) :=
  flat_map (fun c => match c with DrawText l => [l] | _ => [] end) calls.

(** a limit of 0 is not set *)
Definition limit_calls (m : fnum) : list fnum := if feqb m (Fin 0) then [] else [m].
