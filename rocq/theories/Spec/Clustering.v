(** Specification for clustering suites and the elbow. *)
From Coq Require Import QArith.
From Verif Require Import Base.Py.
Local Close Scope Q_scope.
Local Open Scope nat_scope.

(** the distinct elements of a list in the order of their first occurrence *)
Fixpoint distinct (l : list Z) : list Z :=
  match l with [] => [] | a :: t => a :: filter (fun b => negb (b =? a)%Z) (distinct t) end.

(** all pairs (k, seed), k varying slowest *)
Definition pairs (ks seeds : list Z) : list (Z * Z) := flat_map (fun k => map (fun s => (k, s)) seeds) ks.

(** every element of the list is smaller than all later ones *)
Fixpoint increasing (l : list Z) : Prop :=
  match l with [] => True | a :: t => (forall b, In b t -> (a < b)%Z) /\ increasing t end.
(** ... or equal *)
Fixpoint nondecreasing (l : list Z) : Prop :=
  match l with [] => True | a :: t => (forall b, In b t -> (a <= b)%Z) /\ nondecreasing t end.

(** The second derivative of the parabola through (x1,y1), (x2,y2), (x3,y3): twice the second divided difference. *)
Definition curvature (x1 x2 x3 y1 y2 y3 : Q) : Q := (2 * (((y3 - y2) / (x3 - x2) - (y2 - y1) / (x2 - x1)) / (x3 - x1)))%Q.

(** at position i of the points (ks[i], ys[i]) *)
Definition curvature_at (ks : list Z) (ys : list Q) (i : nat) : Q :=
  curvature (inject_Z (nth (i - 1) ks 0%Z)) (inject_Z (nth i ks 0%Z)) (inject_Z (nth (i + 1) ks 0%Z))
            (nth (i - 1) ys 0%Q) (nth i ys 0%Q) (nth (i + 1) ys 0%Q).

(** i is the first interior position of largest curvature *)
Definition elbow_index (ks : list Z) (ys : list Q) (i : nat) : Prop :=
  1 <= i /\ i + 1 < length ks /\
  (forall j, 1 <= j -> j + 1 < length ks -> (curvature_at ks ys j <= curvature_at ks ys i)%Q) /\
  (forall j, 1 <= j -> j < i -> (curvature_at ks ys j < curvature_at ks ys i)%Q).
