(** Warping paths and dynamic time warping, as usually defined. *)
From Coq Require Import QArith.
From Verif Require Import Base.Py Base.Arr Base.Float Base.FloatFacts.
Local Close Scope Q_scope.
Local Open Scope nat_scope.

(** monotone paths from (0, 0) to (i, j): every step advances one or both positions by one *)
Inductive path_to : nat -> nat -> list (nat * nat) -> Prop :=
| path_start : path_to 0 0 [(0, 0)]
| path_diag i j P : path_to i j P -> path_to (S i) (S j) (P ++ [(S i, S j)])
| path_left i j P : path_to i j P -> path_to i (S j) (P ++ [(i, S j)])
| path_top i j P : path_to i j P -> path_to (S i) j (P ++ [(S i, j)]).

(** a warping path between two series ends at their last samples *)
Definition warping_path (s t : list Q) (P : list (nat * nat)) : Prop :=
  exists a b, length s = S a /\ length t = S b /\ path_to a b P.

(** the sum of the squared differences along a path *)
Definition path_cost (s t : list Q) (P : list (nat * nat)) : Q :=
  qsum (map (fun '(i, j) => ((nth i s 0 - nth j t 0) * (nth i s 0 - nth j t 0))%Q) P).

(** a path of least cost *)
Definition cheapest (s t : list Q) (P : list (nat * nat)) : Prop :=
  warping_path s t P /\ forall P', warping_path s t P' -> (path_cost s t P <= path_cost s t P')%Q.

(** [v] is the squared DTW distance *)
Definition dtw2 (s t : list Q) (v : Q) : Prop := exists P, cheapest s t P /\ (path_cost s t P == v)%Q.

(** the total squared DTW distance from [c] to the series *)
Definition inertia (c : list Q) (series : list (list Q)) (v : Q) : Prop :=
  exists vs, Forall2 (dtw2 c) series vs /\ (qsum vs == v)%Q.

(** the samples that the paths align with position [i] of the center *)
Definition aligned (i : nat) (series : list (list Q)) (paths : list (list (nat * nat))) : list Q :=
  flat_map (fun '(s, P) => map (fun ij => nth (snd ij) s 0%Q) (filter (fun ij => fst ij =? i) P)) (combine series paths).

(** a scratch matrix of the given shape, with any content *)
Definition sized {A} (a : arr2 A) (X Y : nat) : Prop := wf2 a /\ a2x a = X /\ a2y a = Y.

(** series of finite floats *)
Definition fins (ss : list (list Q)) : list (list fnum) := map (map Fin) ss.

(** non-empty series that fit into scratch matrices with [Y] columns *)
Definition fits (Y : nat) (ss : list (list Q)) : Prop := forall s, In s ss -> 0 < length s <= Y.

(** [i] is the first of the candidate indices whose series has the least inertia *)
Definition first_least_inertia (ss : list (list Q)) (cands : list Z) (i : Z) : Prop :=
  exists before after, cands = before ++ i :: after /\
    (forall i' v v', In i' before -> inertia (nth (Z.to_nat i) ss []) ss v -> inertia (nth (Z.to_nat i') ss []) ss v' -> (v < v')%Q) /\
    (forall i' v v', In i' after -> inertia (nth (Z.to_nat i) ss []) ss v -> inertia (nth (Z.to_nat i') ss []) ss v' -> (v <= v')%Q).
