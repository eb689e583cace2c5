(** What a consistent clustering is when sums are formed by [sum], in floating point. *)
From Coq Require Import QArith Permutation.
From Verif Require Import Base.Py Base.Arr Base.Float Model.KMedoids Model.RoundedErrors Spec.Medoids.
Local Open Scope nat_scope.

(** every sample has its nearest medoid, each cluster costs the sum of the distances to its medoid, the total is the sum of these *)
Definition consistent_by (sum : list fnum -> fnum) (X : dataset) (D : distance) (ms : list Z) (c : cost) : Prop :=
  length (c_labels c) = length X /\
  (forall i, i < length X -> nearest_medoid X D ms i (nth i (c_labels c) (length ms))) /\
  c_costs c = map (fun j => sum (cluster_dists X D ms (c_labels c) j)) (seq 0 (length ms)) /\
  c_total c = sum (c_costs c) /\
  c_dist c = map (fun i => map (fun j => dist_j X D ms j i) (seq 0 (length ms))) (seq 0 (length X)).

(** the positions an order of additions takes, how many additions it makes, and how many of them one term goes through at most *)
Fixpoint positions (o : order) : list nat := match o with Nothing => [] | At i => [i] | Plus a b => positions a ++ positions b end.
Fixpoint additions (o : order) : nat := match o with Plus a b => S (additions a + additions b) | _ => 0 end.
Fixpoint height (o : order) : nat := match o with Plus a b => S (Nat.max (height a) (height b)) | _ => 0 end.
(** np.sum of at most [N] entries, one order per length: every entry is added once, with no more additions than entries, [h] deep
    at most *)
Definition summation (ord : nat -> order) (N h : nat) : Prop :=
  forall n, n <= N -> Permutation (positions (ord n)) (seq 0 n) /\ additions (ord n) <= n /\ height (ord n) <= h.
Definition sum_by (rnd : Q -> fnum) (ord : nat -> order) (l : list fnum) : fnum := sum_in rnd (ord (length l)) l.
(** powers of a number *)
Fixpoint qpow (x : Q) (n : nat) : Q := match n with O => 1%Q | S m => (x * qpow x m)%Q end.
