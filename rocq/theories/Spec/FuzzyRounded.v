(** The memberships of fuzzy k-medoids, computed in floating point. *)
From Coq Require Import QArith Qabs.
From Verif Require Import Base.Py Base.Arr Base.Float Model.KMedoids Model.KMedoidsFuzzy Model.Rounded Spec.Medoids.

(** the power of the inverse distance of sample i to medoid j, as computed *)
Definition computed_power (rnd : Q -> fnum) (power : power_fn) (X : dataset) (D : distance) (m : Q) (ms : list Z) (i j : nat) : fnum :=
  power (rdiv rnd (Fin 1) (dist_j X D ms j i)) m.
(** their sum, computed from the first to the last *)
Definition computed_sum (rnd : Q -> fnum) (power : power_fn) (X : dataset) (D : distance) (m : Q) (ms : list Z) (i : nat) : fnum :=
  fold_left (radd rnd) (map (computed_power rnd power X D m ms i) (seq 0 (length ms))) (Fin 0).
(** all results up to 4 are finite *)
Definition small_finite (rnd : Q -> fnum) : Prop := forall q, (Qabs q <= 4)%Q -> is_fin (rnd q) = true.
(** a result that is finite is not changed by rounding it again *)
Definition rounds_once (rnd : Q -> fnum) : Prop := forall q r, rnd q = Fin r -> feqv (rnd r) (Fin r).
