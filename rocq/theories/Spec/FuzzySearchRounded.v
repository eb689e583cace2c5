(** The memberships and costs of given medoids in floating point, and the exchanges that lower the computed total. *)
From Coq Require Import QArith.
From Verif Require Import Base.Py Base.Arr Base.Float Model.KMedoids Model.KMedoidsFuzzy Model.Rounded Spec.Medoids Spec.FuzzyRounded.

Section Computed.
Context (rnd : Q -> fnum) (sum : list fnum -> fnum) (power : power_fn) (X : dataset) (D : distance) (m : Q).
(** the membership of sample i in the cluster of medoid j *)
Definition computed_membership (ms : list Z) (i j : nat) : fnum :=
  if (i =? Z.to_nat (nth j ms 0%Z))%nat then Fin 1 else rdiv rnd (computed_power rnd power X D m ms i j) (computed_sum rnd power X D m ms i).
(** all memberships, a row for each sample *)
Definition computed_memberships (ms : list Z) : list (list fnum) :=
  map (fun i => map (computed_membership ms i) (seq 0 (length ms))) (seq 0 (length X)).
(** the cost of cluster j: distances weighted by memberships *)
Definition computed_cost (ms : list Z) (j : nat) : fnum :=
  sum (map (fun i => rmul rnd (computed_membership ms i j) (dist_j X D ms j i)) (seq 0 (length X))).
Definition computed_total (ms : list Z) : fnum := sum (map (computed_cost ms) (seq 0 (length ms))).
(** exchanging the medoid of cluster j for sample i lowers the computed total by a computed difference of more than tol *)
Definition rounded_swap (tol : fnum) (ms : list Z) (j i : nat) : Prop :=
  exists before old after, ms = before ++ old :: after /\ length before = j /\ (i < length X)%nat /\ ~ In (Z.of_nat i) ms /\
    flt tol (rsub rnd (computed_total ms) (computed_total (before ++ Z.of_nat i :: after))) = true.
(** the computed memberships of every sample add up to 1 within the tolerance *)
Definition sums_close (tol : fnum) (ms : list Z) : Prop :=
  forall i, (i < length X)%nat -> fle (fabs (rsub rnd (sum (map (computed_membership ms i) (seq 0 (length ms)))) (Fin 1))) tol = true.
End Computed.
