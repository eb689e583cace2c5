(** Synthetic training entries, for C106 and C107. *)
From Coq Require Import QArith.
From Verif Require Import Base.Py Base.Float Model.Region.
Local Close Scope Q_scope.
Local Open Scope nat_scope.

(** random.choice picks one of the elements *)
Definition picks (rnd : nat -> nat -> nat) : Prop := forall call n, 0 < n -> rnd call n < n.

(** the point lies in the region of the given sides *)
Definition inside (x_len y_len : nat) (p : point) : Prop := (0 <= fst p < Z.of_nat x_len)%Z /\ (0 <= snd p < Z.of_nat y_len)%Z.

(** the line of an entry: a climbs for odd seeds and falls for even seeds, k - cluster_index times the weight *)
Definition line_slope (k seed cluster : Z) (weight : Q) : Q := (inject_Z (k - cluster) * (if Z.odd seed then weight else - weight))%Q.
