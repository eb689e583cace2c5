(** What a parallel computation over a matrix must give, independent of the model of the queue. *)
From Verif Require Import Base.Py Base.Arr Base.Float Model.Queue2D.

(** the matrix [a] has the value of [f] at (i, j) *)
Definition has_value (f : nat -> nat -> res fnum) (a : arr2 fnum) (i j : nat) : Prop :=
  exists v, f i j = Ok v /\ get2 a (Z.of_nat i) (Z.of_nat j) = Ok v.

(** the number of turns that a schedule gives to process [w] *)
Definition turns (w : nat) (sched : list event) : nat :=
  length (filter (fun e => match e with Step u => u =? w | Kill _ => false end) sched).
