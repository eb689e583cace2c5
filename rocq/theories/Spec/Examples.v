(** What the examples of the k-medoids package make, in words of its own. *)
From Coq Require Import QArith.
From Verif Require Import Base.Py Base.Arr Base.Float Spec.Grid.
Local Close Scope Q_scope.
Local Open Scope nat_scope.

(** [series] has [len] values: a function over all but [padding] of them, shifted by [delay], zero elsewhere, each with noise of standard
    deviation 0.02.  The padding is 15% of the length, rounded down, and not more than 30. *)
Definition noisy_copy (noise : nat -> fnum -> fnum -> fnum) (f : nat -> nat -> fnum) (len : nat) (series : list fnum) : Prop :=
  length series = len /\
  exists delay padding, delay < padding /\ padding <= 30 /\ 100 * padding <= 15 * len /\ (padding = 30 \/ 15 * len < 100 * (padding + 1)) /\
    forall j, j < len ->
      nth_error series j = Some (noise j (if (delay <=? j) && (j <? delay + (len - padding)) then f (j - delay) (len - padding) else Fin 0) (Fin (1 # 50))).

(** how many points of a mask have a value *)
Definition points_with (x y : nat) (mask : arr2 fnum) (v : nat) : nat :=
  length (filter (fun pt => match get2 mask (fst pt) (snd pt) with Ok u => feqb u (fof_nat v) | Raise _ => false end) (grid x y)).
