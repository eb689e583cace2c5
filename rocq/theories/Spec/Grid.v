(** Specification vocabulary for grids, independent of the models. *)
From Verif Require Import Base.Py.

(** all points of an x-by-y grid in row-major order: (0,0), (0,1), ..., (1,0), ... *)
Definition grid (x y : nat) : list (Z * Z) :=
  flat_map (fun i => map (fun j => (Z.of_nat i, Z.of_nat j)) (seq 0 y)) (seq 0 x).

(** a point lies in an x-by-y grid *)
Definition in_grid (x y : nat) (p : Z * Z) : Prop :=
  (0 <= fst p < Z.of_nat x)%Z /\ (0 <= snd p < Z.of_nat y)%Z.
