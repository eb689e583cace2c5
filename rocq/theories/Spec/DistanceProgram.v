(** Vocabulary for the program that computes distances. *)
From Coq Require Import String.
From Verif Require Import Base.Py Base.Arr Base.Str Base.Float Model.Region Model.Pool Model.Distance Model.Dataset Model.DistanceProgram Spec.Grid.
Local Open Scope string_scope.

(** the option --parallel, and the number of worker processes that it asks for; 0 is the main process alone *)
Inductive asks_for : option string -> Z -> Prop :=
| no_option : asks_for None 0
| workers n : (0 <= n)%Z -> asks_for (Some (str_int n)) n.

(** [p] comes before [q] when the points are read row by row *)
Definition row_before (p q : point) : Prop := (fst p < fst q \/ fst p = fst q /\ snd p < snd q)%Z.

(** [dist p q] is the distance of the series of the dataset [d] at two points.  One process measures every pair in both
    orders; worker processes measure each pair once, the later point first, and put 0 on the diagonal. *)
Definition distances_by (measure : list fnum -> list fnum -> fnum) (n : Z) (d : arr3 fnum) (dist : point -> point -> fnum) : Prop :=
  forall p q a b, in_grid (a3x d) (a3y d) p -> in_grid (a3x d) (a3y d) q ->
    series3 d (fst p) (snd p) = Ok a -> series3 d (fst q) (snd q) = Ok b ->
    (n = 0%Z -> dist p q = measure a b) /\
    ((0 < n)%Z -> (p = q -> feqv (dist p q) (Fin 0)) /\
                  (row_before q p -> feqv (dist p q) (measure a b)) /\
                  (row_before p q -> feqv (dist p q) (measure b a))).

(** runs of the program one after the other: region, --parallel, --plots; a run that fails is followed by the next one *)
Definition run := (string * option string * bool)%type.
Definition run_all (color : Type) measure junk garbage pool (w : dworld) (runs : list run) : dworld :=
  fold_left (fun w '(region, parallel, plots) => fst (@calculate_distances color measure junk garbage pool w region parallel plots)) runs w.

(** the pool with [n] worker processes has finished its work on the region after some schedule *)
Definition finished (measure : list fnum -> list fnum -> fnum) (pool : nat -> stregion fnum -> pstate nat) (n : Z) (spt : stregion fnum) : Prop :=
  (0 < n)%Z -> inter_points_steps measure spt (inter_points_start (Z.to_nat n) spt) (pool (Z.to_nat n) spt) /\ pool_done (pool (Z.to_nat n) spt).
