(** What is left of a suite CSV when writing it stops early, in English terms. *)
From Verif Require Import Base.Py Base.Str Model.Region.
Local Open Scope string_scope.

(** one row of the table: the representation of a clustering, its cost as text, its medoids *)
Definition row := (string * string * list point)%type.
Definition row_key (w : row) : string := fst (fst w).
Definition row_cost (w : row) : string := snd (fst w).
Definition row_medoids (w : row) : list point := snd w.

(** representations and costs hold no line breaks *)
Definition one_line (s : string) : Prop := has_char cr s = false /\ has_char lf s = false.
Definition one_line_row (w : row) : Prop := one_line (row_key w) /\ one_line (row_cost w).

(** what a reader gets for the rows: each representation with its medoids *)
Definition entries (rows : list row) : list (string * list point) := map (fun w => (row_key w, row_medoids w)) rows.

(** [kept] is [rows] up to some row, with perhaps fewer of the last kept row's medoids: the first ones of it *)
Definition cut_rows (rows kept : list row) : Prop :=
  exists n, kept = firstn n rows \/
    exists w j, nth_error rows n = Some w /\ kept = (firstn n rows ++ [(row_key w, row_cost w, firstn j (row_medoids w))])%list.
