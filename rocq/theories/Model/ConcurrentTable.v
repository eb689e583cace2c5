(** The writes that one run of experiments/clustering/partition_analysis.py makes to the table of its suite, as the steps
    that other runs of it can come between. *)
From Verif Require Import Base.Py Base.Str Model.Region Model.Clustering Model.CutFile.
Local Open Scope string_scope.

(** partition_analysis.py:110-114: open(path, 'w'), the header, close; and l.127-132: open(path, 'a'), one row, close.
    A row is in the file when the file is closed, at once: it is shorter than the buffer and the file is open for
    appending.  Here the first [with] is one step too. *)
Inductive table_step := Create | Append (row : string * string * list point).
Definition table_header : string := csv_line ["clustering"; "total_cost"; "medoids"].
Definition table_line (row : string * string * list point) : string :=
  let '(r, cost, medoids) := row in csv_line [r; cost; fold_left (fun s pt => s ++ medoid_str pt) medoids ""].
Definition table_do (lines : list string) (s : table_step) : list string :=
  match s with Create => [table_header] | Append row => (lines ++ [table_line row])%list end.

(** partition_analysis.py:110-132: what one run does to the file, for the rows it computes *)
Definition table_run (rows : list (string * string * list point)) : list table_step := Create :: map Append rows.

(** partition_analysis.py:110-114 in two steps, on the text: open(path, 'w') empties the file; the header is written at
    its beginning, over whatever is there, when the file is closed *)
Inductive text_step := Truncate | Write_header | Append_row (row : string * string * list point).
Definition text_do (text : string) (s : text_step) : string :=
  match s with
  | Truncate => ""
  | Write_header => file_text [table_header] ++ str_from (slen (file_text [table_header])) text
  | Append_row row => text ++ file_text [table_line row]
  end.
Definition text_run (rows : list (string * string * list point)) : list text_step :=
  Truncate :: Write_header :: map Append_row rows.
