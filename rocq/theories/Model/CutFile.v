(** The suite CSV as one text, so that it can be cut at any character. *)
From Verif Require Import Base.Py Base.Str Model.Region Model.Clustering.
Local Open Scope string_scope.

(** the text that csv.writer leaves in a file opened with newline='' (experiments/clustering/partition_analysis.py:
    110-114, 127-132): every line is followed by the default lineterminator, a carriage return and a line feed *)
Fixpoint file_text (lines : list string) : string :=
  match lines with [] => "" | l :: ls => l ++ String cr (String lf (file_text ls)) end.

(** iterating a file opened with newline='' (clustering/suite.py:128-135), without the terminators, which csv.reader
    drops: a line ends at a line feed, at a carriage return, or at both; what follows the last one is a line too
    unless it is empty.  A quoted field that the end of the file leaves open is what csv.reader (not strict) returns
    as read so far, which is what [csv_read] does at the end of a line. *)
Fixpoint file_lines (text : string) : list string :=
  match text with
  | "" => []
  | String c r =>
      if (c =? lf)%char then "" :: file_lines r
      else if (c =? cr)%char then
        match r with
        | String d r' => if (d =? lf)%char then "" :: file_lines r' else "" :: file_lines r
        | "" => [""]
        end
      else match file_lines r with h :: t => String c h :: t | [] => [String c ""] end
  end.

(** clustering/suite.py:102-159 retrieve_suite_result_csv, on the text of the file *)
Definition retrieve_suite_text (text : option string) : res (list (string * list point)) :=
  retrieve_suite_result (option_map file_lines text).
