(** Python strings: str of an int, int of a str, split, join, slices, os.path.join, and the csv module with
    delimiter ' ', quotechar '|' and QUOTE_MINIMAL.  These mirror the documented behaviour of CPython, not code
    in /repo. *)
From Coq Require Export String Ascii.
From Coq Require Import DecimalString.
From Verif Require Import Base.Py.
Notation slen := String.length.
Local Open Scope string_scope.

(** [str(n)] = ['{}'.format(n)] *)
Definition str_int (n : Z) : string := NilZero.string_of_int (Z.to_int n).

(** [int(s)] on an optional '-' followed by digits.  CPython also accepts surrounding blanks, a '+' and
    underscores between digits; those strings are ValueError here. *)
Definition py_int (s : string) : res Z :=
  match NilZero.int_of_string s with Some d => Ok (Z.of_int d) | None => Raise ValueError end.

(** [s.split(c)] for a one-character separator *)
Fixpoint split (sep : ascii) (s : string) : list string :=
  match s with
  | "" => [""]
  | String c r =>
      if (c =? sep)%char then "" :: split sep r
      else match split sep r with h :: t => String c h :: t | [] => [String c ""] end
  end.

(** [sep.join(l)] *)
Fixpoint join (sep : string) (l : list string) : string :=
  match l with
  | [] => ""
  | [s] => s
  | s :: t => s ++ sep ++ join sep t
  end.

(** [s[n:]] for n >= 0 *)
Fixpoint str_from (n : nat) (s : string) : string :=
  match n, s with
  | O, _ => s
  | S n', String _ r => str_from n' r
  | S _, "" => ""
  end.

(** [s[1:-1]] *)
Definition str_inner (s : string) : string := substring 1 (slen s - 2) s.

Fixpoint ends_with_slash (s : string) : bool :=
  match s with "" => false | String c "" => (c =? "/")%char | String _ r => ends_with_slash r end.

(** [os.path.join(a, b)] *)
Definition path_join (a b : string) : string :=
  match b with
  | String c _ => if (c =? "/")%char then b else if (a =? "")%string || ends_with_slash a then a ++ b else a ++ "/" ++ b
  | "" => if (a =? "")%string || ends_with_slash a then a else a ++ "/"
  end.

Fixpoint has_char (c : ascii) (s : string) : bool :=
  match s with "" => false | String d r => (d =? c)%char || has_char c r end.

(* ---------- csv ---------- *)
Definition sp : ascii := " ".
Definition bar : ascii := "|".
Definition cr : ascii := "013".
Definition lf : ascii := "010".

(** a quotechar inside a quoted field is doubled *)
Fixpoint double_bars (s : string) : string :=
  match s with
  | "" => ""
  | String c r => if (c =? bar)%char then String bar (String bar (double_bars r)) else String c (double_bars r)
  end.
Definition needs_quotes (s : string) : bool := has_char sp s || has_char bar s || has_char cr s || has_char lf s.
Definition csv_field (s : string) : string := if needs_quotes s then String bar (double_bars s ++ String bar "") else s.

(** the line (without its terminator) written by writerow *)
Definition csv_line (fields : list string) : string :=
  match fields with
  | [""] => "||"
  | _ => join " " (map csv_field fields)
  end.

(** states of the reader; the field being read is accumulated in [acc], finished fields in [done] (reversed) *)
Inductive csv_state := StartField | InField | InQuoted | QuoteInQuoted.
Fixpoint csv_read (st : csv_state) (acc : string) (done : list string) (s : string) : list string :=
  match s with
  | "" => rev (acc :: done)
  | String c r =>
      let save := csv_read StartField "" (acc :: done) r in
      let add st' := csv_read st' (acc ++ String c "") done r in
      match st with
      | StartField => if (c =? bar)%char then csv_read InQuoted acc done r else if (c =? sp)%char then save else add InField
      | InField => if (c =? sp)%char then save else add InField
      | InQuoted => if (c =? bar)%char then csv_read QuoteInQuoted acc done r else add InQuoted
      | QuoteInQuoted => if (c =? bar)%char then add InQuoted else if (c =? sp)%char then save else add InField
      end
  end.
(** one row of csv.reader, for a line without line breaks inside quotes *)
Definition csv_parse (line : string) : list string :=
  match line with "" => [] | _ => csv_read StartField "" [] line end.
