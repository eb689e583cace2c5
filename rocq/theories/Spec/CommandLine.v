(** What a command line says, stated without the parser. *)
From Coq Require Import String Ascii.
From Verif Require Import Base.Py Base.Str Model.CommandLine.
Local Open Scope string_scope.

(** a string that nobody takes for an option: it does not begin with a dash, or it is a number *)
Definition word (s : string) : Prop := (forall r, s <> String "-" r) \/ exists n : Z, s = str_int n.

(** a command line in pieces: a positional argument, an option without value, an option and its value, --option=value *)
Inductive piece := Positional (s : string) | Flag (name : string) | Named (name s : string) | Equals (name s : string).
Definition words_of (i : piece) : list string :=
  match i with Positional s => [s] | Flag n => [n] | Named n s => [n; s] | Equals n s => [n ++ "=" ++ s] end.
Definition words (l : list piece) : list string := flat_map words_of l.
(** the positional arguments in their order *)
Definition positionals (l : list piece) : list string := flat_map (fun i => match i with Positional s => [s] | _ => [] end) l.
(** what the line says last about an option *)
Definition about (name : string) (i : piece) : option (option string) :=
  match i with
  | Positional _ => None
  | Flag n => if (n =? name)%string then Some None else None
  | Named n s | Equals n s => if (n =? name)%string then Some (Some s) else None
  end.
Fixpoint given (name : string) (l : list piece) : option (option string) :=
  match l with [] => None | i :: r => match given name r with Some g => Some g | None => about name i end end.

(** the value that a string means for an argument of a type or with choices *)
Inductive means : reading -> string -> value -> Prop :=
| means_string s : means AString s (VStr s)
| means_int s n : py_int s = Ok n -> means AInt s (VInt n)
| means_choice l s : In s l -> means (AChoice l) s (VStr s).

(** a piece is right for a parser *)
Definition right (p : parser) (i : piece) : Prop :=
  match i with
  | Positional s => word s
  | Flag n => exists o, In o (p_options p) /\ o_name o = n /\ o_action o = StoreTrue
  | Named n s => word s /\ exists o t v, In o (p_options p) /\ o_name o = n /\ o_action o = Store t /\ means t s v
  | Equals n s => exists o t v, In o (p_options p) /\ o_name o = n /\ o_action o = Store t /\ means t s v
  end.

(** the names of a parser: a dash or two and a letter, no '=', no name twice *)
Definition option_name (s : string) : Prop :=
  exists c r, ((("a" <=? c) && (c <=? "z"))%char = true) /\ (s = String "-" (String c r) \/ s = String "-" (String "-" (String c r))) /\ has_char "=" r = false.
Definition sensible (p : parser) : Prop :=
  (forall o, In o (p_options p) -> option_name (o_name o)) /\ NoDup (map o_name (all_options p)) /\
  NoDup (map o_dest (p_options p) ++ map p_dest (p_positionals p))%list /\ (forall o, In o (p_options p) -> o_action o <> Help).
