(** The Gregorian calendar. *)
From Verif Require Import Base.Py.
Local Open Scope Z_scope.

(** a year is leap when divisible by 4, except centuries not divisible by 400 *)
Definition leap (y : Z) : bool :=
  (y mod 4 =? 0) && (negb (y mod 100 =? 0) || (y mod 400 =? 0)).
Definition days_in_year (y : Z) : Z := if leap y then 366 else 365.
(** total days of [n] years from year [a] on *)
Fixpoint days_in_years (a : Z) (n : nat) : Z :=
  match n with O => 0 | S n' => days_in_year a + days_in_years (a + 1) n' end.
