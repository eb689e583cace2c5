(** Binary floating-point numbers of IEEE 754 with rounding to nearest, ties to even, gradual underflow and overflow to
    infinity.  Signed zeros are one zero. *)
From Coq Require Import QArith Qabs Qround.
From Verif Require Import Base.Py Base.Float.
Local Open Scope Z_scope.

(** the integer nearest to a number, the even one of two *)
Definition nearest_even (x : Q) : Z :=
  let f := Qfloor x in
  match Qcompare (x - inject_Z f) (1 # 2) with
  | Lt => f
  | Gt => f + 1
  | Eq => if Z.even f then f else f + 1
  end.

(** numbers with [p] binary digits that are multiples of 2^-k and less than 2^emax *)
Definition is_float (p k emax : Z) (q : Q) : Prop :=
  exists m e, Z.abs m < 2 ^ p /\ 0 <= e /\ Z.abs m * 2 ^ e < 2 ^ (emax + k) /\ (q == inject_Z (m * 2 ^ e) / inject_Z (2 ^ k))%Q.

(** the magnitude of the float nearest to [q], in multiples of 2^-k: the last [s] digits beyond the first [p] are rounded *)
Definition nearest_float (p k : Z) (q : Q) : Z :=
  let a := (Qabs q * inject_Z (2 ^ k))%Q in
  let s := Z.max 0 (Z.log2 (Qfloor a) + 1 - p) in
  nearest_even (a / inject_Z (2 ^ s)) * 2 ^ s.
Definition float_round (p k emax : Z) (q : Q) : fnum :=
  let m := nearest_float p k q in
  if 2 ^ (emax + k) <=? m then (if Qle_bool 0 q then PInf else NInf)
  else Fin (if Qle_bool 0 q then inject_Z m / inject_Z (2 ^ k) else - (inject_Z m / inject_Z (2 ^ k)))%Q.

(** double precision *)
Definition is_double : Q -> Prop := is_float 53 1074 1024.
Definition double : Q -> fnum := float_round 53 1074 1024.
