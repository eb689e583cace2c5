(** Python / numpy floats.  Finite arithmetic is exact (rationals); NaN and infinities behave
    as in IEEE 754; signed zeros, rounding and overflow are not represented. *)
From Coq Require Import Qabs.
From Verif Require Import Base.Py.
Local Open Scope Q_scope.

Inductive fnum : Type := NaN | NInf | PInf | Fin (q : Q).

Definition Qltb (a b : Q) : bool := negb (Qle_bool b a).

(** [a < b] *)
Definition flt (a b : fnum) : bool :=
  match a, b with
  | NaN, _ | _, NaN => false
  | NInf, NInf => false
  | NInf, _ => true
  | _, NInf => false
  | PInf, _ => false
  | Fin _, PInf => true
  | Fin x, Fin y => Qltb x y
  end.

(** [a == b] *)
Definition feqb (a b : fnum) : bool :=
  match a, b with
  | NInf, NInf | PInf, PInf => true
  | Fin x, Fin y => Qeq_bool x y
  | _, _ => false
  end.

(** [a <= b] *)
Definition fle (a b : fnum) : bool := flt a b || feqb a b.

Definition is_nan (a : fnum) : bool := match a with NaN => true | _ => false end.
Definition is_inf (a : fnum) : bool := match a with PInf | NInf => true | _ => false end.
Definition is_fin (a : fnum) : bool := match a with Fin _ => true | _ => false end.

Definition fopp (a : fnum) : fnum :=
  match a with NaN => NaN | NInf => PInf | PInf => NInf | Fin x => Fin (- x) end.

Definition fabs (a : fnum) : fnum :=
  match a with NaN => NaN | NInf => PInf | PInf => PInf | Fin x => Fin (Qabs x) end.

Definition fadd (a b : fnum) : fnum :=
  match a, b with
  | NaN, _ | _, NaN => NaN
  | PInf, NInf | NInf, PInf => NaN
  | PInf, _ | _, PInf => PInf
  | NInf, _ | _, NInf => NInf
  | Fin x, Fin y => Fin (x + y)
  end.

Definition fsub (a b : fnum) : fnum := fadd a (fopp b).

(** sign of a rational as an infinity factor: Lt, Eq, Gt *)
Definition Qsgn (x : Q) : comparison := (Qnum x ?= 0)%Z.

Definition inf_times (neg : bool) (c : comparison) : fnum :=
  match c with
  | Eq => NaN
  | Gt => if neg then NInf else PInf
  | Lt => if neg then PInf else NInf
  end.

Definition fmul (a b : fnum) : fnum :=
  match a, b with
  | NaN, _ | _, NaN => NaN
  | PInf, PInf | NInf, NInf => PInf
  | PInf, NInf | NInf, PInf => NInf
  | PInf, Fin y => inf_times false (Qsgn y)
  | NInf, Fin y => inf_times true (Qsgn y)
  | Fin x, PInf => inf_times false (Qsgn x)
  | Fin x, NInf => inf_times true (Qsgn x)
  | Fin x, Fin y => Fin (x * y)
  end.

(** numpy division: x/0 is an infinity (zero taken as positive), 0/0 is NaN *)
Definition fdiv (a b : fnum) : fnum :=
  match a, b with
  | NaN, _ | _, NaN => NaN
  | Fin x, Fin y => if Qeq_bool y 0 then inf_times false (Qsgn x) else Fin (x / y)
  | Fin _, _ => Fin 0
  | PInf, Fin y => match Qsgn y with Lt => NInf | _ => PInf end
  | NInf, Fin y => match Qsgn y with Lt => PInf | _ => NInf end
  | _, _ => NaN
  end.

(** [np.sum] *)
Definition fsum (l : list fnum) : fnum := fold_left fadd l (Fin 0).

Definition fof_nat (n : nat) : fnum := Fin (inject_Z (Z.of_nat n)).

(** [np.mean]; the mean of an empty array is NaN (0/0) *)
Definition fmean (l : list fnum) : fnum := fdiv (fsum l) (fof_nat (length l)).

(** [np.nanmean] *)
Definition fnanmean (l : list fnum) : fnum := fmean (filter (fun x => negb (is_nan x)) l).

(** [np.nanmin] on a flattened array: NaN ignored; all NaN gives NaN (with a warning);
    an empty array raises ValueError. *)
Definition fmin2 (a b : fnum) : fnum := if flt b a then b else a.
Definition fmax2 (a b : fnum) : fnum := if flt a b then b else a.

Definition nanmin (l : list fnum) : res fnum :=
  match l with
  | [] => Raise ValueError
  | _ => match filter (fun x => negb (is_nan x)) l with
         | [] => Ok NaN
         | x :: xs => Ok (fold_left fmin2 xs x)
         end
  end.

Definition nanmax (l : list fnum) : res fnum :=
  match l with
  | [] => Raise ValueError
  | _ => match filter (fun x => negb (is_nan x)) l with
         | [] => Ok NaN
         | x :: xs => Ok (fold_left fmax2 xs x)
         end
  end.

(** numpy's [argmin]/[argmax] order: a NaN beats everything; the first best position wins. *)
Definition argmin_better (x best : fnum) : bool :=
  negb (is_nan best) && (is_nan x || flt x best).
Definition argmax_better (x best : fnum) : bool :=
  negb (is_nan best) && (is_nan x || flt best x).

Fixpoint arg_best_aux (better : fnum -> fnum -> bool) (l : list fnum)
         (i : nat) (bi : nat) (best : fnum) : nat :=
  match l with
  | [] => bi
  | x :: xs => if better x best then arg_best_aux better xs (S i) i x
               else arg_best_aux better xs (S i) bi best
  end.

(** [np.argmin(l)]; empty raises ValueError *)
Definition np_argmin (l : list fnum) : res nat :=
  match l with
  | [] => Raise ValueError
  | x :: xs => Ok (arg_best_aux argmin_better xs 1 0 x)
  end.
Definition np_argmax (l : list fnum) : res nat :=
  match l with
  | [] => Raise ValueError
  | x :: xs => Ok (arg_best_aux argmax_better xs 1 0 x)
  end.

(** Equality of float values up to the representation of the rational (NaN = NaN here,
    unlike [feqb]): used in specifications, not in models. *)
Definition feqv (a b : fnum) : Prop :=
  match a, b with
  | NaN, NaN | NInf, NInf | PInf, PInf => True
  | Fin x, Fin y => x == y
  | _, _ => False
  end.
