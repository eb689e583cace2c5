(** Python primitives shared by all models: exceptions as values, lists, ranges, slices.
    These mirror the documented behaviour of CPython built-ins, not code in /repo. *)
From Coq Require Export List ZArith QArith Bool Arith Lia Permutation.
Export ListNotations.
Open Scope nat_scope.

(** Exceptions the modelled code can raise (or receive from numpy / the OS). *)
Inductive exn : Type :=
| ValueError | TypeError | AssertionError | IndexError | KeyError
| ZeroDivisionError | AttributeError | NotImplementedError | IOError
| UnboundLocalError | NameError | StopIteration | OverflowError | LinAlgError | UnpicklingError
(** not a Python exception: the fuel of a modelled [while]/[for] loop ran out; theorems about
    loops show that it never occurs, or state explicitly that the loop does not end *)
| Diverges.

(** Result of a Python call: a value or an exception. *)
Inductive res (A : Type) : Type :=
| Ok (a : A)
| Raise (e : exn).
Arguments Ok {A} a.
Arguments Raise {A} e.

Definition bind {A B} (x : res A) (f : A -> res B) : res B :=
  match x with Ok a => f a | Raise e => Raise e end.

Declare Scope py_scope.
Notation "x <- e ;; f" := (bind e (fun x => f))
  (at level 61, e at next level, right associativity) : py_scope.
Notation "' p <- e ;; f" := (bind e (fun p => f))
  (at level 61, p pattern, e at next level, right associativity) : py_scope.
Open Scope py_scope.

(** [assert b] *)
Definition py_assert (b : bool) : res unit := if b then Ok tt else Raise AssertionError.

(** list comprehension [[f(x) for x in l]], exceptions propagate *)
Fixpoint mapM {A B} (f : A -> res B) (l : list A) : res (list B) :=
  match l with
  | [] => Ok []
  | x :: xs => y <- f x ;; ys <- mapM f xs ;; Ok (y :: ys)
  end.

(** for-loop threading a state, exceptions propagate *)
Fixpoint foldM {A S} (f : S -> A -> res S) (l : list A) (s : S) : res S :=
  match l with
  | [] => Ok s
  | x :: xs => s' <- f s x ;; foldM f xs s'
  end.

(** [range(0, n)] for a non-negative count *)
Definition nrange (n : nat) : list nat := seq 0 n.

(** [range(a, b)] on Python ints *)
Definition zrange (a b : Z) : list Z :=
  map (fun i => (a + Z.of_nat i)%Z) (seq 0 (Z.to_nat (b - a))).

(** [range(a, b, step)]; a zero step raises ValueError *)
Definition py_range (a b step : Z) : res (list Z) :=
  if (step =? 0)%Z then Raise ValueError
  else
    let count := if (0 <? step)%Z
                 then ((b - a + step - 1) / step)%Z
                 else ((a - b - step - 1) / (- step))%Z in
    Ok (map (fun i => (a + Z.of_nat i * step)%Z) (seq 0 (Z.to_nat count))).

(** Position designated by a Python index on a sequence of length [n]: negative
    indices count from the end; [None] is IndexError. *)
Definition norm_index (n : nat) (i : Z) : option nat :=
  if ((0 <=? i) && (i <? Z.of_nat n))%Z then Some (Z.to_nat i)
  else if ((- Z.of_nat n <=? i) && (i <? 0))%Z then Some (Z.to_nat (i + Z.of_nat n))
  else None.

(** [l[i]] *)
Definition getitem {A} (l : list A) (i : Z) : res A :=
  match norm_index (length l) i with
  | Some n => match nth_error l n with Some x => Ok x | None => Raise IndexError end
  | None => Raise IndexError
  end.

(** Replace position [n] (no effect out of range). *)
Fixpoint replace_nth {A} (l : list A) (n : nat) (x : A) : list A :=
  match l, n with
  | [], _ => []
  | _ :: ys, O => x :: ys
  | y :: ys, S m => y :: replace_nth ys m x
  end.

(** [l[i] = x] *)
Definition setitem {A} (l : list A) (i : Z) (x : A) : res (list A) :=
  match norm_index (length l) i with
  | Some n => Ok (replace_nth l n x)
  | None => Raise IndexError
  end.

(** Clamping of a slice bound on a sequence of length [n] (step 1). *)
Definition slice_bound (n : nat) (i : Z) : nat :=
  let m := Z.of_nat n in
  if (i <? 0)%Z then Z.to_nat (Z.max 0 (i + m)) else Z.to_nat (Z.min i m).

(** [l[a:b]] *)
Definition py_slice {A} (a b : Z) (l : list A) : list A :=
  let a' := slice_bound (length l) a in
  let b' := slice_bound (length l) b in
  firstn (b' - a') (skipn a' l).

(** [l[a:]] *)
Definition py_slice_from {A} (a : Z) (l : list A) : list A :=
  skipn (slice_bound (length l) a) l.

(** [enumerate(l)] *)
Definition enumerate {A} (l : list A) : list (nat * A) := combine (seq 0 (length l)) l.
