(** spta/util/maths.py: divisors. *)
From Verif Require Import Base.Py.
Local Open Scope Z_scope.

(** adding to a Python set kept as a list without repetitions *)
Definition set_add (x : Z) (s : list Z) : list Z := if in_dec Z.eq_dec x s then s else x :: s.

(** [sorted(...)] of a set of ints *)
Fixpoint insert_sorted (x : Z) (l : list Z) : list Z :=
  match l with
  | [] => [x]
  | y :: ys => if x <=? y then x :: l else y :: insert_sorted x ys
  end.
Definition sorted_ints (l : list Z) : list Z := fold_right insert_sorted [] l.

(** maths.py:6-14 divisors.  [math.sqrt] of a negative number raises ValueError; [int(sqrt(n))] is the
    integer square root (CPython goes through a float: exact for n < 2^52). *)
Definition divisors (n : Z) : res (list Z) :=
  if n <? 0 then Raise ValueError
  else
    Ok (sorted_ints
          (fold_left (fun divs i => if n mod i =? 0 then set_add (n / i) (set_add i divs) else divs)
                     (zrange 2 (Z.sqrt n + 1)) (set_add n [1]))).

(** maths.py:32-37 the loop over the divisors with its [break]; the value of (quotient, div) after the
    loop.  [quotient = n / div] is a float division: exact since div divides n (below 2^53). *)
Fixpoint balanced_loop (n : Z) (divs : list Z) (last : option (Z * Z)) : res (Z * Z) :=
  match divs with
  | [] => match last with Some r => Ok r | None => Raise UnboundLocalError end
  | div :: rest =>
      if div =? 0 then Raise ZeroDivisionError
      else
        let quotient := n / div in
        if quotient <=? div then Ok (quotient, div)
        else balanced_loop n rest (Some (quotient, div))
  end.

(** maths.py:17-37 find_two_balanced_divisors (a list of two ints) *)
Definition find_two_balanced_divisors (n : Z) : res (Z * Z) :=
  divs <- divisors n ;;
  match divs with
  | [a; b] => Ok (a, b)
  | _ => balanced_loop n divs None
  end.

(** maths.py:40-52 two_balanced_divisors_order_x_y *)
Definition two_balanced_divisors_order_x_y (n x_len y_len : Z) : res (Z * Z) :=
  d <- find_two_balanced_divisors n ;;
  if x_len <? y_len then Ok (fst d, snd d) else Ok (snd d, fst d).
