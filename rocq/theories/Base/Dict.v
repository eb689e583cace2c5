(** Python dicts: association lists in insertion order.  Assigning to an existing key (by [==]) keeps the old key
    and its position and replaces the value. *)
From Verif Require Import Base.Py.

Fixpoint dict_set {K V} (eqb : K -> K -> bool) (k : K) (v : V) (d : list (K * V)) : list (K * V) :=
  match d with
  | [] => [(k, v)]
  | (k', v') :: t => if eqb k' k then (k', v) :: t else (k', v') :: dict_set eqb k v t
  end.

(** [d[k]]; KeyError if absent *)
Fixpoint dict_get {K V} (eqb : K -> K -> bool) (k : K) (d : list (K * V)) : res V :=
  match d with
  | [] => Raise KeyError
  | (k', v) :: t => if eqb k' k then Ok v else dict_get eqb k t
  end.

(** [k in d] *)
Definition dict_in {K V} (eqb : K -> K -> bool) (k : K) (d : list (K * V)) : bool := existsb (fun kv => eqb (fst kv) k) d.
