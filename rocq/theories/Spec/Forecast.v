(** Vocabulary for forecasting, stated without the methods of the models. *)
From Coq Require Import Permutation.
From Verif Require Import Base.Py Base.Arr Base.Float.

(** NaN sorts after every number *)
Definition before_or_equal (a b : fnum) : Prop := is_nan b = true \/ fle a b = true.

(** what np.argpartition(values, kth) promises: an order of all positions in which nothing before place [kth] is
    greater, and nothing after it is smaller, than what stands there *)
Definition is_argpartition (values : list fnum) (kth : nat) (order : list nat) : Prop :=
  Permutation order (seq 0 (length values)) /\
  forall a b i j, a <= kth <= b -> nth_error order a = Some i -> nth_error order b = Some j ->
    before_or_equal (nth i values NaN) (nth j values NaN).

(** [sel] are [k] different positions, and no position left out has a smaller value than a selected one *)
Definition k_least (values : list fnum) (k : nat) (sel : list nat) : Prop :=
  NoDup sel /\ length sel = k /\ (forall i, In i sel -> i < length values) /\
  forall i j, In i sel -> ~ In j sel -> j < length values -> before_or_equal (nth i values NaN) (nth j values NaN).

(** the window of [len] samples starting at [i] *)
Definition window (series : list fnum) (len i : nat) : list fnum := firstn len (skipn i series).

Definition finite (l : list fnum) : Prop := forall v, In v l -> is_fin v = true.
(** every sample lies between [lo] and [hi] *)
Definition within (lo hi : fnum) (l : list fnum) : Prop := forall v, In v l -> fle lo v = true /\ fle v hi = true.

(** results equal as real numbers *)
Definition res_eqv (a b : res fnum) : Prop :=
  match a, b with Ok x, Ok y => feqv x y | Raise e, Raise e' => e = e' | _, _ => False end.

(** the affine map v -> a * v + b *)
Definition affine (a b : Q) (v : fnum) : fnum := fadd (fmul (Fin a) v) (Fin b).

(** what is assumed of the square root: a weakly increasing function on [0, inf] that keeps NaN *)
Definition sqrt_like (sqrt : fnum -> fnum) : Prop :=
  sqrt NaN = NaN /\
  (forall a b, fle (Fin 0) a = true -> fle a b = true -> fle (sqrt a) (sqrt b) = true) /\
  (forall a b, feqv a b -> feqv (sqrt a) (sqrt b)).
