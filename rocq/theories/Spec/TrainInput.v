(** What a choice of a medoid is, histories of choices, and drawing without replacement. *)
From Coq Require Import String Permutation.
From Verif Require Import Base.Py Base.Float Model.Region Model.TrainInput.
Local Notation length := List.length.

(** the medoid [i] of clustering [r] may still be chosen *)
Definition available (threshold : Z) (h : hist) (r : string) (i : nat) : Prop :=
  threshold = 0%Z \/ (hist_get h (r, Z.of_nat i) < threshold)%Z.

(** every clustering of the suite has medoids, and one penalty for each of them, missing or not below every number *)
Definition penalties_fit (penalties : string -> list point -> point -> res (list fnum)) (sr : suite) (pt : point) : Prop :=
  forall r ms, In (r, ms) sr -> ms <> [] /\
    exists ps, penalties r ms pt = Ok ps /\ length ps = length ms /\ forall v, In v ps -> v <> NInf.

(** medoid [i] of the [n]-th clustering of the suite is [m], it is available, its penalty is [v], and no available medoid
    of its clustering has a missing penalty *)
Definition candidate (penalties : string -> list point -> point -> res (list fnum)) (sr : suite) (pt : point)
           (threshold : Z) (h : hist) (n i : nat) (r : string) (m : point) (v : fnum) : Prop :=
  exists ms ps, nth_error sr n = Some (r, ms) /\ nth_error ms i = Some m /\ penalties r ms pt = Ok ps /\ nth_error ps i = Some v /\
    available threshold h r i /\
    forall j w, nth_error ps j = Some w -> available threshold h r j -> is_nan w = false.

(** one position of the suite comes before another *)
Definition before (n i n' i' : nat) : Prop := n < n' \/ (n = n' /\ i < i').

(** a histogram that a threshold admits *)
Definition within (threshold : Z) (h : hist) : Prop := forall k, (0 <= hist_get h k <= threshold)%Z.

(** a sequence of choices with one threshold and one histogram *)
Record call := Call { c_suite : suite; c_point : point; c_penalties : string -> list point -> point -> res (list fnum) }.
Fixpoint choices (threshold : Z) (calls : list call) (h : hist) : list (res (string * Z * point)) * hist :=
  match calls with
  | [] => ([], h)
  | c :: cs =>
      let '(r, h') := choose_medoid (c_penalties c) (c_suite c) (c_point c) threshold h in
      let '(rs, h'') := choices threshold cs h' in (r :: rs, h'')
  end.
Definition succeeded {A} (r : res A) : bool := match r with Ok _ => true | Raise _ => false end.
Definition chose (k : string * Z) (r : res (string * Z * point)) : bool :=
  match r with Ok (c, i, _) => key_eqb (c, i) k | Raise _ => false end.
Definition count_if {A} (f : A -> bool) (l : list A) : nat := length (filter f l).
Definition hist_total (h : hist) : Z := fold_right (fun kv s => (snd kv + s)%Z) 0%Z h.
(** the number of medoids of a suite *)
Definition suite_size (sr : suite) : nat := length (flat_map snd sr).

(** np.random.choice(l, size=n, replace=False): n elements of l at different positions *)
Definition draws (choice : list Z -> Z -> res (list Z)) : Prop :=
  forall l n, ((0 <= n <= Z.of_nat (length l))%Z ->
                 exists r rest, choice l n = Ok r /\ Z.of_nat (length r) = n /\ Permutation (r ++ rest) l) /\
              (~ (0 <= n <= Z.of_nat (length l))%Z -> choice l n = Raise ValueError).
(** list(set): the elements in some order *)
Definition any_order {A} (f : list A -> list A) : Prop := forall l, Permutation (f l) l.
