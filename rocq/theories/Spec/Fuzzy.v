(** Fuzzy memberships (FCM) of samples in clusters given by medoids. *)
From Verif Require Import Base.Py Base.Arr Base.Float Model.KMedoids Model.KMedoidsFuzzy Spec.Medoids.
Local Open Scope Q_scope.

(** what is assumed of x |-> x^(1/(m-1)), m > 1, on the inverse distances *)
Definition power_contract (pw : fnum -> fnum) : Prop :=
  pw PInf = PInf /\
  (forall q, 0 < q -> exists p, pw (Fin q) = Fin p /\ 0 < p) /\
  (forall q q' p p', 0 < q -> q < q' -> pw (Fin q) = Fin p -> pw (Fin q') = Fin p' -> p < p').

(** two different samples are at a positive finite distance, a sample is at distance 0 from itself *)
Definition separated (X : dataset) (D : distance) : Prop :=
  forall a b, (a < length X)%nat -> (b < length X)%nat ->
    if (a =? b)%nat then feqb (sample_dist X D a b) (Fin 0) = true
    else exists q, sample_dist X D a b = Fin q /\ 0 < q.

(** weight of sample i in cluster j: the power of the inverse distance to medoid j *)
Definition fcm_weight (X : dataset) (D : distance) (pw : fnum -> fnum) (ms : list Z) (i j : nat) : fnum :=
  pw (fdiv (Fin 1) (dist_j X D ms j i)).

(** membership of sample i in cluster j: 1 in the cluster of which it is the medoid, otherwise its weight over
    the sum of its weights *)
Definition membership (X : dataset) (D : distance) (pw : fnum -> fnum) (ms : list Z) (i j : nat) : fnum :=
  if (i =? Z.to_nat (nth j ms 0%Z))%nat then Fin 1
  else fdiv (fcm_weight X D pw ms i j) (fsum (map (fcm_weight X D pw ms i) (seq 0 (length ms)))).

(** cost of cluster j: distances to its medoid weighted by the memberships; total cost: their sum *)
Definition fuzzy_cost (X : dataset) (D : distance) (pw : fnum -> fnum) (ms : list Z) (j : nat) : fnum :=
  fsum (map (fun i => fmul (membership X D pw ms i j) (dist_j X D ms j i)) (seq 0 (length X))).
Definition fuzzy_total (X : dataset) (D : distance) (pw : fnum -> fnum) (ms : list Z) : fnum :=
  fsum (map (fuzzy_cost X D pw ms) (seq 0 (length ms))).

(** the whole table *)
Definition memberships (X : dataset) (D : distance) (pw : fnum -> fnum) (ms : list Z) : list (list fnum) :=
  map (fun i => map (membership X D pw ms i) (seq 0 (length ms))) (seq 0 (length X)).

(** exchanging the medoid of cluster j for sample i lowers the total by more than tol *)
Definition improving_swap (X : dataset) (D : distance) (pw : fnum -> fnum) (tol : fnum) (ms : list Z) (j i : nat) : Prop :=
  exists before old after, ms = before ++ old :: after /\ length before = j /\ (i < length X)%nat /\ ~ In (Z.of_nat i) ms /\
    flt tol (fsub (fuzzy_total X D pw ms) (fuzzy_total X D pw (before ++ Z.of_nat i :: after))) = true.
