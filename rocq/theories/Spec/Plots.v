(** What a picture shows, independent of how it is drawn. *)
From Coq Require Import QArith.
From Verif Require Import Base.Py Base.Arr Base.Float.
Local Close Scope Q_scope.
Local Open Scope nat_scope.

(** all runs of an analysis: the seeds in order, and for each seed the numbers of clusters in order *)
Definition all_runs (seeds ks : list Z) : list (Z * Z) := flat_map (fun s => map (fun k => (s, k)) ks) seeds.

(** the values of the samples with a label *)
Definition values_of (labels : list Z) (values : list fnum) (l : Z) : list fnum :=
  map snd (filter (fun p => (fst p =? l)%Z) (combine labels values)).

(** the labels are 0, ..., k - 1, each used *)
Definition labels_are (labels : list Z) (k : nat) : Prop := forall l, In l labels <-> (0 <= l < Z.of_nat k)%Z.

(** the point (horizontal h, vertical v) belongs to the square of the pixel in row i and column j *)
Definition in_pixel (i j : Z) (h v : Q) : Prop :=
  (inject_Z j - (1 # 2) <= h <= inject_Z j + (1 # 2) /\ inject_Z i - (1 # 2) <= v <= inject_Z i + (1 # 2))%Q.

(** ... to the rectangle with a corner, a width and a height *)
Definition in_frame (left top : Q) (width height : Z) (h v : Q) : Prop :=
  (left <= h <= left + inject_Z width /\ top <= v <= top + inject_Z height)%Q.
