(** What the program that finds the elbows of a suite prints, stated without the program. *)
From Coq Require Import String.
From Verif Require Import Base.Py Base.Arr Base.Str Base.Float Base.FloatFacts Model.Region Model.Clustering Model.Distance Model.SolverFiles Model.Algorithms Model.Programs Model.PartitionAnalysis
  Spec.Grid Spec.Partition Spec.Distance Spec.Solver Spec.Clustering Spec.Algorithms Spec.PartitionAnalysis.
Local Notation length := List.length.

(** the clustering with [k] medoids and [seed] of a predefined suite *)
Definition clustering (k seed : Z) : cmeta := CKmedoids (kmeta_default k seed "lite").

(** the values of k and the seeds of the predefined suites with enough values of k, the last seed apart *)
Inductive large_enough : string -> list Z -> list Z -> Z -> Prop :=
| suite_large : large_enough "large" (zrange 12 15) [0%Z] 1
| suite_all : large_enough "all" (zrange 2 151) [0%Z; 1%Z] 2.

(** the sum over all points of the squared distance from the medoid of the point's own cluster *)
Definition squared_distances (dist : point -> point -> Q) (x y : nat) (p : crisp) (ms : list point) (v : Q) : Prop :=
  exists own : point -> point,
    (forall pt, in_grid x y pt -> exists i, label_at p pt (Z.of_nat i) /\ nth_error ms i = Some (own pt)) /\
    (v == qsum (map (fun pt => dist (own pt) pt * dist (own pt) pt)%Q (grid x y)))%Q.

(** the three lines about a seed *)
Definition seed_lines (ks : list Z) (k seed : Z) : list string :=
  [ ("****** Seed " ++ str_int seed ++ " ******")%string;
    ("Values of k: [" ++ join ", " (map str_int ks) ++ "]")%string;
    ("Elbow found for k=Kmedoids: k=" ++ str_int k ++ " seed=" ++ str_int seed ++ " mode=lite")%string ].

(** every clustering of [suite] has its partition and medoids, saved before or computed with the distances [D] *)
Definition has_results {M} choice env (fs : fsys M) r (d : arr3 fnum) sc D (suite : list cmeta) (result : cmeta -> crisp * list point) : Prop :=
  forall c, In c suite ->
    used choice env fs r (dmeta_of r) (qregion d sc) (DObj PlainDTW (Some D) false) c (fst (result c)) (snd (result c)) /\
    with_medoids (a3x d) (a3y d) (c_k c) (fst (result c)) (snd (result c)).

(** the partitions of [suite] are saved, nothing else changes *)
Definition saved_all {M} (fs fs' : fsys M) (region : string) (suite : list cmeta) (result : cmeta -> crisp * list point) : Prop :=
  (forall c, In c suite -> fs' (saved_at region c) = Some (FPartition (fst (result c), Some (snd (result c))))) /\
  (forall q, (forall c, In c suite -> q <> saved_at region c) -> fs' q = fs q).
