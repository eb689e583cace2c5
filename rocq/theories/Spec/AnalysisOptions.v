(** What the pictures of the analysis of a clustering suite show and where they are saved, stated without the program. *)
From Coq Require Import String Sorted Permutation.
From Verif Require Import Base.Py Base.Arr Base.Float Base.Str Model.Region Model.Clustering Model.Variance Model.Plots Model.Programs Model.PartitionAnalysis Model.AnalysisOptions
  Spec.Grid Spec.Partition Spec.Plots Spec.Variance Spec.Solver Spec.Algorithms Spec.PartitionAnalysis.
Local Notation length := List.length.

(** where the pictures of a clustering are *)
Definition silhouette_at (region : string) (c : cmeta) : string :=
  ("outputs/" ++ region ++ "/dtw/" ++ c_repr c ++ "/silhouette-" ++ c_repr c ++ ".pdf")%string.
Definition histograms_at (region : string) (c : cmeta) (random_points : option Z) : string :=
  ("outputs/" ++ region ++ "/dtw/" ++ c_repr c ++ "/variance-histograms__" ++ c_repr c ++
   match random_points with None => "" | Some n => "__random" ++ str_int n end ++ ".pdf")%string.

(** the labels of the points of an x-by-y region, row by row *)
Definition labels_in_order (p : crisp) (x y : nat) (l : list Z) : Prop := Forall2 (label_at p) (grid x y) l.

(** the bands of a silhouette plot, from bottom to top *)
Definition sil_bands {color} (bars : list (@sil_call color)) : list (list fnum) :=
  flat_map (fun c => match c with Fill _ vs _ => [vs] | _ => [] end) bars.

(** The silhouette picture of a partition whose points have the silhouette values [values] (row by row) with average [avg]: a
    map in which points with the same label have the same colour, the colour of the label as a fraction of the number of labels; one
    band per label that is used, which holds the sorted values of its points if the labels are 0, 1, ...; a line at the average. *)
Definition silhouette_picture {color} (cmap : fnum -> color) (p : crisp) (x y : nat) (avg : fnum) (values : list fnum) (what : @figure color) : Prop :=
  exists pixels bars l,
    what = Silhouette [Imshow pixels] bars /\ labels_in_order p x y l /\
    (exists top, (forall v, In v l -> (v <= top)%Z) /\ In top l /\
       forall pt v, in_grid x y pt -> label_at p pt v -> get2 pixels (fst pt) (snd pt) = Ok (cmap (fdiv (fint v) (fint (top + 1))))) /\
    In (VLine avg) bars /\ length (sil_bands bars) = length (nodup Z.eq_dec l) /\
    forall i vs, nth_error (sil_bands bars) i = Some vs -> Permutation (values_of l values (Z.of_nat i)) vs.

(** The picture of the histograms of a partition in k clusters with medoids [ms]: one panel per cluster, at different places;
    the panel of a cluster shows the distances of its points from its medoid and, if random points are asked for, of that many
    points outside the cluster (0: as many as it has points; never more than there are). *)
Definition histograms_picture {color} (dist : point -> point -> fnum) (x y : nat) (p : crisp) (ms : list point) (random_points : option Z) (what : @figure color) : Prop :=
  exists panels, what = Histograms panels /\ length panels = length ms /\ NoDup (map fst panels) /\
    forall i m, nth_error ms i = Some m -> exists place calls pts,
      nth_error panels i = Some (place, calls) /\ cluster_points p x y (Z.of_nat i) pts /\
      match random_points with
      | None => shown_values calls = [map (dist m) pts]
      | Some n => exists others, shown_values calls = [map (dist m) pts; map (dist m) others] /\ NoDup others /\
          (forall q, In q others -> in_grid x y q /\ ~ In q pts) /\
          length others = Nat.min (if (n =? 0)%Z then length pts else Z.to_nat n) (x * y - length pts)
      end.

(** every cluster has two points or more *)
Definition no_small_cluster (x y : nat) (p : crisp) : Prop :=
  forall i, (0 <= i < pk p)%Z -> exists q q', q <> q' /\ in_grid x y q /\ in_grid x y q' /\ label_at p q i /\ label_at p q' i.

(** scikit-learn gives the average [fst av] and the values [snd av] for the labels of the partition [p] *)
Definition silhouette_of (score : Distance.mat -> list Z -> res fnum) (samples : Distance.mat -> list Z -> res (list fnum)) (D : Distance.mat) (x y : nat)
    (p : crisp) (av : fnum * list fnum) : Prop :=
  exists l, labels_in_order p x y l /\ score D l = Ok (fst av) /\ samples D l = Ok (snd av) /\ length (snd av) = x * y.

(** the command line asks for [n] random points, or for none *)
Definition asks_random (opts : options) (n : option Z) : Prop :=
  match n with
  | None => o_random opts = None \/ o_random opts = Some ""%string
  | Some n => (0 <= n)%Z /\ o_random opts = Some (str_int n)
  end.
