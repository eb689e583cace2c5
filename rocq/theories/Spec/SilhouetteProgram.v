(** Vocabulary for the program of the silhouette analysis. *)
From Coq Require Import String.
From Verif Require Import Base.Py Base.Arr Base.Float Model.Region Model.Distance Model.Clustering Model.Dataset Model.Plots Model.Programs Model.DistanceProgram
  Model.KMedoids Model.SilhouetteProgram Spec.Grid Spec.Distance Spec.Dataset.
Local Notation length := List.length.

(** the files before the program is first used: the dataset as delivered, no saved region and no distances *)
Definition first_use (w : dworld) (raw : arr3 fnum) : Prop :=
  delivered (dw_data w) raw /\ (forall region r, region_by_name region = Ok r -> dw_data w (dataset_filename r) = None) /\ (forall q, dw_mats w q = None).

(** what happens over time: runs of the program, and requests, crashes, deletions and damages of the cache of the dataset *)
Inductive event :=
| ERun (region command : string)
| ERequest (garbage : fnum) (a b spd : Z)
| ECrash (garbage : fnum) (a b spd : Z)
| EDelete (a b spd : Z)
| EDamage (a b spd : Z).

Section Events.
Context (color : Type) (cmap : fnum -> color) (is_black : color -> bool) (choice : Z -> nat -> Z -> res (list Z)).
Context (score : arr2 fnum -> list Z -> res fnum) (samples : arr2 fnum -> list Z -> res (list fnum)).
Context (measure : list fnum -> list fnum -> fnum) (norm : Z -> Z -> fnum) (junk garbage : fnum).
Definition run_silhouette (w : dworld) (region command : string) : dworld * res shown_result :=
  do_silhouette cmap is_black choice score samples measure norm junk garbage w region command.
Definition happens (w : dworld) (e : event) : dworld :=
  let data fs := DWorld fs (dw_mats w) in
  match e with
  | ERun region command => fst (run_silhouette w region command)
  | ERequest g a b spd => data (dexec (dw_data w) (DRequest g a b spd DATASET_NAME))
  | ECrash g a b spd => data (dexec (dw_data w) (DCrash g a b spd DATASET_NAME))
  | EDelete a b spd => data (dexec (dw_data w) (DDelete (FORMAT_BY_YEAR DATASET_NAME a b spd)))
  | EDamage a b spd => data (dexec (dw_data w) (DDamage (FORMAT_BY_YEAR DATASET_NAME a b spd)))
  end.
Definition after_events (w : dworld) (es : list event) : dworld := fold_left happens es w.
End Events.

(** [es] saves the region before the end *)
Definition saves (region : string) (es : list event) : Prop := In (ERun region "save") es.
(** ... and computes its distances later *)
Definition saves_and_measures (region : string) (es : list event) : Prop :=
  exists es1 es2, es = es1 ++ es2 /\ saves region es1 /\ In (ERun region "distances") es2.

(** [X] holds the series of the points of [d], row by row; [m] holds their distances in the same order *)
Definition own_series (d : arr3 fnum) (X : dataset) : Prop :=
  length X = a3x d * a3y d /\
  forall p, in_grid (a3x d) (a3y d) p -> series3 d (fst p) (snd p) = Ok (nth (index_of (a3y d) p) X []).
Definition own_matrix (measure : list fnum -> list fnum -> fnum) (d : arr3 fnum) (m : arr2 fnum) : Prop :=
  wf2 m /\ a2x m = a3x d * a3y d /\ a2y m = a3x d * a3y d /\
  forall p q a b, in_grid (a3x d) (a3y d) p -> in_grid (a3x d) (a3y d) q ->
    series3 d (fst p) (snd p) = Ok a -> series3 d (fst q) (snd q) = Ok b ->
    get2 m (Z.of_nat (index_of (a3y d) p)) (Z.of_nat (index_of (a3y d) q)) = Ok (measure a b).

(** among runs with these averages, the run (s, k) is the first of the best; an average that is not above -1 does not count *)
Definition first_best (runs : list (Z * Z)) (avg : Z -> Z -> fnum) (s k : Z) : Prop :=
  exists l1 l2, runs = l1 ++ (s, k) :: l2 /\ flt (Fin (-1)) (avg s k) = true /\
    (forall s' k', In (s', k') runs -> flt (avg s k) (avg s' k') = false) /\
    (forall s' k', In (s', k') l1 -> flt (avg s' k') (avg s k) = true \/ avg s' k' = NaN).
