(** Vocabulary for the predefined experiments and the solver programs. *)
From Coq Require Import String.
From Verif Require Import Base.Py Base.Arr Base.Str Base.Float Model.Region Model.Models Model.Clustering Model.Solver Model.SolverFiles
  Model.Series Model.Errors Model.Programs Spec.Grid Spec.Partition Spec.Rect Spec.SolverFiles Spec.Solver.
Local Open Scope string_scope.
Local Open Scope Z_scope.

(** What the documentation of the suites says that they contain *)
Inductive belongs : string -> string -> cmeta -> Prop :=
| kmedoids_quick k seed : 2 <= k <= 3 -> 0 <= seed <= 1 -> belongs "kmedoids" "quick" (CKmedoids (kmeta_default k seed "lite"))
| kmedoids_large k seed : 12 <= k <= 14 -> 0 <= seed <= 1 -> belongs "kmedoids" "large" (CKmedoids (kmeta_default k seed "lite"))
| kmedoids_all k seed : 2 <= k <= 150 -> 0 <= seed <= 2 -> belongs "kmedoids" "all" (CKmedoids (kmeta_default k seed "lite"))
| regular_quick k : 2 <= k <= 3 -> belongs "regular" "quick" (CRegular k)
| regular_part1 k : 2 <= k <= 95 -> belongs "regular" "part1" (CRegular k)
| regular_part2 k : 96 <= k <= 150 -> k mod 2 = 0 -> belongs "regular" "part2" (CRegular k).

(** Two uses of a solver program are about the same clustered region; the seed matters only with k-medoids *)
Definition same_place (a a' : solver_args) : Prop :=
  a_region a = a_region a' /\ a_clustering a = a_clustering a' /\ a_k a = a_k a' /\ (a_seed a = a_seed a' \/ a_clustering a = "regular").

(** ... and with the same number of test samples and type of error *)
Definition same_options (a a' : solver_args) : Prop := same_place a a' /\ a_test_len a = a_test_len a' /\ a_error a = a_error a'.

(** A program whose models of the whole data do not depend on the models of the training data *)
Definition refits_afresh {M} (pg : program M) : Prop :=
  forall x y models models' r, pg_refit pg x y models r = pg_refit pg x y models' r.

(** A request that keeps what has been trained with [pg] and [a]: a prediction, or a training for another place or
    with other parameters, or of the same program with the same number of test samples (any type of error), or with
    any number if the models of the whole data are trained afresh *)
Definition keeps {M} (pg : program M) (a : solver_args) (q : request M) : Prop :=
  match q with
  | Predict _ _ _ _ _ _ _ => True
  | Train pg' a' => same_place a a' -> same_params (pg_params pg) (pg_params pg') ->
                    pg' = pg /\ (a_test_len a' = a_test_len a \/ refits_afresh pg)
  end.

(** A request that trains with these options and parameters *)
Definition trains {M} (pg : program M) (a : solver_args) (q : request M) : Prop :=
  match q with
  | Predict _ _ _ _ _ _ _ => False
  | Train pg' a' => same_options a a' /\ same_params (pg_params pg) (pg_params pg')
  end.

(** The programs for which training and predicting are described below: those whose models of the whole data are
    trained like the others (mean of the past, k-NN), and auto-ARIMA, which keeps the orders that it has found *)
Definition trains_afresh {M} (pg : program M) : Prop :=
  forall x y, pg_refit pg x y = default_refitter (pg_kind pg) (full2 x y (Some (pg_value pg))).
Definition known_program {M} (pg : program M) : Prop :=
  trains_afresh pg \/ exists fit order_of forecast search params, pg = auto_arima_program fit order_of forecast search params.

(** the [n] lines printed for the point in row [i] and column [j] of a prediction region of width [h] *)
Definition block {A} (n h i j : nat) (lines : list A) : list A := firstn n (skipn (n * (i * h + j)) lines).

(** the partition and the medoids that training uses: those saved before, if any, or else those of the clustering *)
Definition from_clustering {M} (partition_impl : rmeta -> cmeta -> stregion fnum -> bool -> res part) (fs : fsys M) (r : rmeta) (c : cmeta)
           (spt : stregion fnum) (p : crisp) (ms : list point) : Prop :=
  fs (pickle_full_path c r "dtw") = Some (FPartition (p, Some ms)) \/ partition_impl r c spt true = Ok (p, Some ms).

(** What training with [pg] and [a] and a later prediction of [a'] start from: the options name an offered region and
    a clustering; [d] and [sc] are its data and scaling, [tl] the number of test samples; the saved partition, if
    there is one, or else the clustering of the region, is a partition with medoids; and the prediction region [g] is
    inside. *)
Definition ready {M} (create_instance : rmeta -> res (stregion fnum)) (partition_impl : rmeta -> cmeta -> stregion fnum -> bool -> res part)
           (fs : fsys M) (pg : program M) (a a' : solver_args) (lat1 lat2 long1 long2 : string) (r : rmeta) (c : cmeta) (d : arr3 fnum)
           (sc : option (arr2 fnum * arr2 fnum)) (tl : nat) (g : rect) : Prop :=
  forecasts_fit (pg_kind pg) /\ metadata_from_args a = Ok (r, c) /\ same_options a a' /\
  create_instance r = Ok (qregion d sc) /\ qwf d sc /\ a3x d = rm_x r /\ a3y d = rm_y r /\ (sc = None <-> rm_scaled r = false) /\
  a_test_len a = Z.of_nat tl /\ (tl <= a3t d)%nat /\
  (forall p ms, from_clustering partition_impl fs r c (qregion d sc) p ms ->
     valid_partition p (a3x d) (a3y d) /\ medoids_of p (a3x d) (a3y d) ms) /\
  prediction_region lat1 lat2 long1 long2 = Ok g /\ rect_in g (a3x d) (a3y d).
(** where a point of the prediction region lies in the complete raw dataset *)
Definition raw_position (r : rmeta) (g : rect) (i j : nat) : point :=
  (x1 (rm_region r) + (x1 g + Z.of_nat i), y1 (rm_region r) + (y1 g + Z.of_nat j))%Z.


(** [f] is the forecast for point [pt] of the model trained on the series of its medoid without the last [tl] samples,
    [o] the last [tl] samples of its own series, both as shown to the user, and [e] the error of one with the other *)
Definition evaluated {P M} (kind : model_kind P M) (mp : P) (func : error_fn) (sc : option (arr2 fnum * arr2 fnum)) (tl : nat)
           (medoid_series own : list fnum) (pt : point) (f o : list fnum) (e : fnum) : Prop :=
  exists model forecast t, training_function kind mp (firstn (List.length medoid_series - tl) medoid_series) = Ok model /\
    forecast_by kind model tl = Ok forecast /\ shown sc pt forecast f /\
    shown sc pt (skipn (List.length own - tl) own) o /\ shown sc pt (firstn (List.length own - tl) own) t /\ func f o (Some t) = Ok e.
