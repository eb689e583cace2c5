(** The programs of experiments/ that use saved partitions, run one after the other in the same directory.

    Every run is a process of its own (so its random choices, and the dataset and the distance files that it finds, are given for
    each run); what one run leaves in the directories 'pickle' and 'outputs' is what the next one finds.  The runs do not overlap
    in time.  The tables that the solver programs write for a prediction are left out (nobody reads them, and their names differ
    from those of the other files, C60). *)
From Coq Require Import String.
From Verif Require Import Base.Py Base.Arr Base.Float Model.Region Model.Distance Model.Clustering Model.Solver Model.SolverFiles Model.Results Model.Reports Model.Algorithms
  Model.Programs Model.PartitionAnalysis Model.SuitePrograms.

(** what a process finds: numpy's random choices, the distance files, and the regions in the dataset *)
Record tools := Tools { tl_choice : Z -> nat -> Z -> res (list Z); tl_env : denv; tl_create : rmeta -> res (stregion fnum) }.

(** A command line.  Models and analyses are parameters, as in the models of the programs. *)
Inductive job (M : Type) :=
(** clustering/partition_analysis.py *)
| JAnalysis (region clustering_type suite_id : string)
(** clustering/medoid_distances.py *)
| JMedoidDistances (region clustering_type suite_id : string)
(** auto_arima/error_between_medoids.py *)
| JBetween (fit : pdq -> list fnum -> res M) (forecast : M -> nat -> res (list fnum)) (search : mparams -> list fnum -> res pdq)
           (region experiment : string) (forecast_len : nat) (error_type : string)
(** auto_arima/distance_errors.py *)
| JDistanceErrors (fit : pdq -> list fnum -> res M) (order_of : M -> pdq) (forecast : M -> nat -> res (list fnum)) (search : mparams -> list fnum -> res pdq)
                  (region experiment : string) (forecast_len : nat) (error_type : string)
(** arima/training_error_analysis.py *)
| JArimaErrors (ran : cmeta -> Z -> stregion fnum -> point -> pdq -> res experiment) (region experiment error_type : string)
(** auto_arima/training_error_analysis.py *)
| JAutoArimaErrors (fit : pdq -> list fnum -> res M) (order_of : M -> pdq) (aic_of : M -> fnum) (forecast : M -> nat -> res (list fnum))
                   (search : mparams -> list fnum -> res pdq) (ran : cmeta -> Z -> stregion fnum -> point -> res experiment) (region experiment error_type : string)
(** auto_arima/solver.py, baseline/solver_mean_past.py and baseline/solver_knn_medoids.py: train and predict *)
| JTrain (pg : program M) (a : solver_args)
| JPredict (dtw : list fnum -> list fnum -> fnum) (sqrt : fnum -> fnum) (show_series : list fnum -> string) (pg : program M) (a : solver_args)
           (lat1 lat2 long1 long2 : string) (tf : Z).
Arguments JAnalysis {M}. Arguments JMedoidDistances {M}. Arguments JBetween {M}. Arguments JDistanceErrors {M}. Arguments JArimaErrors {M}.
Arguments JAutoArimaErrors {M}. Arguments JTrain {M}. Arguments JPredict {M}.

(** solver/train.py:43-48: the distance matrix of the region for a new DistanceByDTW *)
Definition loaded_measure (tl : tools) (r : rmeta) : res (option mat) * dobj :=
  load_distance_matrix_2d (tl_env tl) (distances_filename r) (rm_region r) (DObj PlainDTW None false).
Definition load_distances (tl : tools) (r : rmeta) : res unit := _ <- fst (loaded_measure tl r) ;; Ok tt.
(** clustering/__init__.py:110-113 for a measure [o] *)
Definition impl_with (tl : tools) (o : dobj) (r : rmeta) (c : cmeta) (spt : stregion fnum) (with_medoids : bool) : res part :=
  fst (clustering_impl (tl_choice tl) (tl_env tl) c (Some (dmeta_of r)) spt with_medoids o).

Section Histories.
Context {M : Type} (format_coverage : Q -> string) (format_float : nat -> fnum -> string).

(** Training with all of its files: auto_arima/solver.py:152-176 (and baseline/solver_mean_past.py:151-175,
    baseline/solver_knn_medoids.py:146-170) train_request with solver/train.py:38-139 and solver/model.py:203-210.  As
    [train_request] of Model/Programs.v, with the measure that was loaded before (solver/train.py:42-48) and with the
    report that is written together with the partition (solver/train.py:84-87). *)
Definition train_and_report (tl : tools) (w : world M) (pg : program M) (a : solver_args) : world M * res unit :=
  match metadata_from_args a with
  | Raise e => (w, Raise e)
  | Ok (r, c) =>
      let '(loaded, o) := loaded_measure tl r in
      let w := World (w_pickles w) (w_texts w) o in
      match _ <- loaded ;; tl_create tl r with
      | Raise e => (w, Raise e)
      | Ok spt_region =>
          match partition_and_report (tl_choice tl) (tl_env tl) format_coverage w c r spt_region with
          | (w', Raise e) => (w', Raise e)
          | (w', Ok (_, None)) => (w', Raise AttributeError)
          | (w', Ok (p, Some medoids)) =>
              match solver_train (pg_kind pg) (full2 (rm_x r) (rm_y r) (Some (pg_value pg))) (pg_refit pg (rm_x r) (rm_y r))
                                 (fun _ => Ok (p, medoids)) spt_region (a_test_len a) (a_error a) with
              | Raise e => (w', Raise e)
              | Ok s => (World (save_solver (w_pickles w') (key_of pg a r c) s) (w_texts w') (w_distance w'), Ok tt)
              end
          end
      end
  end.

(** one run: the directories afterwards.  The measure that a prediction partitions with, if it has to, is new
    (solver/model.py:323-350); a prediction writes no report. *)
Definition run_job (s : world M * tables) (e : tools * job M) : world M * tables :=
  let '(w, t) := s in
  let '(tl, j) := e in
  match j with
  | JAnalysis region ty sid => (fst (analyze_suite (tl_choice tl) (tl_env tl) (tl_create tl) format_coverage format_float w region ty sid), t)
  | JMedoidDistances region ty sid => fst (medoid_distances (tl_choice tl) (tl_env tl) (tl_create tl) w t region ty sid)
  | JBetween fit forecast search region experiment n et =>
      fst (errors_between_medoids (tl_choice tl) (tl_env tl) (tl_create tl) format_coverage fit forecast search w t region experiment n et)
  | JDistanceErrors fit order_of forecast search region experiment n et =>
      fst (auto_arima_distance_errors (tl_choice tl) (tl_env tl) (tl_create tl) format_coverage fit order_of forecast search w t region experiment n et)
  | JArimaErrors ran region experiment et =>
      fst (arima_error_analysis (tl_choice tl) (tl_env tl) (tl_create tl) format_coverage ran w t region experiment et)
  | JAutoArimaErrors fit order_of aic_of forecast search ran region experiment et =>
      fst (auto_arima_error_analysis (tl_choice tl) (tl_env tl) (tl_create tl) format_coverage fit order_of aic_of forecast search ran w t region experiment et)
  | JTrain pg a => (fst (train_and_report tl w pg a), t)
  | JPredict dtw sqrt show pg a lat1 lat2 long1 long2 tf =>
      (World (fst (predict_request (tl_create tl) (impl_with tl (DObj PlainDTW None false)) dtw sqrt format_float show (w_pickles w) pg a lat1 lat2 long1 long2 tf))
             (w_texts w) (w_distance w), t)
  end.
Definition run_jobs (s : world M * tables) (h : list (tools * job M)) : world M * tables := fold_left run_job h s.
End Histories.
