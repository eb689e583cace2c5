(** experiments/auto_arima/training_error_analysis.py with --plots: after the row of a cluster, the picture of the distances to its medoid and
    of the errors of the medoid's model. *)
From Coq Require Import String.
From Verif Require Import Base.Py Base.Arr Base.Str Base.Dict Base.Float Model.Region Model.Series Model.Errors Model.Models Model.Forecast Model.Distance Model.Clustering
  Model.Variance Model.Solver Model.SolverFiles Model.Results Model.Programs Model.Dnn Model.PartitionAnalysis Model.DistanceProgram Model.Reports Model.SuitePrograms Model.ErrorPlot.
Local Open Scope string_scope.
Local Notation length := List.length.

(** auto_arima/training_error_analysis.py:193-199 and 247-258: one analysis of a cluster, and what drawing after it gives for each name and
    description: a relation as SuitePrograms.analyzed.  The picture is drawn from the state that this analysis leaves, and its name is known
    only after the analysis (it contains the order that the search has found).  Simplification: the distance object is the same for all
    pictures (with a loaded matrix drawing does not change it). *)
Definition analyzed_then_draws {P M} (kind : model_kind P M) (sqrt : fnum -> fnum) (params : arr2 (option P)) (workers : option Z) (junk : fnum)
    (env : denv) (library_order : M -> res pdq) (md : option dmeta) (o : dobj) (cluster : stregion fnum) (medoid : point) (error_type : string)
    (result : res (experiment * (string -> string -> picture))) : Prop :=
  exists errors a' t_forecast t_compute,
    analyze_errors kind sqrt (train kind params) workers junk cluster (Some medoid) error_type DEFAULT_FORECAST_LENGTH new_analysis errors a' /\
    match (e <- errors ;;
           trained <- train kind params (fst (split_training_and_test_last (Z.of_nat DEFAULT_FORECAST_LENGTH) cluster)) ;;
           Ok (Experiment e (snd trained) t_forecast t_compute)) with
    | Raise e => result = Raise e
    | Ok done =>
        exists draw, result = Ok (done, draw) /\
          forall plot_name plot_desc, draw plot_name plot_desc =
            fst (fst (plot_distances_vs_errors kind workers junk env library_order md medoid DEFAULT_FORECAST_LENGTH error_type (Some plot_name) plot_desc o a'))
    end.

Section SearchPlots.
Context {M : Type} (choice : Z -> nat -> Z -> res (list Z)) (env : denv) (create_instance : rmeta -> res (stregion fnum)) (format_coverage : Q -> string).
Context (fit : pdq -> list fnum -> res M) (order_of : M -> pdq) (aic_of : M -> fnum) (forecast : M -> nat -> res (list fnum)) (search : mparams -> list fnum -> res pdq).

(** auto_arima/training_error_analysis.py:180-258 analyze_auto_arima_for_cluster with with_plots: the row (as
    SuitePrograms.auto_arima_cluster_row), and the picture, whose name has the order at the medoid *)
Definition auto_arima_cluster_step (p : crisp) (i : Z) (cluster : stregion fnum) (medoid : point) (params : mparams) (plot_path : pdq -> string) (plot_desc : string)
    (ran : res (experiment * (string -> string -> picture))) : res (list field * picture) :=
  x <- ran ;;
  trained <- train (auto_arima_kind fit forecast search) (full2 (t_x cluster) (t_y cluster) (Some params)) (fst (split_training_and_test_last (Z.of_nat DEFAULT_FORECAST_LENGTH) cluster)) ;;
  at_medoid <- get2 (fst trained) (fst medoid) (snd medoid) ;;
  let order := extract_pdq order_of at_medoid in
  Ok (auto_arima_result_row i (cluster_len p i) order (extract_aic aic_of at_medoid) (fst x), snd x (plot_path order) plot_desc).

(** auto_arima/training_error_analysis.py:134-177 do_auto_arima_error_analysis_for_clustering with with_plots: the table, the exception and what
    has been drawn *)
Definition use_auto_arima_errors_with_plots (r : rmeta) (spt : stregion fnum) (params : mparams) (error_type : string)
    (ran : cmeta -> Z -> stregion fnum -> point -> res (experiment * (string -> string -> picture))) (c : cmeta) (p : crisp) (medoids : list point)
  : list (string * csv_file) * option exn * list (list scatter_call) :=
  match clusters_with_centroids p spt None None (Some medoids) with
  | Raise e => ([], Some e, [])
  | Ok clusters =>
      let '(file, e, pictures) :=
        rows_and_pictures (map (fun i =>
          cluster <- getitem clusters i ;;
          medoid <- match h_own cluster with Some m => Ok m | None => Raise AttributeError end ;;
          auto_arima_cluster_step p i (h_region cluster) medoid params (auto_arima_plot_path c r params error_type (h_name cluster)) (c_repr c)
            (ran c i (h_region cluster) medoid)) (zrange 0 (c_k c))) [auto_arima_result_header] in
      ([(auto_arima_errors_path c r params error_type, file)], e, pictures)
  end.

(** auto_arima/training_error_analysis.py:94-131 do_auto_arima_error_analysis with args.plots: as SuitePrograms.auto_arima_error_analysis; the
    pictures of a clustering are those of [use_auto_arima_errors_with_plots] and are not part of the tables *)
Definition auto_arima_error_analysis_with_plots (ran : cmeta -> Z -> stregion fnum -> point -> res (experiment * (string -> string -> picture))) (w : world M) (t : tables)
    (region experiment error_type : string) : world M * tables * option exn :=
  match ('(r, suite, params, distance) <- auto_arima_metadata region experiment ;;
         spt <- create_instance r ;;
         _ <- py_assert (distance =? "dtw")%string ;;
         Ok (r, suite, params, spt)) with
  | Raise e => (w, t, Some e)
  | Ok (r, suite, params, spt) =>
      match load_distance_matrix_2d env (distances_filename r) (rm_region r) (DObj PlainDTW None false) with
      | (Raise e, o) => (World (w_pickles w) (w_texts w) o, t, Some e)
      | (Ok _, o) =>
          each_clustering (with_partition choice env format_coverage r spt (fun c p medoids _ => fst (use_auto_arima_errors_with_plots r spt params error_type ran c p medoids)))
            (World (w_pickles w) (w_texts w) o) t suite
      end
  end.
End SearchPlots.
