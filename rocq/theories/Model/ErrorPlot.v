(** The picture of distances and forecast errors that the two training-error programs draw with --plots: spta/model/forecast.py:282-342
    and the names of its files; and experiments/arima/forecast.py, the program that prints the forecast errors of a whole region for each
    order of a suite. *)
From Coq Require Import String.
From Verif Require Import Base.Py Base.Arr Base.Str Base.Dict Base.Float Model.Region Model.Series Model.Errors Model.Models Model.Forecast Model.Distance Model.Clustering
  Model.Variance Model.Solver Model.SolverFiles Model.Results Model.Programs Model.Dnn Model.PartitionAnalysis Model.DistanceProgram Model.Reports Model.SuitePrograms.
Local Open Scope string_scope.
Local Notation length := List.length.

(** what is drawn and saved: the points, the title, the text (without the description of the region), the labels of the axes, the file *)
Inductive scatter_call :=
| Points (horizontal vertical : list fnum)
| Title (s : string)
| Note (order : pdq) (desc : string)
| Labels (horizontal vertical : string)
| Saved (path : string).

Section ErrorPlot.
Context {P M : Type} (kind : model_kind P M) (workers : option Z) (junk : fnum) (env : denv).
(** model.order of a fitted model (an attribute of the libraries); a cell without a model has no attribute model *)
Context (library_order : M -> res pdq).
Definition order_attribute (c : cell M) : res pdq := match c with Trained m => library_order m | _ => Raise AttributeError end.

(** forecast.py:282-342 plot_distances_vs_errors: what has been drawn and saved, with an exception if one ends it; the distance object and the
    analysis afterwards.  Points that are not as many as the distances are a ValueError of matplotlib. *)
Definition plot_distances_vs_errors (md : option dmeta) (pt : point) (forecast_len : nat) (error_type : string) (plot_name : option string) (plot_desc : string)
    (o : dobj) (a : analysis) : (list scatter_call * option exn) * dobj * analysis (M := M) :=
  match check_forecast_request forecast_len a with
  | Raise e => (([], Some e), o, a)
  | Ok (d, models) =>
      match all_point_indices (da_region d) with
      | Raise e => (([], Some e), o, a)
      | Ok indices =>
          let '(distances, o') := distances_to_point env (da_region d) md pt indices true true o in
          match distances with
          | Raise e => (([], Some e), o', a)
          | Ok distances =>
              let '(errors, a') := forecast_whole_region_with_single_model kind workers junk pt forecast_len error_type a in
              match (region <- errors ;; s_items region) with
              | Raise e => (([], Some e), o', a')
              | Ok items =>
                  let values := map snd items in
                  if (length distances =? length values)%nat then
                    match (c <- get2 models (fst pt) (snd pt) ;; order_attribute c) with
                    | Raise e => (([Points distances values], Some e), o', a')
                    | Ok order =>
                        (([Points distances values; Title "Distances to medoid vs forecast errors at medoid"; Note order plot_desc;
                           Labels "DTW distances to medoid" (error_type ++ " forecast errors")] ++ match plot_name with Some path => [Saved path] | None => [] end,
                          None), o', a')%list
                    end
                  else (([], Some ValueError), o', a')
              end
          end
      end
  end.
End ErrorPlot.

(** arima/training_error_analysis.py:248-259 plot_name_distances_vs_errors, with the directory of the clustering and suite (141-150) *)
Definition order_name (order : pdq) : string := let '(p, d, q) := order in "p" ++ str_int p ++ "-d" ++ str_int d ++ "-q" ++ str_int q.
Definition arima_plot_path (c : cmeta) (r : rmeta) (suite error_type cluster_name : string) (order : pdq) : string :=
  path_join (path_join (clustering_output_dir c r "dtw" "outputs") ("arima-" ++ suite))
            ("dist-error__" ++ c_repr c ++ "__" ++ error_type ++ "__" ++ cluster_name ++ "__arima-" ++ order_name order ++ ".pdf").
(** auto_arima/training_error_analysis.py:282-293, with the directory (148-156) *)
Definition auto_arima_plot_path (c : cmeta) (r : rmeta) (params : mparams) (error_type cluster_name : string) (order : pdq) : string :=
  path_join (path_join (clustering_output_dir c r "dtw" "outputs") (params_repr params))
            ("dist-error__" ++ c_repr c ++ "__" ++ error_type ++ "__" ++ cluster_name ++ "__auto-arima-" ++ order_name order ++ ".pdf").

(* ------------------------------------------------------------------ the analysis with --plots *)
Definition picture := (list scatter_call * option exn)%type.
(** One analysis of a cluster and the picture drawn after it (arima/training_error_analysis.py:176-224): a relation as
    SuitePrograms.analyzed; the picture is drawn from the state that this analysis leaves.  Simplification: the distance object is the
    same for all pictures (with a loaded matrix drawing does not change it). *)
Definition analyzed_and_drawn {P M} (kind : model_kind P M) (sqrt : fnum -> fnum) (params : arr2 (option P)) (workers : option Z) (junk : fnum)
    (env : denv) (library_order : M -> res pdq) (md : option dmeta) (o : dobj) (cluster : stregion fnum) (medoid : point) (error_type : string)
    (plot_name plot_desc : string) (result : res (experiment * picture)) : Prop :=
  exists errors a' t_forecast t_compute,
    analyze_errors kind sqrt (train kind params) workers junk cluster (Some medoid) error_type DEFAULT_FORECAST_LENGTH new_analysis errors a' /\
    result = (e <- errors ;;
              trained <- train kind params (fst (split_training_and_test_last (Z.of_nat DEFAULT_FORECAST_LENGTH) cluster)) ;;
              Ok (Experiment e (snd trained) t_forecast t_compute,
                  fst (fst (plot_distances_vs_errors kind workers junk env library_order md medoid DEFAULT_FORECAST_LENGTH error_type (Some plot_name) plot_desc o a')))).

(** arima/training_error_analysis.py:202-224: the row is written, then the picture is drawn; an exception of either ends the loop *)
Fixpoint rows_and_pictures (steps : list (res (list Results.field * picture))) (file : csv_file) : csv_file * option exn * list (list scatter_call) :=
  match steps with
  | [] => (file, None, [])
  | Raise e :: _ => (file, Some e, [])
  | Ok (row, (calls, Some e)) :: _ => (app file [row], Some e, [calls])
  | Ok (row, (calls, None)) :: rest => let '(file', e, pictures) := rows_and_pictures rest (app file [row]) in (file', e, calls :: pictures)
  end.

(** arima/training_error_analysis.py:127-224 do_arima_error_analysis_for_clustering with with_plots, as SuitePrograms.use_arima_errors: the
    table, the exception and what has been drawn; [ran c i cluster medoid order file desc] is what the analysis and the picture give *)
Definition use_arima_errors_with_plots (r : rmeta) (spt : stregion fnum) (name : string) (orders : list pdq) (error_type : string)
    (ran : cmeta -> Z -> stregion fnum -> point -> pdq -> string -> string -> res (experiment * picture)) (c : cmeta) (p : crisp) (medoids : list point)
  : list (string * csv_file) * option exn * list (list scatter_call) :=
  match clusters_with_centroids p spt None None (Some medoids) with
  | Raise e => ([], Some e, [])
  | Ok clusters =>
      let '(file, e, pictures) :=
        rows_and_pictures (flat_map (fun i =>
          if (i <? pk p)%Z then
            map (fun params =>
              cluster <- getitem clusters i ;;
              medoid <- match h_own cluster with Some m => Ok m | None => Raise AttributeError end ;;
              x <- ran c i (h_region cluster) medoid params (arima_plot_path c r name error_type (h_name cluster) params) (c_repr c) ;;
              Ok (cluster_result_row i (cluster_len p i) params (fst x), snd x)) orders
          else [Raise IndexError]) (zrange 0 (c_k c))) [cluster_result_header] in
      ([(arima_errors_path c r name error_type, file)], e, pictures)
  end.

(** arima/training_error_analysis.py:88-124 with args.plots: as SuitePrograms.arima_error_analysis; the pictures of a clustering are those of
    [use_arima_errors_with_plots] and are not part of the tables *)
Definition arima_error_analysis_with_plots {M} (choice : Z -> nat -> Z -> res (list Z)) (env : denv) (create_instance : rmeta -> res (stregion fnum)) (format_coverage : Q -> string)
    (ran : cmeta -> Z -> stregion fnum -> point -> pdq -> string -> string -> res (experiment * picture)) (w : world M) (t : tables) (region experiment error_type : string)
  : world M * tables * option exn :=
  match (r <- region_by_name region ;;
         e <- dict_get String.eqb experiment arima_clusters_experiments ;;
         suite <- get_suite (ce_clustering_type e) (ce_suite_id e) ;;
         orders <- arima_suite_by_name (ce_models e) ;;
         spt <- create_instance r ;;
         _ <- py_assert (ce_distance e =? "dtw")%string ;;
         Ok (r, suite, ce_models e, orders, spt)) with
  | Raise e => (w, t, Some e)
  | Ok (r, suite, name, orders, spt) =>
      match load_distance_matrix_2d env (distances_filename r) (rm_region r) (DObj PlainDTW None false) with
      | (Raise e, o) => (World (w_pickles w) (w_texts w) o, t, Some e)
      | (Ok _, o) =>
          each_clustering (with_partition choice env format_coverage r spt (fun c p medoids _ => fst (use_arima_errors_with_plots r spt name orders error_type ran c p medoids)))
            (World (w_pickles w) (w_texts w) o) t suite
      end
  end.

(* ------------------------------------------------------------------ experiments/arima/forecast.py *)
Section Forecasts.
Context {M : Type} (fit : pdq -> list fnum -> res M) (forecast : M -> nat -> res (list fnum)) (sqrt : fnum -> fnum) (junk : fnum).
Context (create_instance : rmeta -> res (stregion fnum)) (calculate_centroid : rmeta -> res point).

(** forecast.py:57-69: the errors for one order: a new analysis, the default length *)
Definition errors_with_order (spt : stregion fnum) (centroid : point) (workers : option Z) (order : pdq) (result : res forecast_errors) : Prop :=
  exists a', analyze_errors (arima_kind fit forecast) sqrt (train (arima_kind fit forecast) (full2 (t_x spt) (t_y spt) (Some (Some order)))) workers junk spt (Some centroid)
    "MASE" DEFAULT_FORECAST_LENGTH new_analysis result a'.

(** forecast.py:55-69: arima_results, a dictionary by the order *)
Definition pdq_eqb (a b : pdq) : bool := let '(p, d, q) := a in let '(p', d', q') := b in ((p =? p') && (d =? d') && (q =? q'))%Z%bool.
Inductive errors_of_suite (spt : stregion fnum) (centroid : point) (workers : option Z) : list pdq -> list (pdq * forecast_errors) -> res (list (pdq * forecast_errors)) -> Prop :=
| suite_done dict : errors_of_suite spt centroid workers [] dict (Ok dict)
| suite_next order rest dict e result :
    errors_with_order spt centroid workers order (Ok e) -> errors_of_suite spt centroid workers rest (dict_set pdq_eqb order e dict) result ->
    errors_of_suite spt centroid workers (order :: rest) dict result
| suite_fails order rest dict e : errors_with_order spt centroid workers order (Raise e) -> errors_of_suite spt centroid workers (order :: rest) dict (Raise e).

(** a printed line: the order and the three numbers (two decimals) *)
Record error_line := ErrorLine { el_order : pdq; el_each : fnum; el_min_local : fnum; el_centroid : fnum }.
Definition line_of (item : pdq * forecast_errors) : error_line :=
  ErrorLine (fst item) (fe_each (snd item)) (fe_min_local (snd item)) (fe_centroid (snd item)).

(** forecast.py:37-76 do_arima_forecast: the lines that are printed, and the exception if one ends it *)
Definition arima_forecast (region arima : string) (parallel : option string) (lines : list error_line) (failure : option exn) : Prop :=
  match (r <- region_by_name region ;;
         spt <- create_instance r ;;
         centroid <- centroid_by_region_and_distance calculate_centroid region "DistanceByDTW" ;;
         workers <- match parallel with None => Ok None | Some s => if (s =? "")%string then Ok None else n <- py_int s ;; Ok (Some n) end ;;
         orders <- arima_suite_by_name arima ;;
         Ok (spt, centroid, workers, orders)) with
  | Raise e => lines = [] /\ failure = Some e
  | Ok (spt, centroid, workers, orders) =>
      exists result, errors_of_suite spt centroid workers orders [] result /\
        match result with
        | Raise e => lines = [] /\ failure = Some e
        | Ok dict => lines = map line_of dict /\ failure = None
        end
  end.
End Forecasts.
