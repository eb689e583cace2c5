(** experiments/clustering/extraction_lstm.py: the program that draws random points of a region, chooses a medoid of a suite
    for each of them and writes the training data of the classifier, with the files of spta/classifier/train_input.py.

    The region is created by each of the objects involved (train_input.py:56, 322, 380, 486); create_instance gives the same
    for the same metadata, so it is asked once.  The directory of the files exists, since the table of the suite was read
    from it.  Logging is left out. *)
From Coq Require Import String.
From Verif Require Import Base.Py Base.Arr Base.Str Base.Dict Base.Float Model.Region Model.Models Model.Distance Model.Clustering Model.Solver Model.SolverFiles
  Model.Results Model.TrainInput Model.Programs Model.Dnn Model.Classifier Model.PartitionAnalysis.
Local Open Scope string_scope.
Local Notation length := List.length.

(** train_input.py:58-63 the two criteria; the second with its choice_args *)
Inductive criterion := MinDistance | MinError (params : mparams) (test_len : Z) (error : string).

(** train_input.py:349-357, 442-452 csv_filepaths: the file of the choices and the histogram *)
Definition choice_filename (what : string) (cr : criterion) (suite : string) (count seed : Z) : string :=
  match cr with
  | MinDistance => what ++ "_dist_medoid__" ++ suite ++ "_count" ++ str_int count ++ "_seed" ++ str_int seed ++ ".csv"
  | MinError params test_len error =>
      what ++ "_medoid_min_pred_error__" ++ params_repr params ++ "__tp" ++ str_int test_len ++ "__" ++ error ++ "__" ++ suite ++
      "_count" ++ str_int count ++ "_seed" ++ str_int seed ++ ".csv"
  end.
Definition csv_filepaths (cr : criterion) (suite dist_repr home : string) (r : rmeta) (count seed : Z) : string * string :=
  let csv_dir := suite_csv_dir dist_repr home r in
  (path_join csv_dir (choice_filename "random_point" cr suite count seed), path_join csv_dir (choice_filename "hist" cr suite count seed)).

(** clustering/suite.py:193-204 medoid_series_csv_filepath *)
Definition medoid_series_csv_filepath (suite dist_repr home : string) (r : rmeta) : string :=
  suite_csv_dir dist_repr home r ++ "/" ++ "medoid_data__" ++ suite ++ ".csv".

Section Extraction.
Context {M : Type}.
(** the distance files, the region of a metadata, what recomputes a missing partition, DTW, and the formatting of numbers *)
Context (env : denv) (create_instance : rmeta -> res (stregion fnum)) (partition_impl : rmeta -> cmeta -> stregion fnum -> bool -> res part)
        (dtw : list fnum -> list fnum -> fnum) (format_float : nat -> fnum -> string) (show_series : list fnum -> string).
(** statsmodels and pmdarima *)
Context (fit : pdq -> list fnum -> res M) (order_of : M -> pdq) (forecast : M -> nat -> res (list fnum)) (search : mparams -> list fnum -> res pdq).
(** the orders of sets, and np.random.choice after np.random.seed *)
Context (set_order : list Z -> list Z) (point_order : list point -> list point) (choice : Z -> list Z -> Z -> res (list Z)).

(** the files and the shared distance measure, and the solvers that were loaded (train_input.py:388) *)
Record xstate := XState { x_world : world M; x_solvers : list (string * loaded_solver M) }.
Definition with_distance (s : xstate) (o : dobj) : xstate := XState (World (w_pickles (x_world s)) (w_texts (x_world s)) o) (x_solvers s).

(** train_input.py:324-347 get_medoid_penalties by distance, with distance/__init__.py:92-141 for only_if_precalculated *)
Definition distance_penalties (r : rmeta) (spt : stregion fnum) (s : xstate) (clustering_repr : string) (medoids : list point) (pt : point)
  : xstate * res (list fnum) :=
  let g := rm_region r in
  let medoid_indices := map (fun m => ((fst m - x1 g) * Z.of_nat (t_y spt) + (snd m - y1 g))%Z) medoids in
  let with_matrix o := match d_matrix o with
                       | None => Raise AssertionError
                       | Some D => mapM (fun j => m_get D (encode_point (t_y spt) pt) j) medoid_indices
                       end in
  let o := w_distance (x_world s) in
  match d_matrix o with
  | Some _ => (s, with_matrix o)
  | None =>
      match load_distance_matrix_md env (Some (dmeta_of r)) o with
      | (Raise _, o') => (with_distance s o', Raise ValueError)
      | (Ok _, o') => (with_distance s o', with_matrix o')
      end
  end.

(** train_input.py:454-466 build_solver_metadata *)
Definition solver_key (r : rmeta) (params : mparams) (test_len : Z) (error clustering_repr : string) : res skey :=
  c <- factory_from_repr clustering_repr ;; Ok (SKey r c "dtw" params test_len error).

(** train_input.py:390-440 get_medoid_penalties by prediction error *)
Definition error_penalties (r : rmeta) (params : mparams) (test_len : Z) (error : string) (s : xstate) (clustering_repr : string) (medoids : list point)
  (pt : point) : xstate * res (list fnum) :=
  match solver_key r params test_len error clustering_repr with
  | Raise e => (s, Raise e)
  | Ok k =>
      let '(s, l) := match dict_get String.eqb (key_repr k) (x_solvers s) with
                     | Ok l => (s, Ok l)
                     | Raise _ =>
                         let w := x_world s in
                         match load_solver (w_pickles w) k (fun wm => spt <- create_instance r ;; partition_impl r (k_clustering k) spt wm) with
                         | (fs, Ok l) => (XState (World fs (w_texts w) (w_distance w)) (dict_set String.eqb (key_repr k) l (x_solvers s)), Ok l)
                         | (fs, Raise e) => (XState (World fs (w_texts w) (w_distance w)) (x_solvers s), Raise e)
                         end
                     end in
      (s, l <- l ;;
          spt <- create_instance r ;;
          let prediction_region := Rect (fst pt) (fst pt + 1) (snd pt) (snd pt + 1) in
          prediction_result <- loaded_result dtw (auto_arima_program fit order_of forecast search params) l k spt prediction_region 0 ;;
          forecast_error_at_representative <- prediction_error_at prediction_result (0, 0)%Z ;;
          cluster_index_of_representative <- (m <- membership_of_points (fst (ls_partition l)) [pt] ;; getitem m 0) ;;
          setitem (repeat PInf (length medoids)) cluster_index_of_representative forecast_error_at_representative)
  end.

Definition medoid_penalties (cr : criterion) (r : rmeta) (spt : stregion fnum) : xstate -> string -> list point -> point -> xstate * res (list fnum) :=
  match cr with
  | MinDistance => distance_penalties r spt
  | MinError params test_len error => error_penalties r params test_len error
  end.

(** train_input.py:233-256: one clustering after the other, as [choose_step] of Model/TrainInput.v once its penalties are known *)
Fixpoint choose_among (penalties : xstate -> string -> list point -> point -> xstate * res (list fnum)) (pt : point) (threshold : Z) (h : hist)
    (s : xstate) (best : option (string * Z * point) * fnum) (sr : suite) : xstate * res (option (string * Z * point) * fnum) :=
  match sr with
  | [] => (s, Ok best)
  | (clustering_repr, medoids) :: rest =>
      let '(s, scores) := penalties s clustering_repr medoids pt in
      match choose_step (fun _ _ _ => scores) pt threshold h best (clustering_repr, medoids) with
      | Raise e => (s, Raise e)
      | Ok best => choose_among penalties pt threshold h s best rest
      end
  end.

(** train_input.py:200-274 choose_medoid *)
Definition choose_medoid_in (penalties : xstate -> string -> list point -> point -> xstate * res (list fnum)) (s : xstate) (sr : suite) (pt : point)
    (threshold : Z) (h : hist) : xstate * res (string * Z * point) * hist :=
  match choose_among penalties pt threshold h s (None, PInf) sr with
  | (s, Raise e) => (s, Raise e, h)
  | (s, Ok (best, score)) =>
      if is_inf score then (s, Raise ValueError, h)
      else match best with
           | Some (r, i, m) => (s, Ok (r, i, m), dict_set TrainInput.key_eqb (r, i) (hist_get h (r, i) + 1)%Z h)
           | None => (s, Raise TypeError, h)
           end
  end.

Definition put (s : xstate) (path : string) (lines : list string) : xstate := XState (write_text (x_world s) path lines) (x_solvers s).
Definition add_line (s : xstate) (path line : string) : xstate := XState (append_text (x_world s) path line) (x_solvers s).

(** train_input.py:107-134: a row for each point, written as soon as it is known *)
Fixpoint write_choices (penalties : xstate -> string -> list point -> point -> xstate * res (list fnum)) (path : string) (sr : suite) (r : rmeta)
    (spt : stregion fnum) (threshold : Z) (h : hist) (s : xstate) (pts : list point) : xstate * res hist :=
  match pts with
  | [] => (s, Ok h)
  | pt :: rest =>
      let '(s, result, h) := choose_medoid_in penalties s sr pt threshold h in
      match ('(c, i, m) <- result ;;
             _ <- factory_from_repr c ;;
             series <- series_at spt pt ;;
             medoid_row (rmeta_repr r) c i m series) with
      | Raise e => (s, Raise e)
      | Ok row => write_choices penalties path sr r spt threshold h (add_line s path (writerow (map (render format_float show_series) row))) rest
      end
  end.

(** train_input.py:155-173 get_random_points_different_to_medoids: numpy accepts seeds of 32 bits *)
Definition seeded_points (seed count : Z) (medoid_indices : list Z) (x_len y_len : nat) : res (list point) :=
  if ((0 <=? seed) && (seed <? 4294967296))%Z then random_points_different_to_medoids set_order (choice seed) count medoid_indices x_len y_len
  else Raise ValueError.

(** train_input.py:65-153 evaluate_score_of_random_points for the suite with representation [suite] *)
Definition evaluate_random_points (cr : criterion) (r : rmeta) (spt : stregion fnum) (suite : string) (count seed threshold : Z) (s : xstate)
  : xstate * res unit :=
  match (sr <- retrieve_suite_result (w_texts (x_world s) (analysis_csv_filepath suite "dtw" "outputs" r)) ;;
         pts <- seeded_points seed count (extract_all_medoid_indices point_order sr (t_y spt)) (t_x spt) (t_y spt) ;;
         Ok (sr, pts)) with
  | Raise e => (s, Raise e)
  | Ok (sr, pts) =>
      let '(choice_csv, hist_csv) := csv_filepaths cr suite "dtw" "outputs" r count seed in
      let s := put s choice_csv [] in
      match csv_header sr (t_len spt) with
      | Raise e => (s, Raise e)
      | Ok header =>
          match write_choices (medoid_penalties cr r spt) choice_csv sr r spt threshold [] (add_line s choice_csv (writerow header)) pts with
          | (s, Raise e) => (s, Raise e)
          | (s, Ok h) => (put s hist_csv (map writerow (histogram_rows h)), Ok tt)
          end
      end
  end.

(** train_input.py:554-611 produce_csv: the series are found before the file is opened *)
Definition produce_csv (r : rmeta) (spt : stregion fnum) (suite : string) (s : xstate) : xstate * res unit :=
  match (sr <- retrieve_suite_result (w_texts (x_world s) (analysis_csv_filepath suite "dtw" "outputs" r)) ;;
         data <- retrieve_medoid_data (rm_region r) sr spt ;;
         Ok (sr, data)) with
  | Raise e => (s, Raise e)
  | Ok (sr, data) =>
      let path := medoid_series_csv_filepath suite "dtw" "outputs" r in
      let s := put s path [] in
      match csv_header sr (t_len spt) with
      | Raise e => (s, Raise e)
      | Ok header =>
          fold_left (fun '(s, done) '(clustering_repr, (i, m, series)) =>
                       match done with
                       | Raise e => (s, Raise e)
                       | Ok _ => match medoid_row (rmeta_repr r) clustering_repr i m series with
                                 | Raise e => (s, Raise e)
                                 | Ok row => (add_line s path (writerow (map (render format_float show_series) row)), Ok tt)
                                 end
                       end)
                    (flat_map (fun '(clustering_repr, entries) => map (pair clustering_repr) entries) data)
                    (add_line s path (writerow header), Ok tt)
      end
  end.

(** extraction_lstm.py:20-83: the options *)
Record extraction_args := XArgs { xa_region : string; xa_type : string; xa_suite : string; xa_criterion : string; xa_count : Z; xa_seed : Z;
                                  xa_threshold : Z; xa_auto_arima : string; xa_tp : Z; xa_error : string }.

(** train_input.py:58-63 get_choice_strategy *)
Definition criterion_by_name (name : string) (params : mparams) (test_len : Z) (error : string) : res criterion :=
  dict_get String.eqb name [("min_distance", MinDistance); ("min_error", MinError params test_len error)].

(** extraction_lstm.py:86-147 analyze_suite, metadata_from_args and solver_metadata_from_args *)
Definition extraction (w : world M) (a : extraction_args) : world M * res unit :=
  match (r <- region_by_name (xa_region a) ;; _ <- get_suite (xa_type a) (xa_suite a) ;; Ok r) with
  | Raise e => (w, Raise e)
  | Ok r =>
      match load_distance_matrix_2d env (distances_filename r) (rm_region r) (DObj PlainDTW None false) with
      | (Raise e, o) => (World (w_pickles w) (w_texts w) o, Raise e)
      | (Ok _, o) =>
          let w := World (w_pickles w) (w_texts w) o in
          match (params <- dict_get String.eqb (xa_auto_arima a) predefined_auto_arima ;;
                 spt <- create_instance r ;;
                 cr <- criterion_by_name (xa_criterion a) params (xa_tp a) (xa_error a) ;;
                 Ok (spt, cr)) with
          | Raise e => (w, Raise e)
          | Ok (spt, cr) =>
              let suite := suite_repr (xa_type a) (xa_suite a) in
              match evaluate_random_points cr r spt suite (xa_count a) (xa_seed a) (xa_threshold a) (XState w []) with
              | (s, Raise e) => (x_world s, Raise e)
              | (s, Ok _) =>
                  let '(s, result) := produce_csv r spt suite s in (x_world s, result)
              end
          end
      end
  end.
End Extraction.
Arguments xstate : clear implicits.
