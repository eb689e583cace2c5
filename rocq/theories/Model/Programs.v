(** The command-line programs around the solver and the tables of predefined experiments: experiments/metadata/{region,
    clustering,arima,centroid}.py, experiments/auto_arima/{solver,solver_each}.py and experiments/baseline/{solver_mean_past,
    solver_knn_medoids,solver_knn_each}.py.

    The functions below start from the options that argparse has read (argparse itself, logging, plots and directories
    are left out).  What a program prints and the CSV files it writes are its result. *)
From Coq Require Import String.
From Verif Require Import Base.Py Base.Arr Base.Str Base.Dict Base.Float Model.Region Model.Scaling Model.Series Model.Errors Model.Models
  Model.Forecast Model.Clustering Model.Solver Model.SolverFiles Model.Results.
Local Open Scope string_scope.
Local Notation length := List.length.

(* ------------------------------------------------------------------ predefined experiments *)

(** experiments/metadata/region.py:5-73 predefined_regions; dataset_dir has its default 'raw' (region/metadata.py:54) *)
Definition predefined (name : string) (g : rect) (year_start year_end : Z) (scaled : bool) : rmeta :=
  RMeta name g year_start year_end 1 scaled "raw".
Definition predefined_regions : list (string * rmeta) :=
  [ ("brian_2015_2015_1spd", predefined "brian" (Rect 40 80 45 85) 2015 2015 false);
    ("midregion_2015_2015_1spd", predefined "midregion" (Rect 20 60 25 65) 2015 2015 false);
    ("nordeste_small_2015_2015_1spd", predefined "nordeste_small" (Rect 43 50 85 95) 2015 2015 false);
    ("nordeste_small_2015_2015_1spd_scaled", predefined "nordeste_small" (Rect 43 50 85 95) 2015 2015 true);
    ("nordeste_small_2014_2014_1spd", predefined "nordeste_small" (Rect 43 50 85 95) 2014 2014 false);
    ("whole_brazil_2015_2015_1spd", predefined "whole_brazil" (Rect 20 100 15 95) 2015 2015 false);
    ("whole_brazil_2015_2015_1spd_scaled", predefined "whole_brazil" (Rect 20 100 15 95) 2015 2015 true);
    ("whole_real_brazil_2013_2013_1spd", predefined "whole_real_brazil" (Rect 5 95 15 105) 2013 2013 false);
    ("whole_real_brazil_2013_2013_1spd_scaled", predefined "whole_real_brazil" (Rect 5 95 15 105) 2013 2013 true);
    ("whole_real_brazil_2014_2014_1spd", predefined "whole_real_brazil" (Rect 5 95 15 105) 2014 2014 false);
    ("whole_real_brazil_2014_2014_1spd_scaled", predefined "whole_real_brazil" (Rect 5 95 15 105) 2014 2014 true);
    ("whole_real_brazil_2015_2015_1spd", predefined "whole_real_brazil" (Rect 5 95 15 105) 2015 2015 false);
    ("whole_real_brazil_2015_2015_1spd_scaled", predefined "whole_real_brazil" (Rect 5 95 15 105) 2015 2015 true);
    ("whole_real_brazil_2011_2015_1spd", predefined "whole_real_brazil" (Rect 5 95 15 105) 2011 2015 false);
    ("whole_real_brazil_2011_2015_1spd_scaled", predefined "whole_real_brazil" (Rect 5 95 15 105) 2011 2015 true) ].

(** predefined_regions()[name] *)
Definition region_by_name (name : string) : res rmeta := dict_get String.eqb name predefined_regions.

(** clustering/kmedoids.py:91-104 kmedoids_metadata_generator and clustering/regular.py:37-46 regular_metadata_generator,
    with the default arguments: the metadatas of the suite *)
Definition kmedoids_metadata_generator (ks seeds : list Z) : res (list cmeta) :=
  suite_metadatas "kmedoids" ks (ManySeeds seeds) (KParams "lite" None 1000 (Fin (1 # 1000)) true).
Definition regular_metadata_generator (ks : list Z) : res (list cmeta) :=
  suite_metadatas "regular" ks NoSeeds (KParams "lite" None 1000 (Fin (1 # 1000)) true).

(** range(a, b, 2) *)
Definition zrange_by_2 (a b : Z) : list Z := map (fun i => (a + 2 * i)%Z) (zrange 0 ((b - a + 1) / 2)).

(** experiments/metadata/clustering.py:9-26, 29-39 kmedoids_suites and regular_suites *)
Definition kmedoids_suites : list (string * res (list cmeta)) :=
  [ ("quick", kmedoids_metadata_generator (zrange 2 4) (zrange 0 2));
    ("large", kmedoids_metadata_generator (zrange 12 15) (zrange 0 2));
    ("all", kmedoids_metadata_generator (zrange 2 151) (zrange 0 3)) ].
Definition regular_suites : list (string * res (list cmeta)) :=
  [ ("quick", regular_metadata_generator (zrange 2 4));
    ("part1", regular_metadata_generator (zrange 2 96));
    ("part2", regular_metadata_generator (zrange_by_2 96 151)) ].

(** experiments/metadata/clustering.py:42-51 get_suite: for another type the variable is not assigned *)
Definition get_suite (clustering_type suite_id : string) : res (list cmeta) :=
  if (clustering_type =? "kmedoids")%string then s <- dict_get String.eqb suite_id kmedoids_suites ;; s
  else if (clustering_type =? "regular")%string then s <- dict_get String.eqb suite_id regular_suites ;; s
  else Raise UnboundLocalError.

(** experiments/metadata/clustering.py:55-63 suite_options: the options offered on the command line, as a set *)
Definition suite_offered (suite_id : string) : Prop := In suite_id (map fst kmedoids_suites) \/ In suite_id (map fst regular_suites).

(** experiments/metadata/arima.py:4-17 predefined_arima_suites, 20-30 arima_suite_by_name: (p, d, q) values *)
Definition predefined_arima_suites : list (string * (list Z * list Z * list Z)) :=
  [ ("arima_simple", ([2], [1], [1])%Z); ("arima_1_1_1", ([1], [1], [1])%Z);
    ("arima_two", ([2], [0], zrange 1 3)%Z); ("arima_1_2_1", ([1], [2], [1])%Z);
    ("arima_2_2_2", ([2], [2], [2])%Z); ("arima_sweep", ([0; 1; 2; 3], zrange 0 2, zrange 0 3)%Z) ].
Definition arima_suite_by_name (name : string) : res (list pdq) :=
  '(ps, ds, qs) <- dict_get String.eqb name predefined_arima_suites ;;
  Ok (arima_params_gen ps ds qs).

(** experiments/metadata/arima.py:33-43 predefined_auto_arima *)
Definition predefined_auto_arima : list (string * mparams) := [ ("simple", PAutoArima 1 1 3 3 None true) ].

(** experiments/metadata/centroid.py:8-17 precalculated_centroids *)
Definition precalculated_centroids : list ((string * string) * point) :=
  [ (("nordeste_small_1y_1ppd", "DistanceByDTW"), (4, 6)%Z); (("nordeste_small_1y_1ppd_norm", "DistanceByDTW"), (4, 6)%Z) ].
Definition key_eqb (a b : string * string) : bool := ((fst a =? fst b) && (snd a =? snd b))%string%bool.

(** experiments/metadata/centroid.py:20-49 centroid_by_region_and_distance; [calculate] is CalculateCentroid.for_sptr_metadata *)
Definition centroid_by_region_and_distance (calculate : rmeta -> res point) (sptr_name distance_class : string) : res point :=
  if dict_in key_eqb (sptr_name, distance_class) precalculated_centroids
  then dict_get key_eqb (sptr_name, distance_class) precalculated_centroids
  else
    _ <- py_assert (distance_class =? "DistanceByDTW")%string ;;
    r <- region_by_name sptr_name ;;
    calculate r.

(* ------------------------------------------------------------------ the solver programs *)

(** The options of the three programs train/predict: region, clustering, -k, --seed, --tp (or --test) and --error *)
Record solver_args := SArgs { a_region : string; a_clustering : string; a_k : Z; a_seed : Z; a_test_len : Z; a_error : string }.

(** auto_arima/solver.py:229-247, baseline/solver_mean_past.py:228-246, baseline/solver_knn_medoids.py:223-241
    metadata_from_args: region and clustering; the model parameters come with the [program] *)
Definition metadata_from_args (a : solver_args) : res (rmeta * cmeta) :=
  r <- region_by_name (a_region a) ;;
  c <- (if (a_clustering a =? "regular")%string then Ok (CRegular (a_k a))
        else if (a_clustering a =? "kmedoids")%string then Ok (CKmedoids (kmeta_default (a_k a) (a_seed a) "lite"))
        else Raise UnboundLocalError) ;;
  Ok (r, c).

(** What distinguishes the programs: the kind of model, its parameters (and their names in paths) and the refitter *)
Record program (M : Type) := Program { pg_type : Type; pg_kind : model_kind pg_type M; pg_value : pg_type; pg_params : mparams;
                                       pg_refit : nat -> nat -> refitter (M := M) }.
Arguments Program {M}. Arguments pg_type {M}. Arguments pg_kind {M}. Arguments pg_value {M}. Arguments pg_params {M}. Arguments pg_refit {M}.

(** baseline/solver_mean_past.py:162, 244 *)
Definition mean_past_program (past : Z) : program fnum :=
  Program Z mean_kind past (PMean past) (fun x y => default_refitter mean_kind (full2 x y (Some past))).
(** baseline/solver_knn_medoids.py:157, 239 *)
Definition knn_medoids_program (measure : list fnum -> list fnum -> fnum) (argpartition : list fnum -> nat -> list nat) (k : Z)
  : program (Z * list fnum) :=
  Program Z (knn_kind measure argpartition) k (PKnn k "dtw") (fun x y => default_refitter (knn_kind measure argpartition) (full2 x y (Some k))).
(** auto_arima/solver.py:163, 245 *)
Definition auto_arima_program {M} (fit : pdq -> list fnum -> res M) (order_of : M -> pdq) (forecast : M -> nat -> res (list fnum))
           (search : mparams -> list fnum -> res pdq) (params : mparams) : program M :=
  Program mparams (auto_arima_kind fit forecast search) params params (fun _ _ => arima_refitter fit order_of forecast).

(** region/metadata.py:63-64 x_len, y_len *)
Definition rm_x (r : rmeta) : nat := Z.to_nat (x2 (rm_region r) - x1 (rm_region r)).
Definition rm_y (r : rmeta) : nat := Z.to_nat (y2 (rm_region r) - y1 (rm_region r)).

Section Programs.
(** region_metadata.create_instance(), the saved distance matrix of a region (loaded or an exception), partition_impl of
    the clustering algorithm on the region, the DTW distance, and the formatting of numbers and series *)
Context (create_instance : rmeta -> res (stregion fnum)) (load_distances : rmeta -> res unit)
        (partition_impl : rmeta -> cmeta -> stregion fnum -> bool -> res part)
        (dtw : list fnum -> list fnum -> fnum) (sqrt : fnum -> fnum)
        (format_float : nat -> fnum -> string) (show_series : list fnum -> string).

Section Solvers.
Context {M : Type}.

(** the metadata of the solver: auto_arima/solver.py:164-170, 192-198 (solver/train.py:49-56), with DistanceByDTW,
    whose repr is 'dtw' *)
Definition key_of (pg : program M) (a : solver_args) (r : rmeta) (c : cmeta) : skey :=
  SKey r c "dtw" (pg_params pg) (a_test_len a) (a_error a).

(** auto_arima/solver.py:152-176, baseline/solver_mean_past.py:151-175, baseline/solver_knn_medoids.py:146-170
    train_request, with solver/train.py:40-139 and solver/model.py:203-210 (save); [partition.medoids] does not exist in
    a partition that was saved without medoids.  Simplification: the report of the partition, a text file (l.86), is left
    out; Model/Histories.v has it (train_and_report, with a proof that it makes no difference here) *)
Definition train_request (fs : fsys M) (pg : program M) (a : solver_args) : fsys M * res unit :=
  match metadata_from_args a with
  | Raise e => (fs, Raise e)
  | Ok (r, c) =>
      match _ <- load_distances r ;; create_instance r with
      | Raise e => (fs, Raise e)
      | Ok spt_region =>
          match partition_call fs c "dtw" (Some r) (partition_impl r c spt_region) true (Some "pickle") with
          | (fs', Raise e) => (fs', Raise e)
          | (fs', Ok ((_, None), _)) => (fs', Raise AttributeError)
          | (fs', Ok ((p, Some medoids), _)) =>
              match solver_train (pg_kind pg) (full2 (rm_x r) (rm_y r) (Some (pg_value pg))) (pg_refit pg (rm_x r) (rm_y r))
                                 (fun _ => Ok (p, medoids)) spt_region (a_test_len a) (a_error a) with
              | Raise e => (fs', Raise e)
              | Ok s => (save_solver fs' (key_of pg a r c) s, Ok tt)
              end
          end
      end
  end.

(** the loop that prints the result and result.save_as_csv(): auto_arima/solver.py:218-226 *)
Definition show_result (r : presult) : res (list line * list (string * list string)) :=
  let f := rb_forecast (base_of r) in
  points <- snd (base_for (t_x f) (t_y f) 0) ;;
  lines <- mapM (lines_for_point r) points ;;
  files <- save_as_csv sqrt format_float show_series r "outputs" ;;
  Ok (List.concat lines, files).

(** Region(int(lat1), int(lat2), int(long1), int(long2)), auto_arima/solver.py:189 *)
Definition prediction_region (lat1 lat2 long1 long2 : string) : res rect :=
  a <- py_int lat1 ;; b <- py_int lat2 ;; c <- py_int long1 ;; d <- py_int long2 ;; Ok (Rect a b c d).

(** solver/model.py:45-131 predict of the loaded solver *)
Definition loaded_result (pg : program M) (l : loaded_solver M) (k : skey) (spt_region : stregion fnum) (g : rect) (forecast_len : Z)
  : res presult :=
  let '(p, medoids) := ls_partition l in
  q <- solver_predict (pg_kind pg) (Solver p [] (ls_training l) (ls_whole l) (ls_errors l)) (rm_scaled (k_region k)) spt_region
                      (k_test_len k) g forecast_len ;;
  r <- builder (meta_of k) forecast_len (pr_forecast q) (pr_test q) (pr_errors q) g spt_region (0 <? forecast_len)%Z ;;
  with_partition r (ByDTW dtw) p medoids.

(** auto_arima/solver.py:179-226, baseline/solver_mean_past.py:178-225, baseline/solver_knn_medoids.py:173-220
    predict_request *)
Definition predict_request (fs : fsys M) (pg : program M) (a : solver_args) (lat1 lat2 long1 long2 : string) (tf : Z)
  : fsys M * res (list line * list (string * list string)) :=
  match metadata_from_args a with
  | Raise e => (fs, Raise e)
  | Ok (r, c) =>
      match prediction_region lat1 lat2 long1 long2 with
      | Raise e => (fs, Raise e)
      | Ok g =>
          let k := key_of pg a r c in
          let '(fs', l) := load_solver fs k (fun wm => spt <- create_instance r ;; partition_impl r c spt wm) in
          (fs', l <- l ;;
                spt_region <- create_instance r ;;
                result <- loaded_result pg l k spt_region g tf ;;
                show_result result)
      end
  end.

(** One run of a program *)
Inductive request :=
| Train (pg : program M) (a : solver_args)
| Predict (pg : program M) (a : solver_args) (lat1 lat2 long1 long2 : string) (tf : Z).
Definition run (fs : fsys M) (q : request) : fsys M :=
  match q with
  | Train pg a => fst (train_request fs pg a)
  | Predict pg a lat1 lat2 long1 long2 tf => fst (predict_request fs pg a lat1 lat2 long1 long2 tf)
  end.
End Solvers.

(* ------------------------------------------------------------------ models at each point *)

(** auto_arima/solver_each.py:157-168, baseline/solver_knn_each.py:153-163 descale_subregion *)
Definition descale_subregion (subregion prediction_spt_region : stregion fnum) : res (stregion fnum) :=
  match prediction_spt_region with
  | TScaled _ mn mx => descale (TScaled subregion mn mx)
  | _ => Raise AttributeError
  end.

(** auto_arima/solver_each.py:76-138, 171-183 and baseline/solver_knn_each.py:71-132, 166-176: process_request up to the
    result.  [params] are the parameters of the models (the value that the trainer gets and the parameters in the
    metadata); [tf] is --tf (negative values are not considered), [junk] the content of np.empty *)
Definition each_result {P M} (kind : model_kind P M) (params : res (P * mparams)) (junk : fnum) (region : string)
           (lat1 lat2 long1 long2 : string) (error_type : string) (tf : nat) : res presult :=
  r <- region_by_name region ;;
  '(value, mp) <- params ;;
  g <- prediction_region lat1 lat2 long1 long2 ;;
  spt_region <- create_instance r ;;
  prediction_spt_region <- t_region_subset spt_region g ;;
  let trainer := train kind (full2 (t_x prediction_spt_region) (t_y prediction_spt_region) (Some value)) in
  let '(models, a1) := train_models trainer prediction_spt_region tf new_analysis in
  _ <- models ;;
  let '(forecasts, a2) := forecast_at_each_point kind None junk tf error_type a1 in
  '(forecast_region_each, error_region_each) <- forecasts ;;
  test_subregion <- match an_data a2 with Some d => Ok (da_test d) | None => Raise AttributeError end ;;
  '(forecast, test) <- (if rm_scaled r then
                          f <- descale_subregion forecast_region_each prediction_spt_region ;;
                          t <- descale_subregion test_subregion prediction_spt_region ;;
                          Ok (f, t)
                        else Ok (forecast_region_each, test_subregion)) ;;
  builder (SMeta r mp (Z.of_nat tf) error_type SBasic) (Z.of_nat tf) forecast (Some test) error_region_each g
          spt_region false.

(** baseline/solver_knn_each.py:71-150 process_request *)
Definition knn_each_request (argpartition : list fnum -> nat -> list nat) (junk : fnum) (region : string) (knn : Z)
           (lat1 lat2 long1 long2 : string) (error_type : string) (tf : nat) : res (list line * list (string * list string)) :=
  result <- each_result (knn_kind dtw argpartition) (Ok (knn, PKnn knn "dtw")) junk region lat1 lat2 long1 long2 error_type tf ;;
  show_result result.

(** auto_arima/solver_each.py:76-154 process_request *)
Definition auto_arima_each_request {M} (fit : pdq -> list fnum -> res M) (forecast : M -> nat -> res (list fnum))
           (search : mparams -> list fnum -> res pdq) (junk : fnum) (region auto_arima : string)
           (lat1 lat2 long1 long2 : string) (error_type : string) (tf : nat) : res (list line * list (string * list string)) :=
  result <- each_result (auto_arima_kind fit forecast search) (p <- dict_get String.eqb auto_arima predefined_auto_arima ;; Ok (p, p)) junk
                        region lat1 lat2 long1 long2 error_type tf ;;
  show_result result.
End Programs.
Arguments request M : clear implicits.
