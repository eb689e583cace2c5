(** The command lines of the programs in experiments/: what argparse makes of the arguments for the parsers that the programs
    set up.

    argparse is part of Python; [parse_args] follows Lib/argparse.py (_parse_known_args, _parse_optional,
    _get_option_tuples, consume_optional, consume_positionals) for what these parsers use: options with one value or
    none, positional arguments with one value, choices, type=int, required options, abbreviations and --name=value.
    Simplifications: the argument "--" and letters after "-h" in the same argument count as mistakes, help texts and error
    messages are left out (a mistake is exit status 2, -h is exit status 0). *)
From Coq Require Import String Ascii.
From Verif Require Import Base.Py Base.Str Base.Dict Model.Programs Model.Dnn.
Local Open Scope string_scope.
Local Notation length := List.length.

(** the value of an attribute of the namespace *)
Inductive value := VNone | VStr (s : string) | VInt (n : Z) | VBool (b : bool).
(** type and choices of an argument *)
Inductive reading := AString | AInt | AChoice (choices : list string).
(** what an option does: show the help, store True, or store its value *)
Inductive action := Help | StoreTrue | Store (t : reading).
Record opt := Opt { o_name : string; o_dest : string; o_action : action; o_default : value; o_required : bool }.
Record positional := Pos { p_dest : string; p_reading : reading }.
Record parser := Parser { p_positionals : list positional; p_options : list opt }.
Definition namespace := list (string * value).
Inductive outcome := Usage | HelpShown | Parsed (ns : namespace).

(** _get_values: the conversion and the check of the choices; None is an error *)
Definition read (t : reading) (s : string) : option value :=
  match t with
  | AString => Some (VStr s)
  | AInt => match py_int s with Ok n => Some (VInt n) | Raise _ => None end
  | AChoice l => if existsb (String.eqb s) l then Some (VStr s) else None
  end.

(** strings *)
Definition first_is (c : ascii) (s : string) : bool := match s with String d _ => (d =? c)%char | "" => false end.
Fixpoint starts_with (p s : string) : bool :=
  match p, s with "", _ => true | String a p', String b s' => (a =? b)%char && starts_with p' s' | _, _ => false end.
(** s.split('=', 1) when there is '=' *)
Fixpoint split_equals (s : string) : option (string * string) :=
  match s with
  | "" => None
  | String c r => if (c =? "=")%char then Some ("", r) else match split_equals r with Some (a, b) => Some (String c a, b) | None => None end
  end.
Fixpoint digits (s : string) : bool := match s with "" => true | String c r => (("0" <=? c) && (c <=? "9"))%char && digits r end.
Fixpoint digits_point (s : string) : bool :=
  match s with "" => false | String c r => if (c =? ".")%char then digits r && negb (r =? "") else (("0" <=? c) && (c <=? "9"))%char && digits_point r end.
(** _negative_number_matcher: '^-\d+$|^-\d*\.\d+$' *)
Definition negative_number (s : string) : bool :=
  match s with String c r => (c =? "-")%char && ((digits r && negb (r =? "")) || digits_point r) | "" => false end.

(** an argument as the parser sees it: not an option, an option with the value after '=' (or after a letter), or unknown *)
Inductive token := Arg (s : string) | Known (o : opt) (explicit : option string) | Unknown.

(** -h and --help, which every parser has *)
Definition help_options : list opt := [Opt "-h" "help" Help VNone false; Opt "--help" "help" Help VNone false].
Definition all_options (p : parser) : list opt := (help_options ++ p_options p)%list.
Definition find_option (p : parser) (s : string) : option opt := find (fun o => (o_name o =? s)%string) (all_options p).

(** _get_option_tuples: the options of which the argument is an abbreviation (two dashes), or a letter with its value *)
Definition option_tuples (p : parser) (s : string) : list token :=
  if first_is "-" (substring 1 1 s) then
    let (prefix, explicit) := match split_equals s with Some (a, b) => (a, Some b) | None => (s, None) end in
    map (fun o => Known o explicit) (filter (fun o => starts_with prefix (o_name o)) (all_options p))
  else
    flat_map (fun o => if (o_name o =? substring 0 2 s)%string then [Known o (Some (substring 2 (String.length s - 2) s))]
                       else if starts_with s (o_name o) then [Known o None] else []) (all_options p).

(** _parse_optional; None is an error (an ambiguous abbreviation) *)
Definition classify (p : parser) (s : string) : option token :=
  if negb (first_is "-" s) then Some (Arg s)
  else if (s =? "--")%string then None
  else match find_option p s with
  | Some o => Some (Known o None)
  | None =>
      if (String.length s =? 1)%nat then Some (Arg s)
      else match match split_equals s with
                 | Some (a, b) => match find_option p a with Some o => Some (Known o (Some b)) | None => None end
                 | None => None
                 end with
      | Some t => Some t
      | None =>
          match option_tuples p s with
          | _ :: _ :: _ => None
          | [t] => Some t
          | [] => if negative_number s then Some (Arg s)
                  else if has_char " " s then Some (Arg s)
                  else Some Unknown
          end
      end
  end.

(** the namespace: an attribute has the value that was set last *)
Definition get (ns : namespace) (dest : string) : option value := option_map snd (find (fun f => (fst f =? dest)%string) ns).
Definition defaults (p : parser) : namespace :=
  (map (fun o => (o_dest o, o_default o)) (p_options p) ++ map (fun q => (p_dest q, VNone)) (p_positionals p))%list.

(** consume_positionals and consume_optional over the arguments: [pos] are the positional arguments still to come, [seen] the options
    that occurred, [extras] whether there is an argument that nothing takes *)
Fixpoint consume (required : list string) (toks : list token) (pos : list positional) (ns : namespace) (seen : list string) (extras : bool) : outcome :=
  match toks with
  | [] => if extras then Usage else match pos with
          | _ :: _ => Usage
          | [] => if forallb (fun n => existsb (String.eqb n) seen) required then Parsed ns else Usage
          end
  | Arg s :: rest =>
      match pos with
      | [] => consume required rest [] ns seen true
      | q :: pos' => match read (p_reading q) s with
                     | Some v => consume required rest pos' ((p_dest q, v) :: ns) seen extras
                     | None => Usage
                     end
      end
  | Unknown :: rest => consume required rest pos ns seen true
  | Known o (Some e) :: rest =>
      match o_action o with
      | Store t => match read t e with
                   | Some v => consume required rest pos ((o_dest o, v) :: ns) (o_name o :: seen) extras
                   | None => Usage
                   end
      | _ => Usage
      end
  | Known o None :: rest =>
      match o_action o with
      | Help => HelpShown
      | StoreTrue => consume required rest pos ((o_dest o, VBool true) :: ns) (o_name o :: seen) extras
      | Store t =>
          match rest with
          | Arg s :: rest' => match read t s with
                              | Some v => consume required rest' pos ((o_dest o, v) :: ns) (o_name o :: seen) extras
                              | None => Usage
                              end
          | _ => Usage
          end
      end
  end.

Fixpoint classify_all (p : parser) (argv : list string) : option (list token) :=
  match argv with
  | [] => Some []
  | s :: rest => match classify p s, classify_all p rest with Some t, Some l => Some (t :: l) | _, _ => None end
  end.
Definition required_names (p : parser) : list string := map o_name (filter o_required (p_options p)).
(** parser.parse_args(argv) *)
Definition parse_args (p : parser) (argv : list string) : outcome :=
  match classify_all p argv with
  | None => Usage
  | Some toks => consume (required_names p) toks (p_positionals p) (defaults p) [] false
  end.

(* ------------------------------------------------------------------ the parsers of the programs *)

(** choices=predefined_regions().keys() *)
Definition region_arg : positional := Pos "region" (AChoice (map fst predefined_regions)).
Definition clustering_options : list string := ["kmedoids"; "regular"].
(** experiments/metadata/clustering.py:55-63 suite_options *)
Definition suite_options : list string := (map fst kmedoids_suites ++ map fst regular_suites)%list.
(** model/error.py:16-24 error_functions().keys() *)
Definition error_options : list string := ["MASE"; "sMAPE"; "MSE"].
Definition log_options : list string := ["WARN"; "INFO"; "DEBUG"].
Definition store (name dest : string) (t : reading) (default : value) : opt := Opt name dest (Store t) default false.
Definition error_opt : opt := store "--error" "error" (AChoice error_options) (VStr "sMAPE").
Definition log_opt : opt := store "--log" "log" (AChoice log_options) (VStr "INFO").
(** --log without choices and default, as in experiments/region/distance.py:38 *)
Definition free_log_opt : opt := store "--log" "log" AString VNone.
Definition plots_opt : opt := Opt "--plots" "plots" StoreTrue (VBool false) false.
Definition parallel_opt : opt := store "--parallel" "parallel" AString VNone.
Definition coords : list positional := [Pos "lat1" AString; Pos "lat2" AString; Pos "long1" AString; Pos "long2" AString].
Definition auto_arima_experiment (dest : string) : positional := Pos dest (AChoice (map fst auto_arima_clustering_experiments)).

(** auto_arima/solver.py:79-130, 133-149 configure_parent, configure_train_parser, configure_predict_parser *)
Definition k_opt : opt := Opt "-k" "k" (Store AInt) VNone true.
Definition seed_opt : opt := store "--seed" "seed" AInt (VInt 1).
Definition tf_opt (n : Z) : opt := store "--tf" "tf" AInt (VInt n).
Definition solver_train_parser : parser :=
  Parser [region_arg; Pos "auto_arima" (AChoice (map fst predefined_auto_arima)); Pos "clustering" (AChoice clustering_options)]
         [k_opt; seed_opt; store "--tp" "tp" AInt (VInt 8); error_opt; log_opt].
Definition predict_parser (p : parser) : parser := Parser (p_positionals p ++ coords)%list (p_options p ++ [tf_opt 0])%list.
(** baseline/solver_mean_past.py:79-129 *)
Definition mean_past_train_parser : parser :=
  Parser [region_arg; Pos "clustering" (AChoice clustering_options)]
         [k_opt; seed_opt; store "--past" "past" AInt (VInt 10); store "--test" "test" AInt (VInt 8); error_opt; log_opt].
(** baseline/solver_knn_medoids.py:77-124 *)
Definition knn_train_parser : parser :=
  Parser [region_arg; Pos "clustering" (AChoice clustering_options); Pos "knn" AInt]
         [k_opt; seed_opt; store "--test" "test" AInt (VInt 8); error_opt; log_opt].
(** baseline/solver_knn_each.py:30-68, auto_arima/solver_each.py:31-71 call_parser *)
Definition knn_each_parser : parser := Parser (region_arg :: Pos "knn" AInt :: coords) [error_opt; tf_opt 8; log_opt].
Definition auto_arima_each_parser : parser :=
  Parser (region_arg :: Pos "auto_arima" (AChoice (map fst predefined_auto_arima)) :: coords) [error_opt; tf_opt 8; log_opt].
(** classifier/solver_dnn.py:33-82 *)
Definition dnn_parser : parser :=
  Parser (region_arg :: auto_arima_experiment "auto_arima_clustering_id" :: Pos "classifier" (AChoice (map fst classifier_experiments)) :: coords)
         [store "--out-of-sample" "out_of_sample" (AChoice (map fst predefined_regions)) VNone; error_opt; tf_opt 8; log_opt].
(** auto_arima/distance_errors.py:34-75, auto_arima/error_between_medoids.py:34-67 processRequest *)
Definition flen_opt : opt := store "--flen" "flen" AInt (VInt 8).
Definition distance_errors_parser : parser :=
  Parser [region_arg; auto_arima_experiment "auto_arima_cluster"] [flen_opt; error_opt; plots_opt; log_opt].
Definition error_between_parser : parser :=
  Parser [region_arg; auto_arima_experiment "auto_arima_cluster"] [flen_opt; error_opt; free_log_opt].
(** arima/training_error_analysis.py:49-85, auto_arima/training_error_analysis.py:53-91 processRequest *)
Definition arima_errors_parser : parser :=
  Parser [region_arg; Pos "arima_clustering_id" (AChoice (map fst arima_clusters_experiments))] [error_opt; parallel_opt; plots_opt; log_opt].
Definition auto_arima_errors_parser : parser :=
  Parser [region_arg; auto_arima_experiment "auto_arima_clustering_id"] [error_opt; parallel_opt; plots_opt; log_opt].
(** arima/forecast.py:15-34 processRequest *)
Definition arima_forecast_parser : parser :=
  Parser [region_arg; Pos "arima" (AChoice (map fst predefined_arima_suites))] [parallel_opt; free_log_opt].
(** clustering/extraction_lstm.py:20-84 processRequest *)
Definition extraction_parser : parser :=
  Parser [region_arg; Pos "clustering_type" (AChoice clustering_options); Pos "clustering_suite" (AChoice suite_options);
          Pos "criterion" (AChoice ["min_distance"; "min_error"])]
         [store "--random" "random" AInt (VInt 1000); store "--random-seed" "random_seed" AInt (VInt 0);
          store "--threshold" "threshold" AInt (VInt 0); log_opt; store "--auto-arima" "auto_arima" (AChoice (map fst predefined_auto_arima)) (VStr "simple");
          store "--tp" "tp" AInt (VInt 8); error_opt].
(** clustering/silhouette.py:12-26 processRequest *)
Definition silhouette_parser : parser := Parser [region_arg; Pos "command" AString] [].
(** clustering/partition_analysis.py:29-71 processRequest *)
Definition partition_parser : parser :=
  Parser [region_arg; Pos "clustering_type" (AChoice clustering_options); Pos "clustering_suite" (AChoice suite_options)]
         [Opt "--silhouette" "silhouette" StoreTrue (VBool false) false; Opt "--variance" "variance" StoreTrue (VBool false) false;
          store "--random" "random" AString VNone; store "--bins" "bins" AString (VStr "auto"); log_opt].
(** clustering/find_elbows.py:23-49 call_parser *)
Definition elbows_parser : parser := Parser [region_arg; Pos "clustering_suite" (AChoice (map fst kmedoids_suites))] [log_opt].
(** clustering/medoid_distances.py:21-46 processRequest *)
Definition medoid_distances_parser : parser :=
  Parser [region_arg; Pos "clustering" (AChoice clustering_options); Pos "clustering_suite" (AChoice suite_options)] [free_log_opt].
(** region/distance.py:20-42, region/centroid.py:16-31 processRequest *)
Definition distance_parser : parser := Parser [region_arg; Pos "distance" (AChoice ["dtw"])] [parallel_opt; plots_opt; free_log_opt].
Definition centroid_parser : parser := Parser [region_arg] [free_log_opt].

(* ------------------------------------------------------------------ what the programs do with it *)

(** clustering/partition_analysis.py:73-75: parser.error if 'random' in vars(args) and 'variance' not in vars(args) *)
Definition has_attr (ns : namespace) (dest : string) : bool := match get ns dest with Some _ => true | None => false end.
Definition partition_main (argv : list string) : outcome :=
  match parse_args partition_parser argv with
  | Parsed ns => if (has_attr ns "random" && negb (has_attr ns "variance"))%bool then Usage else Parsed ns
  | o => o
  end.

(** the subcommands of the three solver programs: auto_arima/solver.py:37-76, baseline/solver_mean_past.py:38-76,
    baseline/solver_knn_medoids.py:36-74 processRequest.  The main parser has no options but -h and hands everything after the
    subcommand to its parser; without arguments the exit status is 1. *)
Inductive subcommand := TrainCommand | PredictCommand.
Inductive solver_outcome := SUsage | SHelp | SExit1 | SNoFunc | SParsed (c : subcommand) (ns : namespace).
Definition main_parser : parser := Parser [] [].
Definition sub_outcome (c : subcommand) (extras : bool) (o : outcome) : solver_outcome :=
  match o with Usage => SUsage | HelpShown => SHelp | Parsed ns => if extras then SUsage else SParsed c ns end.
Fixpoint solver_subcommand (train : parser) (argv : list string) (extras : bool) : solver_outcome :=
  match argv with
  | [] => if extras then SUsage else SNoFunc
  | s :: rest =>
      match classify main_parser s with
      | None => SUsage
      | Some (Known _ None) => SHelp
      | Some (Known _ (Some _)) => SUsage
      | Some Unknown => solver_subcommand train rest true
      | Some (Arg _) =>
          if (s =? "train")%string then sub_outcome TrainCommand extras (parse_args train rest)
          else if (s =? "predict")%string then sub_outcome PredictCommand extras (parse_args (predict_parser train) rest)
          else SUsage
      end
  end.
Definition solver_main (train : parser) (argv : list string) : solver_outcome :=
  match argv with [] => SExit1 | _ => solver_subcommand train argv false end.

(** the options that the requests of Model/Programs.v start from; [test] is the name of the option for the test samples: tp or test *)
Definition str_of (ns : namespace) (dest : string) : string := match get ns dest with Some (VStr s) => s | _ => "" end.
Definition int_of (ns : namespace) (dest : string) : Z := match get ns dest with Some (VInt n) => n | _ => 0%Z end.
Definition opt_str_of (ns : namespace) (dest : string) : option string := match get ns dest with Some (VStr s) => Some s | _ => None end.
Definition flag_of (ns : namespace) (dest : string) : bool := match get ns dest with Some (VBool b) => b | _ => false end.
Definition solver_args_of (test : string) (ns : namespace) : solver_args :=
  SArgs (str_of ns "region") (str_of ns "clustering") (int_of ns "k") (int_of ns "seed") (int_of ns test) (str_of ns "error").

(** util/log.py:32-48, 50-63 setup_log and setup_log_argparse: the level; [other] is what the attribute of the logging module with another name gives
    when it is used as a level *)
Definition setup_log (other : string -> res Z) (level : string) : res Z :=
  match find (fun f => (fst f =? level)%string) [("DEBUG", 10%Z); ("INFO", 20%Z); ("WARN", 30%Z)] with
  | Some (_, n) => Ok n
  | None => other level
  end.
Definition setup_log_argparse (other : string -> res Z) (ns : namespace) : res Z :=
  match get ns "log" with
  | Some (VStr s) => if (s =? "")%string then setup_log other "INFO" else setup_log other s
  | _ => setup_log other "INFO"
  end.

(** the files of experiments/ with the parser of each (of train and predict for the solvers) *)
Definition programs : list (string * parser) :=
  [ ("auto_arima/solver.py train", solver_train_parser); ("auto_arima/solver.py predict", predict_parser solver_train_parser);
    ("baseline/solver_mean_past.py train", mean_past_train_parser); ("baseline/solver_mean_past.py predict", predict_parser mean_past_train_parser);
    ("baseline/solver_knn_medoids.py train", knn_train_parser); ("baseline/solver_knn_medoids.py predict", predict_parser knn_train_parser);
    ("baseline/solver_knn_each.py", knn_each_parser); ("auto_arima/solver_each.py", auto_arima_each_parser); ("classifier/solver_dnn.py", dnn_parser);
    ("auto_arima/distance_errors.py", distance_errors_parser); ("auto_arima/error_between_medoids.py", error_between_parser);
    ("arima/training_error_analysis.py", arima_errors_parser); ("auto_arima/training_error_analysis.py", auto_arima_errors_parser);
    ("arima/forecast.py", arima_forecast_parser); ("clustering/extraction_lstm.py", extraction_parser); ("clustering/silhouette.py", silhouette_parser);
    ("clustering/partition_analysis.py", partition_parser); ("clustering/find_elbows.py", elbows_parser);
    ("clustering/medoid_distances.py", medoid_distances_parser); ("region/distance.py", distance_parser); ("region/centroid.py", centroid_parser) ].
