(** experiments/clustering/find_elbows.py: the program that prints the elbow of a k-medoids suite for each seed, with
    clustering/suite.py FindSuiteElbow computing the partitions and their costs.

    The messages 'd^2/dk^2 (k=...)' that find_cost_elbow_given_order prints for each k, and what is printed before a failure,
    are left out.  Logging is left out. *)
From Coq Require Import String.
From Verif Require Import Base.Py Base.Dict Base.Arr Base.Str Base.Float Model.Region Model.Distance Model.KMedoids Model.Clustering Model.SolverFiles Model.Algorithms
  Model.Programs Model.Dnn Model.PartitionAnalysis.
Local Open Scope string_scope.
Local Notation length := List.length.

(** clustering/kmedoids.py:49-54 and clustering/regular.py:31-32 __str__ *)
Definition c_str (c : cmeta) : string :=
  match c with
  | CKmedoids m => "Kmedoids: k=" ++ str_int (km_k m) ++ " seed=" ++ str_int (km_seed m) ++ " mode=" ++ km_mode m
  | CRegular k => "Regular: k=" ++ str_int k
  end.

(** str() of a list of integers *)
Definition str_ints (l : list Z) : string := "[" ++ join ", " (map str_int l) ++ "]".

Section Elbows.
Context {M : Type}.
Context (choice : Z -> nat -> Z -> res (list Z)) (env : denv) (create_instance : rmeta -> res (stregion fnum)).

(** clustering/__init__.py:83-126 partition(spt_region, with_medoids=True, pickle_home='pickle') for the region of metadata [r];
    the state is the pickles and the distance measure *)
Definition partition_saved (st : fsys M * dobj) (c : cmeta) (r : rmeta) (spt : stregion fnum) : (fsys M * dobj) * res part :=
  let '(fs, o) := st in
  match try_load_previous_partition fs c "dtw" r "pickle" with
  | Some p => ((fs, o), Ok p)
  | None =>
      match clustering_impl choice env c (Some (dmeta_of r)) spt true o with
      | (Raise e, o') => ((fs, o'), Raise e)
      | (Ok p, o') => ((fs_put fs (pickle_full_path c r "dtw") (FPartition p), o'), Ok p)
      end
  end.

(** clustering/suite.py:293-313 get_all_partitions *)
Fixpoint get_all_partitions (st : fsys M * dobj) (r : rmeta) (spt : stregion fnum) (suite : list cmeta) (d : list (cmeta * part))
  : (fsys M * dobj) * res (list (cmeta * part)) :=
  match suite with
  | [] => (st, Ok d)
  | c :: rest =>
      match partition_saved st c r spt with
      | (st', Raise e) => (st', Raise e)
      | (st', Ok p) => get_all_partitions st' r spt rest (dict_set c_eqb c p d)
      end
  end.

(** clustering/suite.py:315-326 get_all_intra_cluster_costs; a partition without medoids has medoids None, which cannot be
    indexed.  The distance measure is the same for every call: what a call loads is loaded again from the same file. *)
Definition get_all_intra_cluster_costs (o : dobj) (r : rmeta) (spt : stregion fnum) (partitions : list (cmeta * part)) : res (list (cmeta * fnum)) :=
  foldM (fun d '(m, p) =>
           v <- match snd p with
                | Some medoids => intra_cluster_cost env (fst p) medoids spt (Some (dmeta_of r)) o
                | None => Raise TypeError
                end ;;
           Ok (dict_set c_eqb m v d))
        partitions [].

(** find_elbows.py:69-78: the lines for one seed *)
Definition elbow_lines (by_seed : list (Z * list cmeta)) (seed : Z) (elbow : cmeta) : res (list string) :=
  ordered <- dict_get Z.eqb seed by_seed ;;
  Ok ["****** Seed " ++ str_int seed ++ " ******"; "Values of k: " ++ str_ints (map c_k ordered); "Elbow found for k=" ++ c_str elbow].

(** find_elbows.py:52-94 analyze_suite and metadata_from_args *)
Definition find_elbows (fs : fsys M) (region suite_id : string) : (fsys M * dobj) * res (list string) :=
  let o := DObj PlainDTW None false in
  match (r <- region_by_name region ;; suite <- get_suite "kmedoids" suite_id ;; spt <- create_instance r ;; Ok (r, suite, spt)) with
  | Raise e => ((fs, o), Raise e)
  | Ok (r, suite, spt) =>
      match load_distance_matrix_2d env (distances_filename r) (rm_region r) o with
      | (Raise e, o') => ((fs, o'), Raise e)
      | (Ok _, o') =>
          match get_all_partitions (fs, o') r spt suite [] with
          | (st, Raise e) => (st, Raise e)
          | (st, Ok partitions) =>
              (st, costs <- get_all_intra_cluster_costs (snd st) r spt partitions ;;
                   elbows <- elbows_for_each_seed costs suite ;;
                   by_seed <- organize_kmedoids_suite suite ;;
                   lines <- mapM (fun '(seed, elbow) => elbow_lines by_seed seed elbow) elbows ;;
                   Ok (List.concat lines))
          end
      end
  end.
End Elbows.
