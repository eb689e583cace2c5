(** spta/region: saving regions in numpy files and in pickles.  Here a region carries its metadata: every object has its own
    attribute region_metadata (temporal.py:24, 229), None or the metadata it was given.  The operations are those of Model/Region.v,
    Model/Scaling.v and Model/Dataset.v with the attribute added.
    pickle.dump followed by pickle.load gives an equal object, np.save followed by np.load the same array; directories can be
    created and written (spta/util/fs.py:4-12 mkdir ignores its errors).  Numpy files and pickles are kept apart. *)
From Coq Require Import String.
From Verif Require Import Base.Py Base.Arr Base.Str Base.Float Model.Region Model.Scaling Model.Clustering Model.Dataset.
Local Open Scope string_scope.

(** SpatioTemporalRegion (temporal.py:17-28), SpatioTemporalCluster (temporal.py:290-320) and SpatioTemporalScaled
    (scaling.py:88-118), each with its region_metadata *)
Inductive mregion :=
| MPlain (data : arr3 fnum) (md : option rmeta)
| MCluster (decorated : mregion) (p : crisp) (cluster_index : Z) (md : option rmeta)
| MScaled (decorated : mregion) (scale_min scale_max : sregion fnum) (md : option rmeta).

(** the attribute region_metadata *)
Definition m_md (r : mregion) : option rmeta :=
  match r with MPlain _ md => md | MCluster _ _ _ md => md | MScaled _ _ _ md => md end.

(** the region of Model/Region.v *)
Fixpoint erase (r : mregion) : stregion fnum :=
  match r with
  | MPlain d _ => TPlain d
  | MCluster r' p i _ => TCluster (erase r') p i
  | MScaled r' mn mx _ => TScaled (erase r') mn mx
  end.

(** new_spatio_temporal_region: spatial.py:24-30 (no metadata), temporal.py:322-334 and scaling.py:120-132 (keep their own) *)
Fixpoint m_new_st (r : mregion) (d : arr3 fnum) : mregion :=
  match r with
  | MPlain _ _ => MPlain d None
  | MCluster r' p i md => MCluster (m_new_st r' d) p i md
  | MScaled r' mn mx md => MScaled (m_new_st r' d) mn mx md
  end.

(** region_subset: temporal.py:60-65 (plain), 336-338 (cluster), scaling.py:134-151 (scaled: the new object gets no metadata) *)
Fixpoint m_region_subset (r : mregion) (g : rect) : res mregion :=
  match r with
  | MPlain d _ => Ok (m_new_st r (slice3 d None (Some (x1 g, x2 g)) (Some (y1 g, y2 g))))
  | MCluster _ _ _ _ => Raise NotImplementedError
  | MScaled r' mn mx _ =>
      sub <- m_region_subset r' g ;;
      mn' <- s_region_subset mn g ;;
      mx' <- s_region_subset mx g ;;
      Ok (MScaled sub mn' mx' None)
  end.

(** interval_subset: temporal.py:67-72 (plain and scaled), 340-355 (cluster: its metadata is dropped) *)
Fixpoint m_interval_subset (r : mregion) (ti : interval) : mregion :=
  match r with
  | MPlain d _ => m_new_st r (slice3 d (Some (t1 ti, t2 ti)) None None)
  | MScaled _ _ _ _ => m_new_st r (slice3 (t_data (erase r)) (Some (t1 ti, t2 ti)) None None)
  | MCluster r' p i _ =>
      MCluster (m_new_st r' (t_data (erase (m_interval_subset r' ti)))) p i None
  end.

(** partition.py:146-157 create_spt_cluster: the cluster gets the metadata of the region *)
Definition m_create_spt_cluster (p : crisp) (r : mregion) (i : Z) : res mregion :=
  _ <- py_assert (a2x (labels p) =? t_x (erase r))%nat ;;
  _ <- py_assert (a2y (labels p) =? t_y (erase r))%nat ;;
  Ok (MCluster r p i (m_md r)).

(** scaling.py:56-85 ScaleFunction.apply_to: the scaled region gets the metadata; the region that it decorates is made by
    new_spatio_temporal_region (function.py, spatial.py:67-103) *)
Definition m_scale_apply_to (x_len y_len : nat) (r : mregion) (output_len : nat) : res mregion :=
  _ <- py_assert (t_len (erase r) =? output_len)%nat ;;
  scale_min <- t_apply_scalar (Fin 0) (fregion_same nanmin (t_x (erase r)) (t_y (erase r))) (erase r) ;;
  scale_max <- t_apply_scalar (Fin 0) (fregion_same nanmax (t_x (erase r)) (t_y (erase r))) (erase r) ;;
  region <- t_apply_series (Fin 0) (scale_function x_len y_len (t_len (erase r)) scale_min scale_max) (erase r) output_len ;;
  Ok (MScaled (m_new_st r (t_data region)) scale_min scale_max (m_md r)).

(** descale: temporal.py:152-158 (plain), 266-283 (cluster), scaling.py:159-200 (scaled) *)
Fixpoint m_descale (r : mregion) : res mregion :=
  match r with
  | MPlain _ _ => Raise NotImplementedError
  | MCluster r' _ _ _ =>
      descaled <- m_descale r' ;;
      Ok (m_new_st r (t_data (erase descaled)))
  | MScaled r' mn mx _ =>
      descaled <- t_apply_series (Fin 0) (descale_function (t_x (erase r)) (t_y (erase r)) mn mx) (erase r) (t_len (erase r)) ;;
      Ok (m_new_st r' (t_data descaled))
  end.

(** region/metadata.py:137-166 create_instance *)
Definition m_create_instance (garbage : fnum) (fs : dfs) (m : rmeta) : dfs * res mregion :=
  if negb ((rm_spd m =? 1) || (rm_spd m =? 4))%Z%bool then (fs, Raise AssertionError)
  else
    let '(fs, numpy_dataset) := retrieve_dataset_interval garbage fs (rm_start m) (rm_end m) (rm_spd m) DATASET_NAME in
    (fs, numpy_dataset <- numpy_dataset ;;
         let g := rm_region m in
         let spt_region := MPlain (slice3 numpy_dataset None (Some (x1 g, x2 g)) (Some (y1 g, y2 g))) (Some m) in
         if rm_scaled m then m_scale_apply_to (t_x (erase spt_region)) (t_y (erase spt_region)) spt_region (t_len (erase spt_region))
         else Ok spt_region).

(** numpy files, and pickles of regions *)
Record rfiles := RFiles { rf_data : dfs; rf_pickles : string -> option mregion }.

(** save: temporal.py:121-130 with base.py:60-66 (plain region), temporal.py:256-257 (cluster: the decorated region is saved),
    scaling.py:202-219 (scaled: l.212 reads scale_min_filename, but the property is called scaled_min_filename, metadata.py:81) *)
Fixpoint save (fs : dfs) (r : mregion) : dfs * res unit :=
  match r with
  | MPlain d None => (fs, Raise ValueError)
  | MPlain d (Some m) => (dfs_put fs (dataset_filename m) (Some (Npy d)), Ok tt)
  | MCluster r' _ _ _ => save fs r'
  | MScaled r' _ _ _ =>
      match save fs r' with
      | (fs', Raise e) => (fs', Raise e)
      | (fs', Ok _) => (fs', Raise AttributeError)
      end
  end.

(** kmedoids/silhouette.py:158-160 __load_saved_spt_region; a file that np.load cannot read is no .npy file: ValueError *)
Definition load_saved (fs : dfs) (m : rmeta) : res mregion :=
  match fs (dataset_filename m) with
  | Some (Npy d) => Ok (MPlain d None)
  | Some _ => Raise ValueError
  | None => Raise IOError
  end.

(** metadata.py:180-185 pickle_filename *)
Definition pickle_filename (m : rmeta) (pickle_home : string) : string :=
  region_pickle_dir m pickle_home ++ "/" ++ rmeta_repr m ++ ".pickle".

(** temporal.py:132-144 pickle (no subclass overrides it) with base.py:68-74 *)
Definition pickle (fs : string -> option mregion) (r : mregion) (pickle_home : string) : (string -> option mregion) * res unit :=
  match m_md r with
  | None => (fs, Raise ValueError)
  | Some m => (fun q => if String.eqb q (pickle_filename m pickle_home) then Some r else fs q, Ok tt)
  end.

(** base.py:113-126 from_pickle *)
Definition from_pickle (fs : string -> option mregion) (filename : string) : res mregion :=
  match fs filename with Some r => Ok r | None => Raise IOError end.
