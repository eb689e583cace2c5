(** Vocabulary for saved regions. *)
From Coq Require Import String.
From Verif Require Import Base.Py Base.Arr Base.Float Model.Region Model.Clustering Model.SavedRegion.

(** [made r r']: the region [r'] is obtained from [r] by subsets, clusters, scaling, descaling and new data (the results of
    functions applied at each point, repeated series, ...), in any order and number *)
Inductive made (r : mregion) : mregion -> Prop :=
| made_self : made r r
| made_region_subset r1 r2 g : made r r1 -> m_region_subset r1 g = Ok r2 -> made r r2
| made_interval_subset r1 ti : made r r1 -> made r (m_interval_subset r1 ti)
| made_cluster r1 r2 p i : made r r1 -> m_create_spt_cluster p r1 i = Ok r2 -> made r r2
| made_scaled r1 r2 x y n : made r r1 -> m_scale_apply_to x y r1 n = Ok r2 -> made r r2
| made_descaled r1 r2 : made r r1 -> m_descale r1 = Ok r2 -> made r r2
| made_new r1 d : made r r1 -> made r (m_new_st r1 d).

(** the metadata of the region inside all clusters and scalings *)
Fixpoint innermost_md (r : mregion) : option rmeta :=
  match r with MPlain _ md => md | MCluster r' _ _ _ => innermost_md r' | MScaled r' _ _ _ => innermost_md r' end.
