(** Facts about saved regions. *)
From Coq Require Import String Lia.
From Verif Require Import Base.Py Base.PyFacts Base.Arr Base.Str Base.Float Model.Region Model.Scaling Model.Clustering Model.Dataset Model.SavedRegion
  Spec.SavedRegion Proofs.DatasetFacts.

Definition rmap {A B} (f : A -> B) (x : res A) : res B := match x with Ok v => Ok (f v) | Raise e => Raise e end.

Lemma erase_new_st r d : erase (m_new_st r d) = t_new_st (erase r) d.
Proof. induction r; cbn; congruence. Qed.

Lemma new_st_data (r : stregion fnum) d : t_data (t_new_st r d) = d.
Proof. induction r; cbn; auto. Qed.

Lemma erase_region_subset r g : rmap erase (m_region_subset r g) = t_region_subset (erase r) g.
Proof.
  induction r as [ d md | r' IH p i md | r' IH mn mx md ]; cbn; auto. rewrite <- IH.
  destruct (m_region_subset r' g); cbn; auto. destruct (s_region_subset mn g); cbn; auto. destruct (s_region_subset mx g); reflexivity.
Qed.

Lemma erase_interval_subset r ti : erase (m_interval_subset r ti) = interval_subset (erase r) ti.
Proof.
  induction r as [ d md | r' IH p i md | r' IH mn mx md ]; cbn; auto.
  - rewrite erase_new_st, IH. reflexivity.
  - rewrite erase_new_st. reflexivity.
Qed.

Lemma erase_cluster p r i : rmap erase (m_create_spt_cluster p r i) = create_spt_cluster p (erase r) i.
Proof.
  unfold m_create_spt_cluster, create_spt_cluster. destruct (py_assert _); cbn; auto. destruct (py_assert _); reflexivity.
Qed.

Lemma apply_series_new zero f (r r' : stregion fnum) n : t_apply_series zero f r n = Ok r' -> r' = t_new_st r (t_data r').
Proof.
  unfold t_apply_series. destruct (py_assert _); cbn; [ | discriminate ]. destruct (py_assert _); cbn; [ | discriminate ].
  destruct (t_items r); cbn; [ | discriminate ]. destruct (foldM _ _ _); cbn; [ | discriminate ].
  intros [= <-]. rewrite new_st_data. reflexivity.
Qed.

Lemma erase_scale x y r n : rmap erase (m_scale_apply_to x y r n) = scale_apply_to x y (erase r) n.
Proof.
  unfold m_scale_apply_to, scale_apply_to. destruct (py_assert _); cbn [bind rmap]; auto.
  destruct (t_apply_scalar (Fin 0) (fregion_same nanmin _ _) _); cbn [bind rmap]; auto.
  destruct (t_apply_scalar (Fin 0) (fregion_same nanmax _ _) _); cbn [bind rmap]; auto.
  destruct (t_apply_series _ _ _ _) eqn:E; cbn [bind rmap]; auto. cbn [erase]. rewrite erase_new_st, <- (apply_series_new _ _ _ _ _ E). reflexivity.
Qed.

Lemma erase_descale r : rmap erase (m_descale r) = descale (erase r).
Proof.
  induction r as [ d md | r' IH p i md | r' IH mn mx md ]; cbn [m_descale erase descale]; auto.
  - rewrite <- IH. destruct (m_descale r'); cbn [bind rmap]; auto. rewrite erase_new_st. reflexivity.
  - destruct (t_apply_series _ _ _ _); cbn [bind rmap]; auto. rewrite erase_new_st. reflexivity.
Qed.

Lemma erase_create garbage fs m : fst (m_create_instance garbage fs m) = fst (create_instance garbage fs m) /\
  rmap erase (snd (m_create_instance garbage fs m)) = snd (create_instance garbage fs m).
Proof.
  unfold m_create_instance, create_instance. destruct (negb _); [ split; reflexivity | ].
  destruct (retrieve_dataset_interval _ _ _ _ _ _) as [ fs' [ d | e ] ]; cbn [fst snd bind rmap]; [ | split; reflexivity ].
  split; [ reflexivity | ]. cbn [t_region_subset bind]. destruct (rm_scaled m); [ rewrite erase_scale; reflexivity | reflexivity ].
Qed.

Lemma innermost_new r d : innermost_md (m_new_st r d) = None.
Proof. induction r; cbn; auto. Qed.

Lemma innermost_subset r g r' : m_region_subset r g = Ok r' -> innermost_md r' = None /\ m_md r' = None.
Proof.
  revert r'. induction r as [ d md | r IH p i md | r IH mn mx md ]; cbn; intros r' E; [ injection E as <-; auto | discriminate | ].
  destruct (m_region_subset r g); [ | discriminate ]. destruct (IH _ eq_refl) as [ E1 _ ].
  destruct (s_region_subset mn g); [ | discriminate ]. destruct (s_region_subset mx g); [ | discriminate ]. injection E as <-. auto.
Qed.

Lemma innermost_interval r ti : innermost_md (m_interval_subset r ti) = None.
Proof. destruct r as [ d md | r p i md | r mn mx md ]; cbn; [ reflexivity | apply innermost_new | apply innermost_new ]. Qed.

Lemma innermost_cluster p r i r' : m_create_spt_cluster p r i = Ok r' -> innermost_md r' = innermost_md r /\ m_md r' = m_md r /\ erase r' = TCluster (erase r) p i.
Proof.
  unfold m_create_spt_cluster. destruct (py_assert _); cbn; [ | discriminate ]. destruct (py_assert _); cbn; [ | discriminate ].
  intros [= <-]. auto.
Qed.

Lemma innermost_scale x y r n r' : m_scale_apply_to x y r n = Ok r' -> innermost_md r' = None /\ m_md r' = m_md r.
Proof.
  unfold m_scale_apply_to. destruct (py_assert _); cbn [bind]; [ | discriminate ].
  destruct (t_apply_scalar (Fin 0) (fregion_same nanmin _ _) _); cbn [bind]; [ | discriminate ].
  destruct (t_apply_scalar (Fin 0) (fregion_same nanmax _ _) _); cbn [bind]; [ | discriminate ].
  destruct (t_apply_series _ _ _ _); cbn [bind]; [ | discriminate ]. intros [= <-]. cbn. rewrite innermost_new. auto.
Qed.

Lemma innermost_descale r r' : m_descale r = Ok r' -> innermost_md r' = None.
Proof.
  destruct r as [ d md | r p i md | r mn mx md ]; cbn [m_descale]; [ discriminate | | ].
  - destruct (m_descale r); cbn; [ | discriminate ]. intros [= <-]. apply innermost_new.
  - destruct (t_apply_series _ _ _ _); cbn [bind]; [ | discriminate ]. intros [= <-]. apply innermost_new.
Qed.

(** what save does depends on the innermost region *)
Lemma save_none fs r : innermost_md r = None -> save fs r = (fs, Raise ValueError).
Proof. induction r as [ d md | r IH p i md | r IH mn mx md ]; cbn; intros E; [ rewrite E; reflexivity | auto | rewrite IH by exact E; reflexivity ]. Qed.

Lemma save_some fs r m : innermost_md r = Some m ->
  save fs r = (dfs_put fs (dataset_filename m) (Some (Npy (t_data (erase r)))), if has_scaling (erase r) then Raise AttributeError else Ok tt).
Proof.
  induction r as [ d md | r IH p i md | r IH mn mx md ]; cbn; intros E; [ rewrite E; reflexivity | auto | rewrite IH by exact E ].
  destruct (has_scaling (erase r)); reflexivity.
Qed.

(** from a region with innermost metadata, everything that still has it has the same data *)
Lemma made_innermost r r' : made r r' -> innermost_md r' = None \/ innermost_md r' = innermost_md r /\ t_data (erase r') = t_data (erase r).
Proof.
  intros H. induction H as [ | r1 r2 g H1 IH E | r1 ti H1 IH | r1 r2 p i H1 IH E | r1 r2 x y n H1 IH E | r1 r2 H1 IH E | r1 d H1 IH ].
  - right. auto.
  - left. eapply innermost_subset, E.
  - left. apply innermost_interval.
  - destruct (innermost_cluster _ _ _ _ E) as (Ei & _ & Ee). rewrite Ei, Ee. exact IH.
  - left. eapply innermost_scale, E.
  - left. eapply innermost_descale, E.
  - left. apply innermost_new.
Qed.
