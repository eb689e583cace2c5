(** Predictions with a classifier. *)
From Coq Require Import String Lia.
From Verif Require Import Base.Py Base.PyFacts Base.Arr Base.ArrFacts Base.Str Base.StrFacts Base.Dict Base.DictFacts Base.Float
  Model.Region Model.Scaling Model.Series Model.Errors Model.Models Model.Forecast Model.Clustering Model.Solver Model.SolverFiles Model.Results
  Model.Classifier Spec.Grid Spec.Rect Spec.Partition Spec.Regions Spec.Solver Spec.SolverFiles Spec.Results Spec.Classifier
  Proofs.RegionFacts Proofs.PartitionFacts Proofs.ProperFacts Proofs.SubsetFacts Proofs.ScalingFacts Proofs.SeriesFacts Proofs.ModelFacts
  Proofs.SolverFacts Proofs.ClusteringFacts Proofs.FilesFacts Proofs.ResultsFacts Props.SolverFiles.
From Coq Require Import ZifyBool ZifyNat.
Local Notation length := List.length.

(* ---------- training models, whatever the refitter does ---------- *)
Section Kind.
Context {P M : Type} (kind : model_kind P M).

Lemma solver_training_models : forall mp refit cluster d sc tl et s p medoids,
  qwf d sc -> tl <= a3t d -> cluster (qregion d sc) = Ok (p, medoids) ->
  valid_partition p (a3x d) (a3y d) -> medoids_of p (a3x d) (a3y d) medoids ->
  solver_train kind (full2 (a3x d) (a3y d) (Some mp)) refit cluster (qregion d sc) (Z.of_nat tl) et = Ok s ->
  so_partition s = p /\ so_medoids s = medoids /\
  holds_models (so_training s) (a3x d) (a3y d) (model_at (so_training s)) /\
  (forall pt med ms, in_grid (a3x d) (a3y d) pt -> represents p medoids pt med -> series3 d (fst med) (snd med) = Ok ms ->
     training_function kind mp (firstn (length ms - tl) ms) = Ok (model_at (so_training s) pt)).
Proof.
  intros mp refit cluster d sc tl et s p medoids Hq Htl Hcl Hv Hmed H.
  destruct (q_split d sc tl Hq Htl) as (d1 & d2 & Es & Hq1 & Hq2 & T1 & T2 & X1 & Y1 & X2 & Y2 & Ss).
  unfold solver_train in H. rewrite Es, Hcl in H. cbn [bind] in H.
  destruct (train_at_representatives _ _ _ _) as [ [ models n ] | ] eqn:Et; [ | discriminate ]. cbn [bind fst] in H.
  rewrite <- X1, <- Y1 in Et. destruct (train_medoids_spec kind mp d1 sc medoids models n Hq1 Et) as (Wm & Xm & Ym & Sm).
  rewrite X1 in *. rewrite Y1 in *.
  destruct (replicate_representative_models models p medoids) as [ R | ] eqn:ER; [ | discriminate ]. cbn [bind] in H.
  destruct (calculate_errors _ _ _ _ _) as [ E | ] eqn:Ee; [ | discriminate ]. cbn [bind] in H.
  destruct (refit models (qregion d sc)) as [ [ w k ] | ] eqn:Ew; [ | discriminate ]. cbn [bind fst] in H.
  destruct (replicate_representative_models w p medoids) as [ RW | ] eqn:ERW; [ | discriminate ]. cbn [bind] in H. injection H as <-.
  cbn [so_partition so_medoids so_training]. split; [ reflexivity | ]. split; [ reflexivity | ].
  destruct (replicated_models models R p (a3x d) (a3y d) medoids
             (fun med m => forall ms, series3 d (fst med) (snd med) = Ok ms -> training_function kind mp (firstn (length ms - tl) ms) = Ok m)
             Hv Hmed Wm Xm Ym) as [ HR SR ].
  { intros med G I. destruct (ser_ok d med (proj1 Hq) G) as (ms & E1 & _).
    destruct (Sm med (firstn (length ms - tl) ms) G I) as (m & E2 & E3); [ apply Ss; auto | ]. exists m. split; [ exact E3 | ].
    intros ms' E4. congruence. }
  { exact ER. }
  split; [ exact HR | ]. intros; eapply SR; eauto.
Qed.

(** errors of given forecasts *)
Lemma measure_q_spec : forall f d1 d2 sc et E,
  qwf d1 sc -> qwf d2 sc -> qwf f sc -> a3x d1 = a3x d2 -> a3y d1 = a3y d2 -> a3x f = a3x d2 -> a3y f = a3y d2 ->
  with_forecast_region (ErrorAnalysis (qregion d2 sc) (Some (qregion d1 sc)) None) (qregion f sc) et = Ok E ->
  exists e func, E = SPlain e /\ wf2 e /\ a2x e = a3x d2 /\ a2y e = a3y d2 /\ get_error_func et = Ok func /\
    forall pt s0 s1 s2, in_grid (a3x d2) (a3y d2) pt -> series3 f (fst pt) (snd pt) = Ok s0 ->
      series3 d1 (fst pt) (snd pt) = Ok s1 -> series3 d2 (fst pt) (snd pt) = Ok s2 ->
      exists f' s1' s2' v, shown sc pt s0 f' /\ shown sc pt s1 s1' /\ shown sc pt s2 s2' /\
        func f' s2' (Some s1') = Ok v /\ get2 e (fst pt) (snd pt) = Ok v.
Proof.
  intros m d1 d2 sc et E Hq1 Hq2 Hqm X Y Xf Yf H. unfold with_forecast_region in H.
  destruct (get_error_func et) as [ func | ] eqn:Ef; [ | discriminate ]. cbn [bind ea_obs ea_train] in H.
  destruct (q_descale _ _ Hqm) as (R & mm & ER & -> & Wmm & Tmm & Xmm & Ymm & Smm).
  destruct (q_descale _ _ Hq1) as (R1 & m1 & ER1 & -> & W1 & T1 & X1 & Y1 & S1).
  destruct (q_descale _ _ Hq2) as (R2 & m2 & ER2 & -> & W2 & T2 & X2 & Y2 & S2).
  assert (Eme : mk_measure_error func (qregion d2 sc) (Some (qregion d1 sc)) = Ok (MeasureError func (TPlain m2) (Some (TPlain m1)) (a3x d2) (a3y d2))).
  { unfold mk_measure_error. rewrite q_x, q_y. rewrite !q_scaling in *. destruct sc as [ [ ? ? ] | ].
    - rewrite ER2. cbn [bind]. rewrite ER1. reflexivity.
    - cbn [qregion] in *. congruence. }
  rewrite Eme in H. cbn [bind] in H. unfold measure_apply_to in H. rewrite ER in H. cbn [bind] in H.
  destruct (apply_shape _ _ _ _ H) as [ Sx Sy ].
  assert (Hpm : proper_st (TPlain mm)) by (constructor; exact Wmm).
  destruct (apply_cases (Fin 0) _ _ _ Hpm (proper_items _ Hpm) Sx Sy) as [ (e & Ee & We & Xe & Ye & Hin & _) | (? & ? & ? & _ & _ & Ee) ]; [ | congruence ].
  rewrite Ee in H. injection H as <-. unfold t_x, t_y in *. cbn [t_data t_new_spatial] in *.
  exists e, func. do 5 (split; [ congruence | ]).
  intros pt f s1 s2 Hg Sf Es1 Es2.
  destruct (Smm pt f) as (f' & Ef' & Hsf & _); [ rewrite Xf, Yf; exact Hg | exact Sf | ].
  destruct (S1 pt s1) as (s1' & Es1' & Hs1 & _); [ rewrite X, Y; exact Hg | exact Es1 | ].
  destruct (S2 pt s2 Hg Es2) as (s2' & Es2' & Hs2 & _).
  destruct (Hin pt f') as (v & Ev & Egv).
  { apply in_map_iff. exists pt. split; [ | apply filter_In; split; [ apply in_grid_iff; rewrite Xmm, Xf, Ymm, Yf; exact Hg | reflexivity ] ].
    f_equal. apply (q_ser mm None). exact Ef'. }
  cbn [measure_function f_at me_obs me_train series_at] in Ev. rewrite Es2', Es1' in Ev. cbn [bind me_func] in Ev.
  exists f', s1', s2', v. auto 10.
Qed.

(** forecasts of given models *)
Lemma apply_models_spec : forall models mo (e : arr2 fnum) len F x y,
  forecasts_fit kind -> holds_models models x y mo -> wf2 e -> a2x e = x -> a2y e = y ->
  model_apply_to kind models (SPlain e) len = Ok F ->
  exists m, F = TPlain m /\ wf3 m /\ a3t m = len /\ a3x m = x /\ a3y m = y /\
    forall pt, in_grid x y pt -> exists f, forecast_by kind (mo pt) len = Ok f /\ series3 m (fst pt) (snd pt) = Ok f.
Proof.
  intros models mo e len F x y Hfit (Wm & Xm & Ym & Hm) We Xe Ye H. unfold model_apply_to in H.
  revert Xm Ym Hm. rewrite <- Xe, <- Ye. intros Xm Ym Hm.
  destruct (s_apply_series_inv _ _ _ _ _ We H) as (_ & _ & Hinv).
  assert (Hfc : forall pt, in_grid (a2x e) (a2y e) pt -> exists f, forecast_by kind (mo pt) len = Ok f).
  { intros pt Hp. destruct (Hinv pt Hp) as (v & fn & w & _ & E1 & E2). cbn [model_function f_at] in E1. rewrite (Hm pt Hp) in E1. cbn [bind] in E1.
    injection E1 as <-. rewrite forecast_cell in E2. eauto. }
  set (gg := fun (pt : point) (_ : fnum) => match forecast_by kind (mo pt) len with Ok f => f | Raise _ => [] end).
  destruct (s_apply_series_spec (Fin 0) (model_function kind models len) (SPlain e) gg len NaN) as (m & EF & W & T & Xf & Yf & S).
  { exact We. } { apply s_plain_consistent. }
  { cbn [model_function f_x]. unfold s_x. cbn [s_data]. lia. } { cbn [model_function f_y]. unfold s_y. cbn [s_data]. lia. }
  { unfold s_x, s_y. cbn [s_data]. intros pt Hp _. cbn [model_function f_at]. rewrite (Hm pt Hp). cbn [bind]. eexists. split; [ reflexivity | ].
    rewrite forecast_cell. unfold gg. destruct (Hfc pt Hp) as [ f Hf ]. rewrite Hf. split; [ reflexivity | ]. eapply forecast_by_length; eauto. }
  unfold s_x, s_y in *. cbn [s_data s_new_st s_memb] in *. rewrite EF in H. injection H as <-.
  exists m. do 5 (split; [ auto | ]). intros pt Hp. destruct (Hfc pt Hp) as [ f Hf ]. exists f. split; [ exact Hf | ].
  rewrite (S pt Hp). unfold gg. rewrite Hf. reflexivity.
Qed.
End Kind.

(** descaling a region that is scaled twice over *)
Lemma descale_again : forall f d sc, qwf f sc -> qwf d sc -> a3x f = a3x d -> a3y f = a3y d ->
  exists m, (if match sc with None => false | Some _ => true end then descale_subregion (qregion f sc) (qregion d sc) else Ok (qregion f sc)) = Ok (qregion m sc) /\
    wf3 m /\ a3t m = a3t f /\ a3x m = a3x f /\ a3y m = a3y f /\
    forall pt s, in_grid (a3x f) (a3y f) pt -> series3 f (fst pt) (snd pt) = Ok s -> exists t, series3 m (fst pt) (snd pt) = Ok t /\ shown sc pt s t.
Proof.
  intros f d [ [ mn mx ] | ] Hf Hd X Y; cbn [descale_subregion qregion].
  - pose proof (q_proper f _ Hf) as Hp. cbn [qregion] in Hp. destruct Hf as [ W (W1 & X1 & Y1 & W2 & X2 & Y2) ].
    destruct (descale_scaled_spec (TScaled (TPlain f) (SPlain mn) (SPlain mx)) (SPlain mn) (SPlain mx) (s_val (SPlain mn) NaN) (s_val (SPlain mx) NaN))
      as (m & E & Wm & T & Xm & Ym & S).
    + apply proper_twf, Hp.
    + apply proper_consistent, Hp.
    + intros pt Hg _. unfold t_x, t_y in Hg. cbn [t_data value_at] in *. split.
      * apply (get2_s_val (SPlain mn) NaN pt W1). unfold s_x, s_y. cbn [s_data]. rewrite X1, Y1. exact Hg.
      * apply (get2_s_val (SPlain mx) NaN pt W2). unfold s_x, s_y. cbn [s_data]. rewrite X2, Y2. exact Hg.
    + exists m. split; [ exact E | ]. unfold t_len, t_x, t_y in *. cbn [t_data] in *. do 4 (split; [ auto | ]).
      intros pt s Hg Es. eexists. split; [ rewrite (S pt Hg); cbn [t_memb]; reflexivity | ].
      exists (s_val (SPlain mn) NaN pt), (s_val (SPlain mx) NaN pt).
      assert (Et : t_ser (TScaled (TPlain f) (SPlain mn) (SPlain mx)) pt = s) by (apply (q_ser f (Some (mn, mx))); exact Es).
      split; [ | split; [ | unfold descale_series; rewrite Et; reflexivity ] ].
      * apply (get2_s_val (SPlain mn) NaN pt W1). unfold s_x, s_y. cbn [s_data]. rewrite X1, Y1. exact Hg.
      * apply (get2_s_val (SPlain mx) NaN pt W2). unfold s_x, s_y. cbn [s_data]. rewrite X2, Y2. exact Hg.
  - exists f. destruct Hf as [ W _ ]. do 5 (split; [ auto | ]). intros pt s _ Es. exists s. split; [ exact Es | reflexivity ].
Qed.

(* ---------- labels ---------- *)
Lemma subset_series : forall (d : arr3 fnum) g tp, wf3 d -> rect_in g (a3x d) (a3y d) -> (0 <= tp <= Z.of_nat (a3t d))%Z ->
  let m := slice3 d (Some ((Z.of_nat (a3t d) - tp)%Z, Z.of_nat (a3t d))) (Some (x1 g, x2 g)) (Some (y1 g, y2 g)) in
  wf3 m /\ a3x m = width g /\ a3y m = height g /\
  forall pt w, in_grid (width g) (height g) pt -> series3 d (fst (in_domain g pt)) (snd (in_domain g pt)) = Ok w ->
    series3 m (fst pt) (snd pt) = Ok (skipn (length w - Z.to_nat tp) w).
Proof.
  intros d g tp W (H1 & H2 & H3 & H4) Ht m.
  destruct (slice3_spec d (Some ((Z.of_nat (a3t d) - tp)%Z, Z.of_nat (a3t d))) (Some (x1 g, x2 g)) (Some (y1 g, y2 g))) as (Wm & T & X & Y & S);
    auto; try (cbn [sok]; lia).
  fold m in Wm, T, X, Y, S. cbn [srng fst snd] in T, X, Y, S.
  assert (X' : a3x m = width g) by (unfold width; lia). assert (Y' : a3y m = height g) by (unfold height; lia).
  do 3 (split; [ assumption | ]). intros pt w [ Px Py ] Ew.
  destruct (series3_ok m (fst pt) (snd pt) Wm) as (s & Es & Ls & Ss); [ rewrite X'; exact Px | rewrite Y'; exact Py | ].
  assert (Dx : (0 <= fst (in_domain g pt) < Z.of_nat (a3x d))%Z) by (unfold in_domain, width in *; cbn [fst]; lia).
  assert (Dy : (0 <= snd (in_domain g pt) < Z.of_nat (a3y d))%Z) by (unfold in_domain, height in *; cbn [snd]; lia).
  destruct (series3_ok d _ _ W Dx Dy) as (w' & Ew' & Lw & Sw). assert (w' = w) by congruence. subst w'.
  rewrite Es. f_equal. apply list_ext_len; [ rewrite skipn_length; lia | ]. intros n Hn. rewrite nth_error_skipn.
  rewrite Ss, S, Sw by lia. unfold in_domain; cbn [fst snd]. f_equal; lia.
Qed.

Lemma q_subset_items : forall d sc g tp, qwf d sc -> rect_in g (a3x d) (a3y d) -> (0 <= tp <= Z.of_nat (a3t d))%Z ->
  exists items, t_items (subset (qregion d sc) g (Interval (Z.of_nat (a3t d) - tp) (Z.of_nat (a3t d)))) = Ok items /\
    map fst items = grid (width g) (height g) /\
    forall pt s, In (pt, s) items -> exists w, series3 d (fst (in_domain g pt)) (snd (in_domain g pt)) = Ok w /\ s = skipn (length w - Z.to_nat tp) w.
Proof.
  intros d sc g tp [ W _ ] Hg Ht. unfold subset. rewrite q_data, q_new_st. cbn [t1 t2].
  destruct (subset_series d g tp W Hg Ht) as (Wm & X & Y & S). set (m := slice3 d _ _ _) in *.
  assert (E : t_items (qregion m sc) = t_items (TPlain m)) by (destruct sc as [ [ mn mx ] | ]; reflexivity).
  rewrite E, (proper_items (TPlain m)) by (constructor; exact Wm). eexists. split; [ reflexivity | ]. unfold t_x, t_y. cbn [t_data].
  rewrite X, Y, filter_all by reflexivity. rewrite map_map. cbn [fst]. rewrite map_id. split; [ reflexivity | ].
  intros pt s Hin. apply in_map_iff in Hin. destruct Hin as (pt' & [= -> <-] & Hp). apply in_grid_iff in Hp.
  destruct (ser_ok d (in_domain g pt) W) as (w & Ew & _); [ eapply in_domain_grid; [ exact Hg | exact Hp ] | ].
  exists w. split; [ exact Ew | ]. unfold t_ser. cbn [t_data]. rewrite (S pt w Hp Ew). reflexivity.
Qed.

Lemma labels_fold : forall (classify : list fnum -> res string) items acc labels,
  NoDup (map fst acc ++ map fst items) ->
  foldM (fun d '(pt, s) => l <- classify s ;; Ok (dict_set point_eqb pt l d)) items acc = Ok labels ->
  exists added, labels = acc ++ added /\ Forall2 (fun a b => fst b = fst a /\ classify (snd a) = Ok (snd b)) items added.
Proof.
  intros classify items. induction items as [ | [ pt s ] items IH ]; intros acc labels Hn H; cbn [foldM] in H.
  - injection H as <-. exists []. rewrite app_nil_r. auto.
  - destruct (classify s) as [ l | ] eqn:El; [ | discriminate ]. cbn [bind] in H.
    rewrite dict_set_fresh in H.
    + apply IH in H; [ destruct H as (added & -> & F) | rewrite map_app; cbn [map fst]; rewrite <- app_assoc; exact Hn ].
      exists ((pt, l) :: added). rewrite <- app_assoc. split; [ reflexivity | ]. constructor; auto.
    + cbn [map fst] in Hn. apply NoDup_remove_2 in Hn. apply not_true_is_false. intros E. apply Hn. apply in_or_app. left.
      unfold dict_in in E. apply existsb_exists in E. destruct E as (kv & Hk & E). apply pt_eqb_eq in E. subst pt. apply in_map, Hk.
Qed.

Lemma labels_spec : forall classify d sc g tp labels, qwf d sc -> rect_in g (a3x d) (a3y d) -> (0 <= tp <= Z.of_nat (a3t d))%Z ->
  get_labels_from_classifier classify (qregion d sc) g tp = Ok labels ->
  map fst labels = grid (width g) (height g) /\
  forall pt l, In (pt, l) labels -> exists w, series3 d (fst (in_domain g pt)) (snd (in_domain g pt)) = Ok w /\
    classify (skipn (length w - Z.to_nat tp) w) = Ok l.
Proof.
  intros classify d sc g tp labels Hq Hg Ht H. unfold get_labels_from_classifier in H. rewrite q_len in H.
  destruct (q_subset_items d sc g tp Hq Hg Ht) as (items & E & Eg & S). rewrite E in H. cbn [bind] in H.
  apply labels_fold in H; [ | cbn [map app]; rewrite Eg; apply grid_nodup ]. destruct H as (added & -> & F). cbn [app]. rewrite <- Eg.
  clear - F S. induction F as [ | [ pt s ] [ pt' l ] items added [ E1 E2 ] F IH ]; cbn [map fst snd] in *.
  - split; [ reflexivity | intros ? ? [] ].
  - subst pt'. destruct IH as [ A B ]; [ intros; apply S; right; assumption | ]. split; [ f_equal; exact A | ].
    intros pt1 l1 [ [= <- <-] | Hin ]; [ | apply B, Hin ]. destruct (S pt s) as (w & Ew & ->); [ left; reflexivity | ]. eauto.
Qed.

(* ---------- names ---------- *)
Lemma key_repr_inj : forall cfg k seed k' seed', key_repr (key_of cfg k seed) = key_repr (key_of cfg k' seed') -> k = k' /\ seed = seed'.
Proof.
  intros cfg k seed k' seed' H. unfold key_repr, clustering_solver_repr in H. cbn [key_of meta_of sm_region sm_params sm_error k_region k_params k_error k_clustering k_dist] in H.
  apply sapp_inj_l in H. apply (sapp_inj_l "__") in H. apply sapp_inj_r in H.
  apply c_repr_inj in H.
  - destruct H as (_ & Hk & Hs & _). cbn in Hk, Hs. injection Hs as Hs. auto.
  - intros m [ [= <-] | [= <-] ]; (split; [ reflexivity | cbn; discriminate ]).
Qed.


Lemma key_for_classifier_label : forall cfg k seed i, (0 <= k)%Z -> (0 <= seed)%Z -> (0 <= i)%Z ->
  key_for_label cfg (classifier_label k seed i) = Ok (key_of cfg k seed).
Proof. intros cfg k seed i Hk Hs Hi. unfold key_for_label. rewrite label_round_trip by auto. reflexivity. Qed.

Lemma string_key : key_equiv String.eqb.
Proof.
  split; [ | split ].
  - apply String.eqb_refl.
  - apply String.eqb_sym.
  - intros a b c. rewrite !String.eqb_eq. congruence.
Qed.

(* ---------- the models of a query ---------- *)
Section Models.
Context {P M : Type} (kind : model_kind P M) (junk : fnum) (cfg : cconfig).
Context (classify : list fnum -> res string) (home : stregion fnum) (impl : skey -> bool -> res part).

Definition loaded (s : solver M) : loaded_solver M :=
  LSolver (so_partition s, Some (so_medoids s)) (so_training s) (so_whole s) (so_errors s).

Context (fs : fsys M).
(** a label that names a stored solver *)
Definition known (l : string) : Prop :=
  exists k seed i s, (0 <= k)%Z /\ (0 <= seed)%Z /\ (0 <= i)%Z /\ l = classifier_label k seed i /\ stored fs (key_of cfg k seed) s.
(** what holds of the object between queries *)
Definition sound (st : cstate M) : Prop :=
  cs_files st = fs /\
  forall k seed s L, stored fs (key_of cfg k seed) s -> dict_get String.eqb (key_repr (key_of cfg k seed)) (cs_solvers st) = Ok L -> L = loaded s.

Definition same_regions (st st' : cstate M) : Prop :=
  cs_classifier st' = cs_classifier st /\ cs_region st' = cs_region st /\ cs_target st' = cs_target st.

Lemma load_stored key s : stored fs key s -> load_solver fs key (impl key) = (fs, Ok (loaded s)).
Proof using. intros (H1 & H2 & H3 & H4). apply load_solver_ok; auto. Qed.
Lemma stored_unique key s s' : stored fs key s -> stored fs key s' -> s = s'.
Proof using.
  intros (H1 & H2 & H3 & H4) (H1' & H2' & H3' & H4'). destruct s, s'. cbn in *. congruence.
Qed.

Lemma retrieve_known k seed s st : stored fs (key_of cfg k seed) s -> sound st ->
  exists st', retrieve_solver impl (key_of cfg k seed) st = (st', Ok (loaded s)) /\ sound st' /\ same_regions st st'.
Proof using.
  intros Hs [ Hf Hc ]. unfold retrieve_solver.
  destruct (dict_get String.eqb (key_repr (key_of cfg k seed)) (cs_solvers st)) as [ L | ] eqn:E.
  - exists st. rewrite (Hc _ _ _ _ Hs E). split; [ reflexivity | ]. split; [ split; assumption | repeat split ].
  - rewrite Hf, (load_stored _ _ Hs). cbn [loaded ls_partition snd]. eexists. split; [ reflexivity | ]. split; [ | repeat split ].
    split; [ reflexivity | ]. intros k' seed' s' L Hs' HL. cbn [cs_solvers] in HL. rewrite (dict_get_set _ string_key) in HL.
    destruct (String.eqb (key_repr (key_of cfg k seed)) (key_repr (key_of cfg k' seed'))) eqn:Ek.
    + apply String.eqb_eq in Ek. apply key_repr_inj in Ek. destruct Ek as [ <- <- ]. rewrite (stored_unique _ _ _ Hs' Hs). congruence.
    + eapply Hc; eauto.
Qed.

Lemma model_for_known s k seed i : (0 <= k)%Z -> (0 <= seed)%Z -> (0 <= i)%Z ->
  model_for_label (loaded s) (classifier_label k seed i) = (medoid <- getitem (so_medoids s) i ;; get2 (so_training s) (fst medoid) (snd medoid)).
Proof using.
  intros Hk Hs Hi. unfold model_for_label. rewrite label_split by auto. change 2%Z with (Z.of_nat 2). rewrite getitem_cons_nat. cbn [nth_error bind].
  rewrite py_int_str. reflexivity.
Qed.

Lemma models_known : forall labels st, (forall pt l, In (pt, l) labels -> known l) -> sound st ->
  exists st' r, models_by_point cfg impl labels st = (st', r) /\ sound st' /\ same_regions st st' /\
    forall models, r = Ok models ->
      Forall2 (fun a b => fst b = fst a /\ forall k seed i s, (0 <= k)%Z -> (0 <= seed)%Z -> (0 <= i)%Z -> snd a = classifier_label k seed i ->
                 stored fs (key_of cfg k seed) s ->
                 exists medoid, nth_error (so_medoids s) (Z.to_nat i) = Some medoid /\ get2 (so_training s) (fst medoid) (snd medoid) = Ok (snd b))
              labels models.
Proof using.
  intros labels. induction labels as [ | [ pt l ] labels IH ]; intros st Hk Hs; cbn [models_by_point].
  - exists st, (Ok []). split; [ reflexivity | ]. split; [ exact Hs | ]. split; [ repeat split | ]. intros models [= <-]. constructor.
  - destruct (Hk pt l (or_introl eq_refl)) as (k & seed & i & s & K1 & K2 & K3 & -> & K4).
    rewrite key_for_classifier_label by auto. destruct (retrieve_known k seed s st K4 Hs) as (st1 & E1 & Hs1 & R1). rewrite E1.
    rewrite model_for_known by auto. destruct (getitem (so_medoids s) i) as [ medoid | e ] eqn:Em; cbn [bind].
    2:{ exists st1, (Raise e). split; [ reflexivity | ]. do 2 (split; [ assumption | ]). discriminate. }
    destruct (get2 (so_training s) (fst medoid) (snd medoid)) as [ m | e ] eqn:Eg.
    2:{ exists st1, (Raise e). split; [ reflexivity | ]. do 2 (split; [ assumption | ]). discriminate. }
    destruct (IH st1) as (st2 & r & E2 & Hs2 & R2 & S); [ intros; eapply Hk; right; eassumption | exact Hs1 | ]. rewrite E2.
    assert (R : same_regions st st2) by (unfold same_regions in *; intuition congruence).
    destruct r as [ models | e ]; [ | exists st2, (Raise e); split; [ reflexivity | ]; do 2 (split; [ assumption | ]); discriminate ].
    exists st2, (Ok ((pt, m) :: models)). split; [ reflexivity | ]. do 2 (split; [ assumption | ]).
    intros models' [= <-]. constructor; [ | apply S; reflexivity ]. split; [ reflexivity | ]. cbn [fst snd].
    intros k' seed' i' s' Hk' Hs' Hi' El Hst'.
    assert (El' : split "-" (classifier_label k seed i) = split "-" (classifier_label k' seed' i')) by (rewrite El; reflexivity).
    rewrite !label_split in El' by auto. injection El' as E3 E4 E5. apply str_int_inj in E3, E4, E5. subst k' seed' i'.
    rewrite (stored_unique _ _ _ Hst' K4). exists medoid. split; [ | exact Eg ].
    clear - Em K3. unfold getitem, norm_index in Em. destruct ((0 <=? i) && (i <? Z.of_nat (length (so_medoids s))))%Z.
    + destruct (nth_error (so_medoids s) (Z.to_nat i)); congruence.
    + replace ((- Z.of_nat (length (so_medoids s)) <=? i) && (i <? 0))%Z with false in Em by lia. discriminate.
Qed.

Lemma write_models : forall x y models (a : arr2 (cell M)), wf2 a -> a2x a = x -> a2y a = y ->
  (forall pt m, In (pt, m) models -> in_grid x y pt) -> NoDup (map fst models) ->
  exists b, foldM (fun a '(pt, m) => set2 a (fst pt) (snd pt) m) models a = Ok b /\ wf2 b /\ a2x b = x /\ a2y b = y /\
    (forall pt m, In (pt, m) models -> get2 b (fst pt) (snd pt) = Ok m) /\
    (forall pt, in_grid x y pt -> ~ In pt (map fst models) -> get2 b (fst pt) (snd pt) = get2 a (fst pt) (snd pt)).
Proof using.
  intros x y models. induction models as [ | [ pt m ] models IH ]; intros a W X Y Hin Hn; cbn [foldM].
  - exists a. do 4 (split; [ assumption || reflexivity | ]). split; [ intros ? ? [] | auto ].
  - assert (Hp : in_grid (a2x a) (a2y a) pt) by (rewrite X, Y; apply (Hin pt m); left; reflexivity).
    destruct (set2_get a pt m W Hp) as (a' & E & W' & X' & Y' & S). rewrite E. cbn [map fst] in Hn. inversion Hn as [ | ? ? Hni Hn' ]; subst.
    destruct (IH a' W' X' Y') as (b & Eb & Wb & Xb & Yb & S1 & S2); [ intros; eapply Hin; right; eauto | exact Hn' | ].
    exists b. split; [ exact Eb | ]. split; [ exact Wb | ]. do 2 (split; [ congruence | ]). split.
    + intros pt1 m1 [ [= <- <-] | H1 ]; [ | apply S1, H1 ]. rewrite S2 by auto. rewrite S by exact Hp.
      rewrite (proj2 (pt_eqb_eq pt pt)) by reflexivity. reflexivity.
    + intros pt1 H1 H2. rewrite S2; [ | exact H1 | intros H3; apply H2; right; exact H3 ]. rewrite S by exact H1.
      destruct (point_eqb pt1 pt) eqn:E1; [ | reflexivity ]. apply pt_eqb_eq in E1. subst pt1. exfalso. apply H2. left. reflexivity.
Qed.

Lemma build_spec : forall g x y models, rect_in g x y -> map fst models = grid (width g) (height g) ->
  exists b, build_model_region g models = Ok b /\ wf2 b /\ a2x b = width g /\ a2y b = height g /\
    (forall pt m, In (pt, m) models -> get2 b (fst pt) (snd pt) = Ok (m : cell M)).
Proof using.
  intros g x y models (H1 & H2 & H3 & H4) Hm. unfold build_model_region.
  replace ((x2 g - x1 g <? 0) || (y2 g - y1 g <? 0))%Z with false by lia. fold (width g). fold (height g).
  destruct (write_models (width g) (height g) models (full2 (width g) (height g) NoModel)) as (b & E & W & X & Y & S & _); auto.
  - apply wf2_full.
  - intros pt m Hin. apply in_grid_iff. rewrite <- Hm. apply (in_map fst) in Hin. exact Hin.
  - rewrite Hm. apply grid_nodup.
  - exists b. auto.
Qed.

(* ---------- the result ---------- *)
Lemma result_spec : forall d sc g models mo labels q, forecasts_fit kind -> qwf d sc -> cc_test_len cfg <= a3t d -> rect_in g (a3x d) (a3y d) ->
  rm_scaled (cc_region cfg) = (match sc with None => false | Some _ => true end) -> holds_models models (width g) (height g) mo ->
  create_prediction_query_result kind junk cfg (qregion d sc) g models labels = Ok q ->
  exists f test e func, get_error_func (cc_error cfg) = Ok func /\
    q = FromClassifier (InSample (RBase (suite_meta cfg) 0 f e g (qregion d sc)) test) (cc_suite_repr cfg) labels /\
    t_x f = width g /\ t_y f = height g /\ t_len f = cc_test_len cfg /\ t_x test = width g /\ t_y test = height g /\ t_len test = cc_test_len cfg /\
    forall pt own, in_grid (width g) (height g) pt -> series3 d (fst (in_domain g pt)) (snd (in_domain g pt)) = Ok own ->
      exists forecast f' o t v,
        forecast_by kind (mo pt) (cc_test_len cfg) = Ok forecast /\
        shown sc (in_domain g pt) forecast f' /\ series_at f pt = Ok f' /\
        shown sc (in_domain g pt) (skipn (length own - cc_test_len cfg) own) o /\ series_at test pt = Ok o /\
        shown sc (in_domain g pt) (firstn (length own - cc_test_len cfg) own) t /\
        func f' o (Some t) = Ok v /\ value_at e pt = Ok v.
Proof using.
  intros d sc g models mo labels q Hfit Hq Htl Hg Hsc Hm H. unfold create_prediction_query_result in H. set (tl := cc_test_len cfg) in *.
  destruct (q_subset d sc g Hq Hg) as (m & Esub & Hqm & Tm & Xm & Ym & Sm). fold (width g) (height g) in Xm, Ym, Sm. set (sc' := slice_sc sc g) in *.
  rewrite Esub in H. cbn [bind] in H.
  destruct (param_region_spec NoModel models (proj1 Hm)) as (b & Eb & _). rewrite Eb in H. cbn [bind] in H.
  destruct (q_split m sc' tl Hqm) as (d1 & d2 & Esp & Hq1 & Hq2 & T1 & T2 & X1 & Y1 & X2 & Y2 & Ss); [ rewrite Tm; exact Htl | ].
  unfold train_models in H. rewrite Esp in H. cbn [no_trainer bind] in H.
  unfold forecast_at_each_point, check_forecast_request in H. cbn [an_data an_models da_len] in H. rewrite Nat.eqb_refl in H. cbn [py_assert bind] in H.
  destruct (forecast_region kind junk _ models tl) as [ F | ] eqn:EF; [ | discriminate ]. cbn [fst] in H.
  unfold forecast_region in EF. cbn [da_training da_region] in EF. rewrite q_new_spatial, q_x, q_y, X1, Y1, Xm, Ym in EF.
  destruct (model_apply_to kind models _ tl) as [ F0 | ] eqn:EF0; [ | discriminate ]. cbn [bind] in EF.
  destruct (apply_models_spec kind models mo (full2 (width g) (height g) junk) tl F0 (width g) (height g) Hfit Hm (wf2_full _ _ _) eq_refl eq_refl EF0)
    as (f0 & -> & W0 & T0 & X0 & Y0 & S0).
  assert (F = qregion f0 sc').
  { cbn [t_data] in EF. rewrite q_scaling, q_new_st in EF. destruct sc' as [ [ ? ? ] | ]; [ congruence | ]. cbn [qregion]. congruence. }
  subst F. clear EF.
  assert (Hqf : qwf f0 sc') by (eapply q_again; [ exact Hqm | exact W0 | congruence | congruence ]).
  unfold error_analysis_of in H. cbn [da_test da_training] in H.
  destruct (with_forecast_region _ (qregion f0 sc') (cc_error cfg)) as [ E | ] eqn:EE; [ | discriminate ]. cbn [bind] in H.
  destruct (measure_q_spec f0 d1 d2 sc' _ _ Hq1 Hq2 Hqf ltac:(congruence) ltac:(congruence) ltac:(congruence) ltac:(congruence) EE)
    as (e & func & -> & We & Xe & Ye & Ef & Se).
  cbn [an_data da_test] in H.
  assert (Hsc' : rm_scaled (cc_region cfg) = match sc' with None => false | Some _ => true end) by (rewrite Hsc; unfold sc'; destruct sc as [ [ ? ? ] | ]; reflexivity).
  rewrite Hsc' in H.
  destruct (descale_again f0 m sc' Hqf Hqm ltac:(congruence) ltac:(congruence)) as (f1 & Ed1 & W1 & Tf & Xf & Yf & Sf).
  destruct (descale_again d2 m sc' Hq2 Hqm ltac:(congruence) ltac:(congruence)) as (f2 & Ed2 & W2 & Tf2 & Xf2 & Yf2 & Sf2).
  rewrite Ed1 in H. cbn [bind] in H. rewrite Ed2 in H. cbn [bind builder] in H. injection H as <-.
  exists (qregion f1 sc'), (qregion f2 sc'), (SPlain e), func. split; [ exact Ef | ]. split; [ reflexivity | ].
  rewrite !q_x, !q_y, !q_len. do 6 (split; [ congruence | ]).
  intros pt own Hp Eown. destruct (Sm pt Hp) as [ Em Hsh ]. rewrite Eown in Em.
  assert (Hpm : in_grid (a3x m) (a3y m) pt) by (rewrite Xm, Ym; exact Hp).
  destruct (Ss pt own Hpm Em) as [ A1 A2 ]. destruct (S0 pt Hp) as (fc & B1 & B2).
  destruct (Sf pt fc) as (fc' & C1 & C2); [ rewrite X0, Y0; exact Hp | exact B2 | ].
  destruct (Sf2 pt _ ltac:(rewrite X2, Y2; exact Hpm) A2) as (o & D1 & D2).
  destruct (Se pt fc _ _ ltac:(rewrite X2, Y2; exact Hpm) B2 A1 A2) as (fc2 & t & o2 & v & F1 & F2 & F3 & F4 & F5).
  assert (Hfun : forall s t1 t2, shown sc' pt s t1 -> shown sc' pt s t2 -> t1 = t2).
  { intros s0 t1 t2. destruct sc' as [ [ mn mx ] | ]; cbn [shown]; [ | congruence ].
    intros (a & b' & Ha & Hb & ->) (a' & b'' & Ha' & Hb' & ->). replace a' with a by congruence. replace b'' with b' by congruence. reflexivity. }
  assert (fc2 = fc') by eauto. assert (o2 = o) by eauto. subst fc2 o2.
  exists fc, fc', o, t, v. rewrite !q_series_at. repeat split; auto; apply Hsh; assumption.
Qed.

(* ---------- queries ---------- *)

Lemma retrieve_regions : forall key st st' r, retrieve_solver impl key st = (st', r) -> same_regions st st'.
Proof using.
  intros key st st' r H. unfold retrieve_solver in H. destruct (dict_get _ _ _) as [ L | e0 ]; [ injection H as <- <-; repeat split | ].
  destruct (load_solver _ _ _) as [ fs' [ s | e ] ]; injection H as <- <-; repeat split.
Qed.
Lemma models_regions : forall labels st st' r, models_by_point cfg impl labels st = (st', r) -> same_regions st st'.
Proof using.
  intros labels. induction labels as [ | [ pt l ] labels IH ]; intros st st' r H; cbn [models_by_point] in H; [ injection H as <- <-; repeat split | ].
  destruct (key_for_label cfg l) as [ key | ]; [ | injection H as <- <-; repeat split ].
  destruct (retrieve_solver impl key st) as [ st1 r1 ] eqn:E1. apply retrieve_regions in E1.
  destruct r1 as [ s | ]; [ | injection H as <- <-; exact E1 ].
  destruct (model_for_label s l); [ | injection H as <- <-; exact E1 ].
  destruct (models_by_point cfg impl labels st1) as [ st2 r2 ] eqn:E2. apply IH in E2.
  assert (same_regions st st2) by (unfold same_regions in *; intuition congruence).
  destruct r2; injection H as <- <-; assumption.
Qed.

Lemma dict_set_values : forall {V} pt (v : V) d pt' v', In (pt', v') (dict_set point_eqb pt v d) -> v' = v \/ In v' (map snd d).
Proof using.
  intros V pt v d. induction d as [ | [ k w ] d IH ]; intros pt' v' H; cbn [dict_set] in H.
  - destruct H as [ [= _ <-] | [] ]. auto.
  - destruct (point_eqb k pt); destruct H as [ [= _ <-] | H ]; cbn [map snd].
    + auto.
    + right. right. apply (in_map snd) in H. exact H.
    + right. left. reflexivity.
    + destruct (IH _ _ H); auto. right. right. assumption.
Qed.
Lemma labels_from_classifier : forall target g tp labels, get_labels_from_classifier classify target g tp = Ok labels ->
  forall pt l, In (pt, l) labels -> exists s, classify s = Ok l.
Proof using.
  intros target g tp labels H. unfold get_labels_from_classifier in H. destruct (t_items _) as [ items | ]; [ | discriminate ]. cbn [bind] in H.
  assert (G : forall items acc labels, (forall l, In l (map snd acc) -> exists s, classify s = Ok l) ->
             foldM (fun d '(pt, s) => l <- classify s ;; Ok (dict_set point_eqb pt l d)) items acc = Ok labels ->
             forall pt l, In (pt, l) labels -> exists s, classify s = Ok l).
  { clear. intros items. induction items as [ | [ pt s ] items IH ]; intros acc labels Ha H; cbn [foldM] in H.
    - injection H as <-. intros pt l Hin. apply Ha. apply (in_map snd) in Hin. exact Hin.
    - destruct (classify s) as [ l0 | ] eqn:E; [ | discriminate ]. cbn [bind] in H. refine (IH _ _ _ H).
      intros l Hl. apply in_map_iff in Hl. destruct Hl as ([ pt' l' ] & <- & Hl). cbn [snd]. apply dict_set_values in Hl. destruct Hl as [ -> | Hl ]; eauto. }
  eapply G; [ | exact H ]. intros l [].
Qed.

Notation predict := (classifier_predict kind junk cfg classify (Ok home) impl).

(** what one query leaves behind *)
Definition chosen (o : option (res (stregion fnum))) : option (stregion fnum) :=
  match o with None => Some home | Some (Ok t) => Some t | Some (Raise _) => None end.
Lemma predict_after : forall g tp o st st' r, (forall s l, classify s = Ok l -> known l) -> sound st -> predict g tp o st = (st', r) ->
  sound st' /\ cs_classifier st' = true /\
  (cs_classifier st = true -> same_regions st st') /\
  (cs_classifier st = false -> cs_target st = None -> cs_region st' = Some home /\ cs_target st' = chosen o).
Proof using.
  intros g tp o st st' r Hk Hs H. unfold classifier_predict in H.
  set (p := if cs_classifier st then (st, Ok tt) else prepare (Ok home) o st) in H.
  assert (Hp : sound (fst p) /\ cs_classifier (fst p) = true /\ (cs_classifier st = true -> same_regions st (fst p)) /\
               (cs_classifier st = false -> cs_target st = None -> cs_region (fst p) = Some home /\ cs_target (fst p) = chosen o)).
  { subst p. destruct (cs_classifier st) eqn:Ec; cbn [fst].
    - split; [ exact Hs | ]. split; [ exact Ec | ]. split; [ repeat split | discriminate ].
    - unfold prepare. destruct o as [ [ t | e ] | ]; cbn [fst cs_classifier cs_region cs_target chosen];
        (split; [ exact Hs | ]); (split; [ reflexivity | ]); (split; [ discriminate | ]); auto. }
  destruct p as [ st1 r1 ]. cbn [fst] in Hp. destruct r1 as [ [] | e ]; [ | injection H as <- <-; exact Hp ].
  destruct (cs_target st1) as [ target | ] eqn:Et; [ | injection H as <- <-; rewrite Et; exact Hp ].
  destruct (cs_region st1) as [ spt | ] eqn:Er; [ | injection H as <- <-; rewrite Et, Er; exact Hp ].
  destruct (get_labels_from_classifier classify target g tp) as [ labels | e ] eqn:El; [ | injection H as <- <-; rewrite Et, Er; exact Hp ].
  destruct Hp as (P1 & P2 & P3 & P4).
  destruct (models_known labels st1) as (st2 & r2 & E2 & S2 & R2 & _); [ | exact P1 | ].
  { intros pt l Hin. destruct (labels_from_classifier _ _ _ _ El pt l Hin) as [ s Es ]. eapply Hk; eauto. }
  rewrite E2 in H.
  assert (Q : sound st2 /\ cs_classifier st2 = true /\ (cs_classifier st = true -> same_regions st st2) /\
              (cs_classifier st = false -> cs_target st = None -> cs_region st2 = Some home /\ cs_target st2 = chosen o)).
  { destruct R2 as (R2 & R3 & R4). split; [ exact S2 | ]. split; [ congruence | ]. split.
    - intros Hc. specialize (P3 Hc). unfold same_regions in *. intuition congruence.
    - intros Hc Hn. specialize (P4 Hc Hn). rewrite R3, R4, Er, Et. exact P4. }
  destruct r2; injection H as <- <-; exact Q.
Qed.

Notation after := (after kind junk cfg classify (Ok home) impl).
Lemma after_state : forall history, (forall s l, classify s = Ok l -> known l) ->
  let st := after history (new_classifier_solver fs) in
  sound st /\
  match history with
  | [] => cs_classifier st = false /\ cs_target st = None
  | (_, _, o) :: _ => cs_classifier st = true /\ cs_region st = Some home /\ cs_target st = chosen o
  end.
Proof using.
  intros history Hk. assert (S0 : sound (new_classifier_solver fs)) by (split; [ reflexivity | cbn; discriminate ]).
  destruct history as [ | [ [ g tp ] o ] history ]; [ cbn; auto | ].
  unfold Spec.Classifier.after. cbn [fold_left].
  destruct (predict g tp o (new_classifier_solver fs)) as [ st1 r1 ] eqn:E1. apply predict_after in E1; auto.
  destruct E1 as (S1 & C1 & _ & T1). specialize (T1 eq_refl eq_refl). cbn [fst].
  assert (G : forall history st, sound st -> cs_classifier st = true -> sound (after history st) /\ same_regions st (after history st)).
  { clear - Hk. intros history. induction history as [ | [ [ g tp ] o ] history IH ]; intros st Hs Hc; unfold Spec.Classifier.after; cbn [fold_left].
    - split; [ exact Hs | repeat split ].
    - destruct (predict g tp o st) as [ st1 r1 ] eqn:E1. apply predict_after in E1; auto. destruct E1 as (S1 & C1 & R1 & _). specialize (R1 Hc). cbn [fst].
      destruct (IH st1 S1 C1) as [ A B ]. split; [ exact A | ]. unfold same_regions in *. unfold Spec.Classifier.after in *. intuition congruence. }
  destruct (G history st1 S1 C1) as [ A (B1 & B2 & B3) ]. unfold Spec.Classifier.after in *. split; [ exact A | ].
  destruct T1 as [ T1 T2 ]. rewrite B1, B2, B3. auto.
Qed.
End Models.

(* ---------- what remains in memory ---------- *)
Section Cache.
Context {P M : Type} (kind : model_kind P M) (junk : fnum) (cfg : cconfig).
Context (classify : list fnum -> res string) (create_instance : res (stregion fnum)) (impl : skey -> bool -> res part).
Notation predict := (classifier_predict kind junk cfg classify create_instance impl).

Definition caches (st st' : cstate M) : Prop :=
  forall r s, dict_get String.eqb r (cs_solvers st) = Ok s -> dict_get String.eqb r (cs_solvers st') = Ok s.
Lemma caches_refl st : caches st st. Proof. intros r s H. exact H. Qed.
Lemma caches_trans st st1 st2 : caches st st1 -> caches st1 st2 -> caches st st2. Proof. intros A B r s H. auto. Qed.

Lemma retrieve_caches key st st' r : retrieve_solver impl key st = (st', r) ->
  caches st st' /\ forall s, r = Ok s -> dict_get String.eqb (key_repr key) (cs_solvers st') = Ok s.
Proof.
  unfold retrieve_solver. intros H. destruct (dict_get _ _ _) as [ L | e0 ] eqn:E.
  - injection H as <- <-. split; [ apply caches_refl | ]. intros s [= <-]. exact E.
  - destruct (load_solver _ _ _) as [ fs' [ s | e ] ]; injection H as <- <-.
    + split.
      * intros r s' Hr. cbn [cs_solvers]. rewrite (dict_get_set _ string_key).
        destruct (String.eqb (key_repr key) r) eqn:Ek; [ | exact Hr ]. apply String.eqb_eq in Ek. subst r. congruence.
      * intros s' Hs. cbn [cs_solvers]. rewrite (dict_get_set _ string_key), String.eqb_refl. destruct (snd (ls_partition s)); congruence.
    + split; [ intros ? ? Hr; exact Hr | discriminate ].
Qed.
Lemma retrieve_again key (st : cstate M) s : dict_get String.eqb (key_repr key) (cs_solvers st) = Ok s -> retrieve_solver impl key st = (st, Ok s).
Proof. intros H. unfold retrieve_solver. rewrite H. reflexivity. Qed.

Lemma models_caches : forall labels st st' r, models_by_point cfg impl labels st = (st', r) -> caches st st'.
Proof.
  induction labels as [ | [ pt l ] labels IH ]; intros st st' r H; cbn [models_by_point] in H; [ injection H as <- <-; apply caches_refl | ].
  destruct (key_for_label cfg l) as [ key | ]; [ | injection H as <- <-; apply caches_refl ].
  destruct (retrieve_solver impl key st) as [ st1 r1 ] eqn:E1. apply retrieve_caches in E1. destruct E1 as [ E1 _ ].
  destruct r1 as [ s | ]; [ | injection H as <- <-; exact E1 ].
  destruct (model_for_label s l); [ | injection H as <- <-; exact E1 ].
  destruct (models_by_point cfg impl labels st1) as [ st2 r2 ] eqn:E2. apply IH in E2.
  assert (caches st st2) by (eapply caches_trans; eauto). destruct r2; injection H as <- <-; assumption.
Qed.
Lemma models_again : forall labels st st' models st2, models_by_point cfg impl labels st = (st', Ok models) -> caches st' st2 ->
  models_by_point cfg impl labels st2 = (st2, Ok models).
Proof.
  induction labels as [ | [ pt l ] labels IH ]; intros st st' models st2 H Hc; cbn [models_by_point] in *; [ congruence | ].
  destruct (key_for_label cfg l) as [ key | ]; [ | discriminate ].
  destruct (retrieve_solver impl key st) as [ st1 r1 ] eqn:E1. apply retrieve_caches in E1. destruct E1 as [ C1 G1 ].
  destruct r1 as [ s | ]; [ | discriminate ]. specialize (G1 s eq_refl).
  destruct (model_for_label s l) as [ m | ] eqn:Em; [ | discriminate ].
  destruct (models_by_point cfg impl labels st1) as [ st3 r3 ] eqn:E3. pose proof (models_caches _ _ _ _ E3) as C3.
  destruct r3 as [ ms | ]; [ | discriminate ]. injection H as -> <-.
  rewrite (retrieve_again key st2 s) by auto. rewrite Em, (IH _ _ _ _ E3 Hc). reflexivity.
Qed.

Lemma predict_caches g tp o st st' r : predict g tp o st = (st', r) ->
  cs_classifier st' = true /\ caches st st' /\ (cs_classifier st = true -> same_regions st st').
Proof.
  intros H. unfold classifier_predict in H. set (p := if cs_classifier st then (st, Ok tt) else prepare create_instance o st) in H.
  assert (Hp : cs_classifier (fst p) = true /\ caches st (fst p) /\ (cs_classifier st = true -> same_regions st (fst p))).
  { subst p. destruct (cs_classifier st) eqn:Ec; cbn [fst]; [ split; [ exact Ec | split; [ apply caches_refl | repeat split ] ] | ].
    unfold prepare. destruct create_instance; [ destruct o as [ [ t | e ] | ] | ]; cbn [fst]; (split; [ reflexivity | ]); (split; [ intros ? ? Hr; exact Hr | discriminate ]). }
  destruct p as [ st1 [ [] | e ] ]; cbn [fst] in Hp; [ | injection H as <- <-; exact Hp ].
  assert (Stop : forall e, (st1, Raise e) = (st', r) -> cs_classifier st' = true /\ caches st st' /\ (cs_classifier st = true -> same_regions st st'))
    by (intros e [= <- <-]; exact Hp).
  destruct (cs_target st1) as [ target | ]; [ | eapply Stop; exact H ]. destruct (cs_region st1) as [ spt | ]; [ | eapply Stop; exact H ].
  destruct (get_labels_from_classifier _ _ _ _) as [ labels | e ]; [ | eapply Stop; exact H ]. clear Stop.
  destruct Hp as (P1 & P2 & P3). destruct (models_by_point _ _ _ _) as [ st2 r2 ] eqn:E2.
  pose proof (models_caches _ _ _ _ E2) as C2. apply models_regions in E2. destruct E2 as (A & B & C).
  assert (G : cs_classifier st2 = true /\ caches st st2 /\ (cs_classifier st = true -> same_regions st st2)).
  { split; [ congruence | ]. split; [ eapply caches_trans; eauto | ]. intros Hc. destruct (P3 Hc) as (P4 & P5 & P6). unfold same_regions. intuition congruence. }
  destruct r2; injection H as <- <-; exact G.
Qed.

Lemma predict_again g tp o o' st st' q st2 : predict g tp o st = (st', Ok q) ->
  cs_classifier st2 = true -> same_regions st' st2 -> caches st' st2 -> predict g tp o' st2 = (st2, Ok q).
Proof.
  intros H Hc2 (_ & R1 & R2) Hk. unfold classifier_predict in *. rewrite Hc2, R1, R2.
  destruct (if cs_classifier st then (st, Ok tt) else prepare create_instance o st) as [ st1 [ [] | e ] ] eqn:Ep; [ | discriminate ].
  destruct (cs_target st1) as [ target | ] eqn:Et; [ | discriminate ]. destruct (cs_region st1) as [ spt | ] eqn:Er; [ | discriminate ].
  destruct (get_labels_from_classifier _ _ _ _) as [ labels | e ] eqn:El; [ | discriminate ].
  destruct (models_by_point cfg impl labels st1) as [ st3 r3 ] eqn:E3. destruct r3 as [ models | ]; [ | discriminate ].
  injection H as -> H. destruct (models_regions _ _ _ _ _ _ E3) as (_ & B & C). rewrite B, C, Et, Er, El.
  rewrite (models_again _ _ _ _ st2 E3 Hk), H. reflexivity.
Qed.

Notation happen := (happen kind junk cfg classify create_instance impl).
Lemma happen_caches : forall events st, cs_classifier st = true ->
  cs_classifier (happen events st) = true /\ same_regions st (happen events st) /\ caches st (happen events st).
Proof.
  induction events as [ | e events IH ]; intros st Hc; unfold Spec.Classifier.happen; cbn [fold_left].
  - split; [ exact Hc | ]. split; [ repeat split | apply caches_refl ].
  - set (st1 := match e with Queried (g, tp, o) => fst (predict g tp o st) | FilesChanged fs => CState fs (cs_classifier st) (cs_region st) (cs_target st) (cs_solvers st) end).
    assert (H1 : cs_classifier st1 = true /\ same_regions st st1 /\ caches st st1).
    { subst st1. destruct e as [ [ [ g tp ] o ] | fs ].
      - destruct (predict g tp o st) as [ st1 r ] eqn:E. apply predict_caches in E. destruct E as (A & B & C). cbn [fst]. auto.
      - cbn [cs_classifier]. split; [ exact Hc | ]. split; [ repeat split | intros ? ? Hr; exact Hr ]. }
    destruct H1 as (A & B & C). destruct (IH st1 A) as (A' & B' & C'). unfold Spec.Classifier.happen in *. split; [ exact A' | ].
    split; [ unfold same_regions in *; intuition congruence | eapply caches_trans; eauto ].
Qed.
End Cache.
