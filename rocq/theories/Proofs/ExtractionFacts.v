(** Facts about Model/Extraction.v. *)
From Coq Require Import String ZifyBool ZifyNat.
From Verif Require Import Base.Py Base.Arr Base.Str Base.StrFacts Base.Dict Base.DictFacts Base.Float Base.PyFacts Model.Region Model.Models Model.Distance Model.Clustering Model.Solver Model.SolverFiles
  Model.Results Model.TrainInput Model.Programs Model.Dnn Model.Classifier Model.PartitionAnalysis Model.Extraction
  Spec.Grid Spec.TrainInput Spec.Solver Spec.Distance Spec.PartitionAnalysis Spec.Extraction
  Proofs.NameFacts Proofs.SolverFacts Proofs.TrainInputFacts Proofs.DistanceFacts Proofs.AnalysisFacts Proofs.ProgramFacts Proofs.ClassifierFacts Props.Clustering Props.SolverFiles.
Local Open Scope string_scope.
Local Notation length := List.length.

Lemma leading_ok {A} (l : list A) : leading (map Ok l) = (l, None).
Proof. induction l as [ | a l IH ]; cbn [map leading]; [ reflexivity | ]. rewrite IH. reflexivity. Qed.
Lemma leading_none {A} (rs : list (res A)) l : leading rs = (l, None) -> rs = map Ok l.
Proof.
  revert l. induction rs as [ | [ a | e ] rs IH ]; cbn [leading]; intros l E; [ | | discriminate ].
  - injection E as <-. reflexivity.
  - destruct (leading rs) as [ l' e' ]. injection E as <- ->. cbn [map]. f_equal. auto.
Qed.

(* ---------- paths ---------- *)
Lemma csv_dir_path r : has_char "/" (rm_name r) = false -> suite_csv_dir "dtw" "outputs" r = "outputs/" ++ rmeta_repr r ++ "/dtw".
Proof.
  intros Hr. pose proof (rmeta_repr_no_slash r Hr) as Rs. pose proof (rmeta_repr_nonempty r) as Rn. unfold suite_csv_dir, region_output_dir.
  change (path_join "outputs" (rmeta_repr r)) with (path_join ("" ++ join "/" ["outputs"%string]) (rmeta_repr r)).
  rewrite path_join_names; try (discriminate || assumption || (intros s [ <- | [] ]; split; [ reflexivity | discriminate ])); try (intro; discriminate).
  cbn [app join]. rewrite ?sapp_assoc. reflexivity.
Qed.
Lemma ends_app a b : b <> "" -> ends_with_slash (a ++ b) = ends_with_slash b.
Proof.
  intros Hb. induction a as [ | c a IH ]; cbn [append]; [ reflexivity | ].
  destruct b as [ | e b ]; [ congruence | ]. destruct a as [ | c' a ]; [ reflexivity | ]. exact IH.
Qed.
Lemma join_csv_dir r name : has_char "/" (rm_name r) = false -> (exists c s, name = String c s /\ c <> "/"%char) ->
  path_join (suite_csv_dir "dtw" "outputs" r) name = "outputs/" ++ rmeta_repr r ++ "/dtw/" ++ name.
Proof.
  intros Hr (c & s & -> & Hc). rewrite csv_dir_path by assumption. unfold path_join. rewrite (proj2 (Ascii.eqb_neq c "/") Hc).
  replace (ends_with_slash ("outputs/" ++ rmeta_repr r ++ "/dtw")) with false.
  - cbn [append String.eqb orb]. rewrite !sapp_assoc. reflexivity.
  - rewrite ends_app by (destruct (rmeta_repr r); discriminate). rewrite ends_app by discriminate. reflexivity.
Qed.
Lemma filename_eq what cr ty sid count seed :
  choice_filename what cr (suite_repr ty sid) count seed =
  what ++ criterion_in_name cr ++ ty ++ "-" ++ sid ++ "_count" ++ str_int count ++ "_seed" ++ str_int seed ++ ".csv".
Proof. destruct cr; unfold choice_filename, criterion_in_name, suite_repr; rewrite !sapp_assoc; reflexivity. Qed.
Lemma paths_eq cr r ty sid count seed : has_char "/" (rm_name r) = false ->
  csv_filepaths cr (suite_repr ty sid) "dtw" "outputs" r count seed =
  (run_file "random_point" (rmeta_repr r) ty sid cr count seed, run_file "hist" (rmeta_repr r) ty sid cr count seed).
Proof.
  intros Hr. unfold csv_filepaths, run_file. cbv zeta. rewrite !filename_eq. f_equal; (rewrite join_csv_dir; [ reflexivity | assumption | ]);
    (eexists _, _; split; [ reflexivity | discriminate ]).
Qed.
Lemma medoids_path_eq r ty sid : has_char "/" (rm_name r) = false ->
  medoid_series_csv_filepath (suite_repr ty sid) "dtw" "outputs" r = medoids_file (rmeta_repr r) ty sid.
Proof.
  intros Hr. unfold medoid_series_csv_filepath, medoids_file, suite_repr. rewrite csv_dir_path by assumption. rewrite !sapp_assoc. reflexivity.
Qed.

(** files of one region with different beginnings of their names *)
Lemma region_names_apart region a b : a <> b -> "outputs/" ++ region ++ "/dtw/" ++ a <> "outputs/" ++ region ++ "/dtw/" ++ b.
Proof. intros H E. apply sapp_inj_l, sapp_inj_l, sapp_inj_l in E. auto. Qed.
Lemma files_apart region ty sid cr count seed ty' sid' :
  run_file "random_point" region ty sid cr count seed <> run_file "hist" region ty sid cr count seed /\
  run_file "random_point" region ty sid cr count seed <> medoids_file region ty' sid' /\
  run_file "hist" region ty sid cr count seed <> medoids_file region ty' sid' /\
  run_file "random_point" region ty sid cr count seed <> table_at region ty' sid' /\
  run_file "hist" region ty sid cr count seed <> table_at region ty' sid' /\
  medoids_file region ty sid <> table_at region ty' sid'.
Proof.
  unfold run_file, medoids_file, table_at.
  change ("/dtw/medoid_data__" ++ ?s) with ("/dtw/" ++ "medoid_data__" ++ s).
  repeat split; intros E; apply sapp_inj_l, sapp_inj_l in E; discriminate E.
Qed.

(* ---------- choices with penalties that do not depend on the state ---------- *)
Section Pure.
Context {M : Type} (format_float : nat -> fnum -> string) (show_series : list fnum -> string).
Context (penalties : xstate M -> string -> list point -> point -> xstate M * res (list fnum)) (f : string -> list point -> point -> res (list fnum)).
Context (sr : suite) (r : rmeta) (d : arr3 fnum) (sc : option (arr2 fnum * arr2 fnum)).
Local Notation spt := (qregion d sc).
Definition same_files (s s' : xstate M) : Prop :=
  (forall q, w_texts (x_world s') q = w_texts (x_world s) q) /\ (forall q, w_pickles (x_world s') q = w_pickles (x_world s) q).
Context (I : xstate M -> Prop) (Iput : forall s p l, I s -> I (put s p l)).
Context (Hpure : forall s c ms pt, I s -> In (c, ms) sr -> in_grid (a3x d) (a3y d) pt ->
  exists s', penalties s c ms pt = (s', f c ms pt) /\ I s' /\ same_files s s').

Lemma same_refl s : same_files s s. Proof. split; auto. Qed.
Lemma same_trans s s' s'' : same_files s s' -> same_files s' s'' -> same_files s s''.
Proof. intros [ A B ] [ C D ]. split; intros q; [ rewrite C; apply A | rewrite D; apply B ]. Qed.

Lemma choose_among_pure pt threshold h : in_grid (a3x d) (a3y d) pt -> forall l s best, I s -> incl l sr ->
  exists s', choose_among penalties pt threshold h s best l = (s', foldM (choose_step f pt threshold h) l best) /\ I s' /\ same_files s s'.
Proof.
  intros Hpt. induction l as [ | [ c ms ] l IH ]; intros s best Hs Hl; cbn [choose_among foldM].
  - exists s. auto using same_refl.
  - destruct (Hpure s c ms pt Hs (Hl _ (or_introl eq_refl)) Hpt) as (s1 & E & I1 & F1). rewrite E.
    change (choose_step (fun _ _ _ => f c ms pt) pt threshold h best (c, ms)) with (choose_step f pt threshold h best (c, ms)).
    destruct (choose_step f pt threshold h best (c, ms)) as [ best' | e ]; cbn [bind]; [ | exists s1; auto ].
    destruct (IH s1 best' I1) as (s2 & E2 & I2 & F2); [ intros q Hq; apply Hl; right; auto | ]. exists s2. split; [ exact E2 | ]. split; [ exact I2 | ]. eapply same_trans; eauto.
Qed.
Lemma choose_in_pure pt threshold h s : in_grid (a3x d) (a3y d) pt -> I s ->
  exists s', choose_medoid_in penalties s sr pt threshold h = (s', fst (choose_medoid f sr pt threshold h), snd (choose_medoid f sr pt threshold h)) /\ I s' /\ same_files s s'.
Proof.
  intros Hpt Hs. unfold choose_medoid_in, choose_medoid. destruct (choose_among_pure pt threshold h Hpt sr s (None, PInf) Hs (fun q H => H)) as (s' & -> & I' & F').
  exists s'. destruct (foldM (choose_step f pt threshold h) sr (None, PInf)) as [ [ best score ] | e ]; [ | auto ].
  destruct (is_inf score); [ auto | ]. destruct best as [ [ [ c i ] m ] | ]; auto.
Qed.

Definition line (p : point) (pick : string * Z * point) (l : string) : Prop :=
  let '(c, i, m) := pick in exists s, series3 d (fst p) (snd p) = Ok s /\ line_of format_float (rmeta_repr r) c i m s l.

Lemma medoid_row_line c i m s md : factory_from_repr c = Ok md ->
  exists row, medoid_row (rmeta_repr r) c i m s = Ok row /\ line_of format_float (rmeta_repr r) c i m s (writerow (map (render format_float show_series) row)).
Proof.
  intros E. unfold medoid_row. rewrite E. cbn [bind]. eexists. split; [ reflexivity | ]. exists md. split; [ exact E | ]. unfold writerow. f_equal.
  destruct md; cbn [map app render snd as_dict values]; rewrite map_map; reflexivity.
Qed.

Context (Hd : wf3 d) (Hknown : forall c ms, In (c, ms) sr -> exists md, factory_from_repr c = Ok md).

Lemma choose_known pt threshold h c i m h' : choose_medoid f sr pt threshold h = (Ok (c, i, m), h') -> exists ms, In (c, ms) sr.
Proof.
  unfold choose_medoid. assert (G : forall l best, incl l sr -> (forall c i m, fst best = Some (c, i, m) -> exists ms, In (c, ms) sr) ->
    forall best', foldM (choose_step f pt threshold h) l best = Ok best' -> forall c i m, fst best' = Some (c, i, m) -> exists ms, In (c, ms) sr).
  { induction l as [ | [ c0 ms0 ] l IH ]; intros best Hl Hb best'; cbn [foldM]; [ intros E; injection E as <-; exact Hb | ].
    destruct (choose_step f pt threshold h best (c0, ms0)) as [ b | ] eqn:Es; cbn [bind]; [ | discriminate ]. apply IH; [ intros q Hq; apply Hl; right; auto | ].
    unfold choose_step in Es. destruct (f c0 ms0 pt); cbn [bind] in Es; [ | discriminate ]. destruct (supress_medoids _ _ _ _ _); cbn [bind] in Es; [ | discriminate ].
    destruct (np_argmin _); cbn [bind] in Es; [ | discriminate ]. destruct (getitem _ _); cbn [bind] in Es; [ | discriminate ]. destruct (getitem _ _); cbn [bind] in Es; [ | discriminate ].
    destruct (flt _ _); injection Es as <-; [ | exact Hb ]. cbn [fst]. intros c1 i1 m1 E. injection E as <- _ _. exists ms0. apply Hl. left. reflexivity. }
  destruct (foldM (choose_step f pt threshold h) sr (None, PInf)) as [ [ best score ] | e ] eqn:E; [ | discriminate ].
  destruct (is_inf score); [ discriminate | ]. destruct best as [ [ [ c' i' ] m' ] | ]; [ | discriminate ]. intros E'. injection E' as <- <- <- _.
  apply (G sr (None, PInf) (fun q H => H)) with (best' := (Some (c', i', m'), score)) (i := i') (m := m'); auto. intros ? ? ? F. discriminate F.
Qed.

(** the loop over the points appends a line for each choice up to the first failure *)
Lemma write_choices_pure path threshold : forall pts s h before, I s -> Forall (in_grid (a3x d) (a3y d)) pts -> w_texts (x_world s) path = Some before ->
  exists s' lines rs h', choices threshold (map (fun p => Call sr p f) pts) h = (rs, h') /\
    write_choices format_float show_series penalties path sr r spt threshold h s pts = (s', match snd (leading rs) with Some e => Raise e | None => Ok h' end) /\ I s' /\
    Forall2 (fun '(p, pick) l => line p pick l) (combine pts (fst (leading rs))) lines /\
    w_texts (x_world s') path = Some (before ++ lines)%list /\ (forall q, q <> path -> w_texts (x_world s') q = w_texts (x_world s) q) /\
    (forall q, w_pickles (x_world s') q = w_pickles (x_world s) q).
Proof.
  induction pts as [ | p pts IH ]; intros s h before Hs Hp Hb; cbn [map choices write_choices].
  - exists s, [], [], h. cbn [leading fst snd combine]. rewrite app_nil_r. repeat split; auto.
  - inversion Hp as [ | ? ? Hp1 Hp2 ]; subst. destruct (choose_in_pure p threshold h s Hp1 Hs) as (s1 & -> & I1 & (F1 & F2)). cbn [c_penalties c_suite c_point].
    destruct (choose_medoid f sr p threshold h) as [ result h1 ] eqn:Ec. cbn [fst snd].
    destruct result as [ [ [ c i ] m ] | e ]; cbn [bind].
    + destruct (choose_known _ _ _ _ _ _ _ Ec) as [ ms Hin ]. destruct (Hknown c ms Hin) as [ md Em ]. rewrite Em. cbn [bind]. rewrite q_series_at.
      destruct (ser_ok d p Hd Hp1) as (ser & Es & _). rewrite Es. cbn [bind]. destruct (medoid_row_line c i m ser md Em) as (row & -> & Hl).
      set (l := writerow _) in *.
      destruct (IH (add_line s1 path l) h1 (before ++ [l])%list) as (s2 & lines & rs & h2 & E1 & E2 & I2 & F & T & T' & P').
      { unfold add_line, append_text. apply (Iput s1 path _ I1). }
      { exact Hp2. }
      { unfold add_line, append_text, write_text. cbn [x_world w_texts]. rewrite String.eqb_refl, F1, Hb. reflexivity. }
      rewrite E1. exists s2, (l :: lines), (Ok (c, i, m) :: rs), h2. split; [ reflexivity | ]. cbn [leading]. destruct (leading rs) as [ picks fail ] eqn:El. cbn [fst snd combine] in *.
      split; [ exact E2 | ]. split; [ exact I2 | ]. split; [ constructor; [ exists ser; split; auto | exact F ] | ]. split; [ rewrite T, <- app_assoc; reflexivity | ]. split.
      * intros q Hq. rewrite T' by exact Hq. unfold add_line, append_text, write_text. cbn [x_world w_texts]. rewrite (proj2 (String.eqb_neq q path) Hq). apply F1.
      * intros q. rewrite P'. apply F2.
    + destruct (choices threshold (map (fun p => Call sr p f) pts) h1) as [ rs h2 ]. exists s1, [], (Raise e :: rs), h2. cbn [leading fst snd]. rewrite app_nil_r.
      repeat split; auto. { destruct pts; constructor. } { rewrite F1. exact Hb. }
Qed.
End Pure.

(* ---------- the two criteria ---------- *)
Lemma inside_grid g x y m : spans g x y -> (x1 g <= fst m < x2 g /\ y1 g <= snd m < y2 g)%Z -> in_grid x y (inside g m).
Proof. intros [ A B ] H. unfold in_grid, inside. cbn [fst snd]. lia. Qed.

Section Distance.
Context {M : Type} (env : denv) (r : rmeta) (d : arr3 fnum) (sc : option (arr2 fnum * arr2 fnum)) (D : mat) (dist : point -> point -> fnum) (sr : suite).
Context (Hspan : spans (rm_region r) (a3x d) (a3y d)) (HD : square (a3x d * a3y d) D)
        (Hdist : forall q pt, in_grid (a3x d) (a3y d) q -> in_grid (a3x d) (a3y d) pt -> entry D (index_of (a3y d) q) (index_of (a3y d) pt) = Some (dist q pt)).
Context (Hin : forall c ms m, In (c, ms) sr -> In m ms -> (x1 (rm_region r) <= fst m < x2 (rm_region r) /\ y1 (rm_region r) <= snd m < y2 (rm_region r))%Z).
Local Notation f := (by_distance dist (rm_region r)).
Definition loaded_state (s : xstate M) : Prop := w_distance (x_world s) = DObj PlainDTW (Some D) false.

Lemma distance_pure s c ms pt : loaded_state s -> In (c, ms) sr -> in_grid (a3x d) (a3y d) pt ->
  exists s', distance_penalties env r (qregion d sc) s c ms pt = (s', f c ms pt) /\ loaded_state s' /\ same_files s s'.
Proof.
  intros Hs Hc Hpt. exists s. unfold distance_penalties. rewrite Hs. cbn [d_matrix]. cbv zeta. split; [ | split; [ exact Hs | split; auto ] ]. f_equal.
  unfold by_distance. rewrite q_y. assert (Hm : forall m, In m ms -> in_grid (a3x d) (a3y d) (inside (rm_region r) m)).
  { intros m Hm. apply inside_grid; [ exact Hspan | ]. apply (Hin c ms m Hc Hm). }
  clear Hc. induction ms as [ | m ms IH ]; cbn [map mapM]; [ reflexivity | ]. rewrite IH by (intros; apply Hm; right; auto).
  pose proof (Hm m (or_introl eq_refl)) as Gm. pose proof (Hdist pt _ Hpt Gm) as E. apply m_get_entry in E.
  destruct (index_of_encode _ _ _ Hpt) as [ I1 L1 ]. destruct (index_of_encode _ _ _ Gm) as [ I2 L2 ].
  replace (m_get D (encode_point (a3y d) pt) ((fst m - x1 (rm_region r)) * Z.of_nat (a3y d) + (snd m - y1 (rm_region r)))) with (Ok (dist pt (inside (rm_region r) m))).
  { reflexivity. }
  change ((fst m - x1 (rm_region r)) * Z.of_nat (a3y d) + (snd m - y1 (rm_region r)))%Z with (encode_point (a3y d) (inside (rm_region r) m)).
  rewrite I1, I2. symmetry. exact E.
Qed.
End Distance.

Section Errors.
Context {M : Type} (create_instance : rmeta -> res (stregion fnum)) (partition_impl : rmeta -> cmeta -> stregion fnum -> bool -> res part)
        (dtw : list fnum -> list fnum -> fnum).
Context (fit : pdq -> list fnum -> res M) (order_of : M -> pdq) (forecast : M -> nat -> res (list fnum)) (search : mparams -> list fnum -> res pdq).
Context (r : rmeta) (d : arr3 fnum) (sc : option (arr2 fnum * arr2 fnum)) (fs : fsys M) (params : mparams) (test_len : Z) (error : string) (sr : suite)
        (solver_of : string -> res (solver M * smeta)).
Context (Hinst : create_instance r = Ok (qregion d sc)).
Context (Hsaved : forall c ms, In (c, ms) sr -> exists md s, factory_from_repr c = Ok md /\ solver_saved fs (SKey r md "dtw" params test_len error) s /\
  solver_of c = Ok (s, meta_of (SKey r md "dtw" params test_len error))).
Local Notation key md := (SKey r md "dtw" params test_len error).
Local Notation f := (min_error_penalties (auto_arima_kind fit forecast search) solver_of (ByDTW dtw) (rm_scaled r) (qregion d sc)).
Definition loaded_of (s : solver M) : loaded_solver M := LSolver (so_partition s, Some (so_medoids s)) (so_training s) (so_whole s) (so_errors s).
Definition cached_state (st : xstate M) : Prop :=
  w_pickles (x_world st) = fs /\
  forall kr l, dict_get String.eqb kr (x_solvers st) = Ok l -> forall md s, solver_saved fs (key md) s -> key_repr (key md) = kr -> l = loaded_of s.

Lemma key_repr_clustering md md' : key_repr (key md) = key_repr (key md') -> c_repr md = c_repr md'.
Proof.
  unfold key_repr, clustering_solver_repr. cbn [k_clustering k_dist meta_of k_region k_params k_error sm_region sm_params sm_error]. intros E.
  apply sapp_inj_l, sapp_inj_l in E. eapply sapp_inj_r. exact E.
Qed.
Lemma saved_same md md' s s' : solver_saved fs (key md) s -> solver_saved fs (key md') s' -> key_repr (key md) = key_repr (key md') -> loaded_of s = loaded_of s'.
Proof.
  intros (A1 & A2 & A3 & A4) (B1 & B2 & B3 & B4) E. apply key_repr_clustering in E.
  assert (P0 : solver_pickle_dir (key md) = solver_pickle_dir (key md')).
  { unfold solver_pickle_dir, clustering_pickle_dir, clustering_subdir. cbn [k_clustering k_dist k_region]. rewrite E. reflexivity. }
  assert (P1 : partition_pickle_path (key md) = partition_pickle_path (key md')).
  { unfold partition_pickle_path, pickle_full_path, clustering_pickle_dir, clustering_subdir. cbn [k_clustering k_dist k_region]. rewrite E. reflexivity. }
  assert (P2 : model_training_pickle_path (key md) = model_training_pickle_path (key md')) by (unfold model_training_pickle_path; rewrite P0; reflexivity).
  assert (P3 : model_whole_pickle_path (key md) = model_whole_pickle_path (key md')) by (unfold model_whole_pickle_path; rewrite P0; reflexivity).
  assert (P4 : generalization_errors_pickle_path (key md) = generalization_errors_pickle_path (key md')) by (unfold generalization_errors_pickle_path; rewrite P0; reflexivity).
  rewrite <- P1 in B1. rewrite <- P2 in B2. rewrite <- P3 in B3. rewrite <- P4 in B4. unfold loaded_of. congruence.
Qed.
Lemma errors_pure st c ms pt : cached_state st -> In (c, ms) sr -> in_grid (a3x d) (a3y d) pt ->
  exists st', error_penalties create_instance partition_impl dtw fit order_of forecast search r params test_len error st c ms pt = (st', f c ms pt) /\ cached_state st' /\ same_files st st'.
Proof.
  intros [ Hp Hc ] Hin _. destruct (Hsaved c ms Hin) as (md & s & Em & Hs & Eo). unfold error_penalties, solver_key. rewrite Em. cbn [bind].
  assert (Ef : forall l, l = loaded_of s ->
    (spt <- create_instance r ;;
     prediction_result <- loaded_result dtw (auto_arima_program fit order_of forecast search params) l (key md) spt (Rect (fst pt) (fst pt + 1) (snd pt) (snd pt + 1)) 0 ;;
     forecast_error_at_representative <- prediction_error_at prediction_result (0, 0)%Z ;;
     cluster_index_of_representative <- (m <- membership_of_points (fst (ls_partition l)) [pt] ;; getitem m 0) ;;
     setitem (repeat PInf (length ms)) cluster_index_of_representative forecast_error_at_representative) = f c ms pt).
  { intros l ->. rewrite Hinst. cbn [bind]. unfold min_error_penalties. rewrite Eo. cbn [bind]. reflexivity. }
  destruct (dict_get String.eqb (key_repr (key md)) (x_solvers st)) as [ l | e ] eqn:Ed.
  - exists st. cbn [bind]. cbv zeta. rewrite (Ef l (Hc _ _ Ed md s Hs eq_refl)). split; [ reflexivity | ]. split; [ split; auto | split; auto ].
  - rewrite Hp. pose proof Hs as (A1 & A2 & A3 & A4). rewrite (load_solver_ok _ _ _ _ _ _ _ A1 A2 A3 A4).
    eexists. cbn [bind]. split; [ cbv zeta; f_equal; apply (Ef _ eq_refl) | ]. split; [ | split; intros q; cbn [x_world w_texts w_pickles]; congruence ].
    split; [ reflexivity | ]. cbn [x_solvers]. intros kr l El md' s' Hs' Ek. subst kr.
    destruct (string_dec (key_repr (key md)) (key_repr (key md'))) as [ E | N ].
    + rewrite <- E in El. rewrite (dict_get_set _ string_key), String.eqb_refl in El. injection El as <-. exact (saved_same _ _ _ _ Hs Hs' E).
    + rewrite (dict_get_set _ string_key), (proj2 (String.eqb_neq _ _) N) in El. exact (Hc _ _ El md' s' Hs' eq_refl).
Qed.
End Errors.

(* ---------- the files ---------- *)
Section Files.
Context {M : Type} (format_float : nat -> fnum -> string) (show_series : list fnum -> string).
Context (r : rmeta) (d : arr3 fnum) (sc : option (arr2 fnum * arr2 fnum)) (sr : suite).
Local Notation spt := (qregion d sc).
Local Notation g := (rm_region r).
Context (Hname : has_char "/" (rm_name r) = false) (Hq : qwf d sc) (Hspan : spans g (a3x d) (a3y d)) (Hu : usable g sr).

Lemma header_ok n : exists first hd, first_clustering sr first /\ csv_header sr n = Ok hd /\ writerow hd = header_line first n.
Proof.
  destruct Hu as [ Hne H ]. destruct sr as [ | [ c ms ] rest ]; [ congruence | ]. destruct (H c ms (or_introl eq_refl)) as (_ & (md & Em) & _).
  exists md. eexists. split; [ exists c, ms, rest; auto | ]. unfold csv_header. change (getitem (map fst ((c, ms) :: rest)) 0) with (Ok c). cbn [bind]. rewrite Em. cbn [bind].
  split; [ reflexivity | ]. unfold writerow, header_line. f_equal. destruct md; reflexivity.
Qed.

Lemma write_medoids path : forall items entries (s : xstate M) before, w_texts (x_world s) path = Some before ->
  (forall c i m, In (c, i, m) items -> exists md, factory_from_repr c = Ok md) ->
  Forall2 (fun '(c, i, m) '(c', (i', m', ser)) => c' = c /\ i' = Z.of_nat i /\ m' = m /\ series3 d (fst m - x1 g) (snd m - y1 g) = Ok ser) items entries ->
  exists s' lines,
    fold_left (fun '(s, done) '(clustering_repr, (i, m, series)) =>
                       match done with
                       | Raise e => (s, Raise e)
                       | Ok _ => match medoid_row (rmeta_repr r) clustering_repr i m series with
                                 | Raise e => (s, Raise e)
                                 | Ok row => (add_line s path (writerow (map (render format_float show_series) row)), Ok tt)
                                 end
                       end) entries (s, Ok tt) = (s', Ok tt) /\
    Forall2 (fun '(c, i, m) line => exists ser, series3 d (fst m - x1 g) (snd m - y1 g) = Ok ser /\ line_of format_float (rmeta_repr r) c (Z.of_nat i) m ser line) items lines /\
    w_texts (x_world s') path = Some (before ++ lines)%list /\ (forall q, q <> path -> w_texts (x_world s') q = w_texts (x_world s) q) /\
    (forall q, w_pickles (x_world s') q = w_pickles (x_world s) q).
Proof.
  intros items entries s before Hb Hk F. revert s before Hb. induction F as [ | [ [ c i ] m ] [ c' [ [ i' m' ] ser ] ] items entries (-> & -> & -> & Es) F IH ]; intros s before Hb; cbn [fold_left].
  - exists s, []. rewrite app_nil_r. repeat split; auto.
  - destruct (Hk c i m (or_introl eq_refl)) as [ md Em ]. destruct (medoid_row_line format_float show_series r c (Z.of_nat i) m ser md Em) as (row & -> & Hl).
    set (l := writerow _) in *.
    destruct (IH (fun c0 i0 m0 H => Hk c0 i0 m0 (or_intror H)) (add_line s path l) (before ++ [l])%list) as (s' & lines & E & FL & T & T' & P').
    { unfold add_line, append_text, write_text. cbn [x_world w_texts]. rewrite String.eqb_refl, Hb. reflexivity. }
    exists s', (l :: lines). split; [ exact E | ]. split; [ constructor; [ exists ser; auto | exact FL ] | ]. split; [ rewrite T, <- app_assoc; reflexivity | ]. split.
    + intros q Hq'. rewrite T' by exact Hq'. unfold add_line, append_text, write_text. cbn [x_world w_texts]. rewrite (proj2 (String.eqb_neq q path) Hq'). reflexivity.
    + intros q. rewrite P'. reflexivity.
Qed.

Lemma all_known c i m : In (c, i, m) (all_medoids sr) -> exists md, factory_from_repr c = Ok md.
Proof.
  intros H. apply in_flat_map in H. destruct H as ([ c' ms ] & Hin & H). apply in_map_iff in H. destruct H as ([ i' m' ] & E & _). injection E as -> _ _.
  destruct Hu as [ _ K ]. destruct (K c ms Hin) as (_ & E & _). exact E.
Qed.
Lemma data_entries data :
  Forall2 (fun '(c, ms) '(c', entries) => c' = c /\
      Forall2 (fun '(i, m) '(i', m', s) => i' = Z.of_nat i /\ m' = m /\ series_at spt (fst m - x1 g, snd m - y1 g)%Z = Ok s) (enumerate ms) entries) sr data ->
  Forall2 (fun '(c, i, m) '(c', (i', m', ser)) => c' = c /\ i' = Z.of_nat i /\ m' = m /\ series3 d (fst m - x1 g) (snd m - y1 g) = Ok ser)
    (all_medoids sr) (flat_map (fun '(c, entries) => map (pair c) entries) data).
Proof.
  clear Hu. unfold all_medoids. induction 1 as [ | [ c ms ] [ c' entries ] l data' [ -> Fe ] F IH ]; cbn [flat_map]; [ constructor | ].
  apply Forall2_app; [ | exact IH ]. unfold enumerate in Fe. clear - Fe.
  induction Fe as [ | [ i m ] [ [ i' m' ] s ] l entries (-> & -> & Es) Fe IH ]; cbn [map]; constructor; auto. rewrite q_series_at in Es. auto.
Qed.

Lemma produce_ok ty sid (s : xstate M) : retrieve_suite_result (w_texts (x_world s) (table_at (rmeta_repr r) ty sid)) = Ok sr ->
  exists s' lines first, produce_csv format_float show_series r spt (suite_repr ty sid) s = (s', Ok tt) /\ first_clustering sr first /\
    w_texts (x_world s') (medoids_file (rmeta_repr r) ty sid) = Some (header_line first (a3t d) :: lines) /\
    Forall2 (fun '(c, i, m) line => exists ser, series3 d (fst m - x1 g) (snd m - y1 g) = Ok ser /\ line_of format_float (rmeta_repr r) c (Z.of_nat i) m ser line) (all_medoids sr) lines /\
    (forall q, q <> medoids_file (rmeta_repr r) ty sid -> w_texts (x_world s') q = w_texts (x_world s) q) /\
    (forall q, w_pickles (x_world s') q = w_pickles (x_world s) q).
Proof.
  intros Et. unfold produce_csv. rewrite (table_at_path ty sid r Hname), Et. cbn [bind].
  destruct (medoid_data_ok g sr spt) as (data & Ed & F).
  { intros c ms m Hin Hm. destruct Hu as [ _ K ]. destruct (K c ms Hin) as (_ & _ & G). rewrite q_series_at.
    destruct (ser_ok d (inside g m) (proj1 Hq) (inside_grid g _ _ m Hspan (G m Hm))) as (ser & Es & _). exists ser. exact Es. }
  rewrite Ed. cbn [bind]. rewrite (medoids_path_eq r ty sid Hname). set (path := medoids_file (rmeta_repr r) ty sid).
  replace (t_len spt) with (a3t d) by (destruct sc as [ [ ? ? ] | ]; reflexivity).
  destruct (header_ok (a3t d)) as (first & hd & Hf & Eh & El). rewrite Eh.
  destruct (write_medoids path (all_medoids sr) (flat_map (fun '(c, entries) => map (pair c) entries) data) (add_line (put s path []) path (writerow hd)) [writerow hd]) as (s' & lines & E & FL & T & T' & P').
  { unfold add_line, put, append_text, write_text. cbn [x_world w_texts]. rewrite String.eqb_refl. reflexivity. }
  { exact all_known. }
  { exact (data_entries data F). }
  exists s', lines, first. split; [ exact E | ]. split; [ exact Hf | ]. split; [ rewrite T, El; reflexivity | ]. split; [ exact FL | ]. split.
  - intros q Hq'. rewrite T' by exact Hq'. unfold add_line, put, append_text, write_text. cbn [x_world w_texts]. rewrite !(proj2 (String.eqb_neq q path) Hq'). reflexivity.
  - intros q. rewrite P'. reflexivity.
Qed.
End Files.

(** what the histogram file says *)
Lemma histogram_entries threshold calls rs h : choices threshold calls [] = (rs, h) ->
  NoDup (map fst h) /\ forall c i n, In (c, i, n) h <-> (0 < n)%Z /\ n = Z.of_nat (count_if (chose (c, i)) rs).
Proof.
  intros Ec. assert (K : NoDup (map fst h) /\ (forall k, In k (map fst h) -> (0 < hist_get h k)%Z) /\ (forall k, 0 <= hist_get h k)%Z).
  { apply (choices_keys threshold _ _ _ _ Ec); [ constructor | intros k [] | ]. intros k. unfold hist_get. cbn. lia. }
  destruct K as (Nk & Pk & Zk). destruct (choices_counts threshold _ _ _ _ Ec) as [ G _ ].
  assert (G' : forall k, hist_get h k = Z.of_nat (count_if (chose k) rs)) by (intros k; rewrite G; unfold hist_get; cbn; lia).
  split; [ exact Nk | ]. intros c i n. rewrite <- (G' (c, i)). split.
  - intros Hin. rewrite (hist_get_in h (c, i) n Nk Hin). split; [ | reflexivity ]. rewrite <- (hist_get_in h (c, i) n Nk Hin). apply Pk. apply in_map_iff. exists (c, i, n). auto.
  - intros [ Hp -> ]. apply hist_in_get. lia.
Qed.

(* ---------- a run ---------- *)
Section Run.
Context {M : Type} (env : denv) (create_instance : rmeta -> res (stregion fnum)) (partition_impl : rmeta -> cmeta -> stregion fnum -> bool -> res part)
        (dtw : list fnum -> list fnum -> fnum) (format_float : nat -> fnum -> string) (show_series : list fnum -> string).
Context (fit : pdq -> list fnum -> res M) (order_of : M -> pdq) (forecast : M -> nat -> res (list fnum)) (search : mparams -> list fnum -> res pdq).
Context (set_order : list Z -> list Z) (point_order : list point -> list point) (choice : Z -> list Z -> Z -> res (list Z)).
Context (r : rmeta) (d : arr3 fnum) (sc : option (arr2 fnum * arr2 fnum)) (sr : suite).
Local Notation spt := (qregion d sc).
Local Notation g := (rm_region r).
Context (Hname : has_char "/" (rm_name r) = false) (Hq : qwf d sc) (Hspan : spans g (a3x d) (a3y d)) (Hu : usable g sr).
Local Notation evaluate := (evaluate_random_points env create_instance partition_impl dtw format_float show_series fit order_of forecast search set_order point_order choice).
Local Notation penalties_of cr := (medoid_penalties env create_instance partition_impl dtw fit order_of forecast search cr r spt).

Lemma run_generic (f : string -> list point -> point -> res (list fnum)) (I : xstate M -> Prop) ty sid cr count seed threshold s pts :
  (forall s p l, I s -> I (put s p l)) ->
  (forall s c ms pt, I s -> In (c, ms) sr -> in_grid (a3x d) (a3y d) pt -> exists s', penalties_of cr s c ms pt = (s', f c ms pt) /\ I s' /\ same_files s s') ->
  I s -> retrieve_suite_result (w_texts (x_world s) (table_at (rmeta_repr r) ty sid)) = Ok sr ->
  seeded_points set_order choice seed count (extract_all_medoid_indices point_order sr (a3y d)) (a3x d) (a3y d) = Ok pts -> Forall (in_grid (a3x d) (a3y d)) pts ->
  exists s' result, match evaluate cr r spt (suite_repr ty sid) count seed threshold s with
                    | (s, Raise e) => (s, Raise e)
                    | (s, Ok _) => produce_csv format_float show_series r spt (suite_repr ty sid) s
                    end = (s', result) /\
    left_by_run format_float (x_world s) (x_world s') result (rmeta_repr r) ty sid cr count seed threshold g d sr f pts.
Proof.
  intros Iput Hpure Hs Et Ep Hg. unfold evaluate_random_points. rewrite (table_at_path ty sid r Hname), Et. cbn [bind]. rewrite q_x, q_y, Ep. cbn [bind].
  rewrite (paths_eq cr r ty sid count seed Hname). set (cp := run_file "random_point" _ _ _ _ _ _). set (hp := run_file "hist" _ _ _ _ _ _).
  destruct (files_apart (rmeta_repr r) ty sid cr count seed ty sid) as (N1 & N2 & N3 & N4 & N5 & N6). fold cp hp in N1, N2, N3, N4, N5.
  destruct (header_ok r sr Hu (a3t d)) as (first & hd & Hf & Eh & El).
  replace (t_len spt) with (a3t d) by (destruct sc as [ [ ? ? ] | ]; reflexivity). rewrite Eh.
  assert (Hknown : forall c ms, In (c, ms) sr -> exists md, factory_from_repr c = Ok md) by (intros c ms Hin; apply (proj2 Hu c ms Hin)).
  set (s0 := add_line (put s cp []) cp (writerow hd)).
  assert (I0 : I s0) by (unfold s0, add_line, append_text; apply (Iput (put s cp []) cp), Iput, Hs).
  assert (T0 : w_texts (x_world s0) cp = Some [writerow hd]) by (unfold s0, add_line, put, append_text, write_text; cbn [x_world w_texts]; rewrite String.eqb_refl; reflexivity).
  assert (O0 : forall q, q <> cp -> w_texts (x_world s0) q = w_texts (x_world s) q).
  { intros q H. unfold s0, add_line, put, append_text, write_text. cbn [x_world w_texts]. rewrite !(proj2 (String.eqb_neq q cp) H). reflexivity. }
  destruct (write_choices_pure format_float show_series (penalties_of cr) f sr r d sc I Iput Hpure (proj1 Hq) Hknown cp threshold pts s0 [] [writerow hd] I0 Hg T0)
    as (s1 & lines & rs & h & Ec & Ew & I1 & F & T1 & O1 & P1).
  cbn [app] in T1. rewrite El in T1.
  assert (P1' : forall q, w_pickles (x_world s1) q = w_pickles (x_world s) q) by (intros q; rewrite P1; reflexivity).
  assert (F' : Forall2 (fun '(p, (c, i, m)) line => exists s, series3 d (fst p) (snd p) = Ok s /\ line_of format_float (rmeta_repr r) c i m s line) (combine pts (fst (leading rs))) lines).
  { clear - F. induction F as [ | [ p [ [ c i ] m ] ] l ps ls H F IH ]; constructor; auto. }
  change (exists s' result, match (match write_choices format_float show_series (penalties_of cr) cp sr r spt threshold [] s0 pts with
                                   | (s, Raise e) => (s, Raise e)
                                   | (s, Ok h) => (put s hp (map writerow (histogram_rows h)), Ok tt)
                                   end) with
                            | (s, Raise e) => (s, Raise e)
                            | (s, Ok _) => produce_csv format_float show_series r spt (suite_repr ty sid) s
                            end = (s', result) /\
    left_by_run format_float (x_world s) (x_world s') result (rmeta_repr r) ty sid cr count seed threshold g d sr f pts). rewrite Ew.
  destruct (snd (leading rs)) as [ e | ] eqn:Ee.
  - exists s1, (Raise e). split; [ reflexivity | ]. exists rs, h, first. split; [ exact Ec | ]. split; [ exact Hf | ]. fold cp hp. split; [ exists lines; auto | ]. split; [ exact P1' | ].
    rewrite Ee. split; [ reflexivity | ]. intros q H. rewrite (O1 q H). apply O0, H.
  - set (s2 := put s1 hp (map writerow (histogram_rows h))).
    assert (T2 : forall q, w_texts (x_world s2) q = if String.eqb q hp then Some (map writerow (histogram_rows h)) else w_texts (x_world s1) q) by (intros q; reflexivity).
    destruct (produce_ok format_float show_series r d sc sr Hname Hq Hspan Hu ty sid s2) as (s3 & mlines & first' & E3 & Hf' & T3 & F3 & O3 & P3).
    { rewrite T2, (proj2 (String.eqb_neq _ hp) (not_eq_sym N5)), O1, O0 by auto. exact Et. }
    assert (first' = first).
    { destruct Hf as (c1 & m1 & r1 & E1 & E2), Hf' as (c2 & m2 & r2 & E4 & E5). rewrite E1 in E4. injection E4 as <- <- <-. rewrite E2 in E5. injection E5 as <-. reflexivity. }
    subst first'. exists s3, (Ok tt). split; [ exact E3 | ]. exists rs, h, first. split; [ exact Ec | ]. split; [ exact Hf | ]. fold cp hp. split.
    { exists lines. split; [ | exact F' ]. rewrite O3 by exact N2. rewrite T2, (proj2 (String.eqb_neq cp hp) N1). exact T1. }
    split. { intros q. rewrite P3. apply P1'. }
    rewrite Ee. split; [ reflexivity | ]. split.
    { exists h. split; [ | exact (histogram_entries threshold _ rs h Ec) ]. rewrite O3 by exact N3. rewrite T2, String.eqb_refl.
      unfold histogram_rows, writerow. cbn [map]. rewrite map_map. do 2 f_equal. apply map_ext. intros [ [ c i ] n ]. reflexivity. }
    split. { exists mlines. split; auto. }
    intros q H1 H2 H3. rewrite O3 by exact H3. rewrite T2, (proj2 (String.eqb_neq q hp) H2), O1, O0 by auto. reflexivity.
Qed.
End Run.

(* ---------- results of sequences of choices ---------- *)
Lemma choices_each threshold f sr : forall pts h rs h' i x, choices threshold (map (fun p => Call sr p f) pts) h = (rs, h') -> nth_error rs i = Some x ->
  exists p h0, nth_error pts i = Some p /\ x = fst (choose_medoid f sr p threshold h0).
Proof.
  induction pts as [ | p pts IH ]; intros h rs h' i x; cbn [map choices c_penalties c_suite c_point].
  - intros [= <- <-] H. destruct i; discriminate.
  - destruct (choose_medoid f sr p threshold h) as [ r1 h1 ] eqn:E1. destruct (choices threshold (map (fun p => Call sr p f) pts) h1) as [ rs1 h2 ] eqn:E2. intros [= <- <-].
    destruct i as [ | i ]; cbn [nth_error]; [ intros [= <-]; exists p, h; rewrite E1; auto | ]. intros H. apply (IH _ _ _ _ _ E2 H).
Qed.
Lemma choices_length threshold f sr : forall pts h rs h', choices threshold (map (fun p => Call sr p f) pts) h = (rs, h') -> length rs = length pts.
Proof.
  induction pts as [ | p pts IH ]; intros h rs h'; cbn [map choices c_penalties c_suite c_point]; [ intros [= <- <-]; reflexivity | ].
  destruct (choose_medoid f sr p threshold h) as [ r1 h1 ] eqn:E1. destruct (choices threshold (map (fun p => Call sr p f) pts) h1) as [ rs1 h2 ] eqn:E2. intros [= <- <-].
  cbn [length]. f_equal. eapply IH; eauto.
Qed.
Lemma leading_capacity {A} (rs : list (res A)) n : (forall i x, nth_error rs i = Some x -> (i < n -> succeeded x = true) /\ (n <= i -> x = Raise ValueError)) ->
  length (fst (leading rs)) = Nat.min n (length rs) /\ snd (leading rs) = if (length rs <=? n)%nat then None else Some ValueError.
Proof.
  revert n. induction rs as [ | [ a | e ] rs IH ]; intros n H; cbn [leading].
  - split; [ cbn; lia | reflexivity ].
  - destruct n as [ | n ]; [ specialize (H 0 _ eq_refl); destruct H as [ _ H ]; specialize (H (le_n 0)); discriminate | ].
    destruct (IH n) as [ A1 A2 ]. { intros i x Hi. specialize (H (S i) x Hi). split; intros; apply H; lia. }
    destruct (leading rs) as [ l o ]. cbn [fst snd length] in *. split; [ lia | exact A2 ].
  - destruct n as [ | n ]; [ | specialize (H 0 _ eq_refl); destruct H as [ H _ ]; specialize (H ltac:(lia)); discriminate ].
    specialize (H 0 _ eq_refl). destruct H as [ _ H ]. specialize (H (le_n 0)). injection H as ->. split; reflexivity.
Qed.
Lemma in_blocked point_order sr y i : any_order point_order ->
  In i (extract_all_medoid_indices point_order sr y) <-> exists m, In m (flat_map snd sr) /\ i = (fst m * Z.of_nat y + snd m)%Z.
Proof.
  intros Ho. unfold extract_all_medoid_indices. rewrite in_map_iff. split.
  - intros (m & <- & H). exists m. split; [ | reflexivity ]. apply (Permutation.Permutation_in _ (Ho _)) in H. apply nodup_In in H. exact H.
  - intros (m & H & ->). exists m. split; [ reflexivity | ]. apply (Permutation.Permutation_in _ (Permutation.Permutation_sym (Ho _))). apply nodup_In. exact H.
Qed.

Lemma by_distance_fit (dist : point -> point -> Q) g sr p : usable g sr -> penalties_fit (by_distance (fun q pt => Fin (dist q pt)) g) sr p /\
  forall c ms ps v, In (c, ms) sr -> by_distance (fun q pt => Fin (dist q pt)) g c ms p = Ok ps -> In v ps -> exists q, v = Fin q.
Proof.
  intros [ _ H ]. split.
  - intros c ms Hin. destruct (H c ms Hin) as (Hne & _). split; [ exact Hne | ]. eexists. split; [ reflexivity | ]. split; [ apply map_length | ].
    intros v Hv. apply in_map_iff in Hv. destruct Hv as (m & <- & _). discriminate.
  - intros c ms ps v _ [= <-] Hv. apply in_map_iff in Hv. destruct Hv as (m & <- & _). eauto.
Qed.

(** the clusterings of a table have different names *)
Lemma dict_set_nodup {V} k (v : V) d : NoDup (map fst d) -> NoDup (map fst (dict_set String.eqb k v d)) /\
  forall k', In k' (map fst (dict_set String.eqb k v d)) -> k' = k \/ In k' (map fst d).
Proof.
  induction d as [ | [ k1 v1 ] d IH ]; cbn [dict_set map fst].
  - intros _. split; [ constructor; [ intros [] | constructor ] | ]. intros k' [ <- | [] ]. auto.
  - intros Hn. inversion Hn as [ | ? ? H1 H2 ]; subst. destruct (String.eqb k1 k) eqn:E; cbn [map fst].
    + split; [ exact Hn | ]. auto.
    + destruct (IH H2) as [ A B ]. split.
      * constructor; [ | exact A ]. intros H. destruct (B k1 H) as [ -> | H' ]; [ rewrite String.eqb_refl in E; discriminate | auto ].
      * intros k' [ <- | H ]; [ right; left; reflexivity | ]. destruct (B k' H); [ auto | right; right; auto ].
Qed.
Lemma retrieved_nodup file sr : retrieve_suite_result file = Ok sr -> NoDup (map fst sr).
Proof.
  destruct file as [ [ | header lines ] | ]; cbn [retrieve_suite_result]; try discriminate.
  assert (G : forall acc, NoDup (map fst acc) -> foldM (fun result line =>
               let row := csv_parse line in
               clustering_repr <- getitem row 0 ;;
               medoids_str <- getitem row 2 ;;
               medoids <- parse_medoids medoids_str ;;
               Ok (dict_set String.eqb clustering_repr medoids result)) lines acc = Ok sr -> NoDup (map fst sr)).
  { induction lines as [ | l lines IH ]; intros acc Ha; cbn [foldM]; [ intros [= <-]; exact Ha | ]. cbv zeta.
    destruct (getitem (csv_parse l) 0) as [ a | ]; cbn [bind]; [ | discriminate ]. destruct (getitem (csv_parse l) 2) as [ b | ]; cbn [bind]; [ | discriminate ].
    destruct (parse_medoids b); cbn [bind]; [ | discriminate ]. apply IH. apply dict_set_nodup. exact Ha. }
  apply (G []). constructor.
Qed.

(** there are at least as many free positions as points without the medoids *)
Lemma free_enough x y sr : exists free, free_positions x y sr free /\ x * y <= length free + suite_size sr.
Proof.
  set (bl := map (fun m : point => (fst m * Z.of_nat y + snd m)%Z) (flat_map snd sr)).
  set (keep := fun v => negb (existsb (Z.eqb v) bl)).
  exists (filter keep (zrange 0 (Z.of_nat (x * y)))). split.
  - split; [ apply NoDup_filter, zrange_nodup | ]. intros v. rewrite filter_In, in_zrange. unfold keep. rewrite Bool.negb_true_iff. split; intros [ A B ]; (split; [ lia | ]).
    + intros m Hm ->. assert (existsb (Z.eqb (fst m * Z.of_nat y + snd m)) bl = true); [ | congruence ]. apply existsb_exists. eexists. split; [ | apply Z.eqb_refl ].
      unfold bl. apply (in_map (fun m : point => (fst m * Z.of_nat y + snd m)%Z)). exact Hm.
    + apply Bool.not_true_is_false. intros H. apply existsb_exists in H. destruct H as (b & Hb & E). apply Z.eqb_eq in E. subst b. unfold bl in Hb. apply in_map_iff in Hb.
      destruct Hb as (m & <- & Hm). exact (B m Hm eq_refl).
  - replace (suite_size sr) with (length bl) by (unfold bl, suite_size; rewrite map_length; reflexivity).
    assert (E : length (zrange 0 (Z.of_nat (x * y))) = x * y) by (rewrite zrange_length; lia). rewrite <- E at 1.
    assert (Fl : forall l : list Z, length l = length (filter keep l) + length (filter (fun v => negb (keep v)) l)).
    { induction l as [ | a l IH ]; cbn [filter]; [ reflexivity | ]. destruct (keep a); cbn [negb length]; lia. }
    rewrite Fl. assert (length (filter (fun v => negb (keep v)) (zrange 0 (Z.of_nat (x * y)))) <= length bl); [ | lia ].
    apply NoDup_incl_length; [ apply NoDup_filter, zrange_nodup | ]. intros v Hv. apply filter_In in Hv. destruct Hv as [ _ Hv ]. unfold keep in Hv.
    rewrite Bool.negb_involutive in Hv. apply existsb_exists in Hv. destruct Hv as (b & Hb & Eb). apply Z.eqb_eq in Eb. subst. exact Hb.
Qed.
