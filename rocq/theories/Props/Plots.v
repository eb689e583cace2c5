(** Properties C99-C103: the silhouette analysis and what the pictures show. *)
From Coq Require Import String QArith ZifyBool ZifyNat Sorting.Sorted.
From Verif Require Import Base.Py Base.Arr Base.Float Base.Str Base.PyFacts Base.ArrFacts Base.FloatFacts Base.StrFacts Model.Region Model.KMedoids Model.Variance Model.Plots
  Spec.Plots Spec.Variance Spec.Medoids Proofs.VarianceFacts Proofs.KMedoidsFacts Proofs.PlotsFacts Props.KMedoids.
Local Notation length := List.length.
Local Close Scope Q_scope.
Local Open Scope nat_scope.

(* ---------------------------------------------------------------- C99 *)
(** what one run of the analysis finds: the average silhouette, the medoids and the labels *)
Definition one_run {color} (cmap : fnum -> color) (is_black : color -> bool) choice score samples X m md x_len y_len (seed k : Z) : res (fnum * list Z * list nat) :=
  r <- single_kmedoids choice X m k seed md ;;
  '(avg, _) <- single_silhouette cmap is_black score samples k seed (c_labels (r_cost r)) m md x_len y_len ;;
  Ok (avg, r_medoids r, c_labels (r_cost r)).

Lemma pass_ok {color} (cmap : fnum -> color) is_black choice score samples X m md x y seed b files k a ms ls :
  one_run cmap is_black choice score samples X m md x y seed k = Ok (a, ms, ls) ->
  silhouette_pass cmap is_black choice score samples X m md x y seed (b, files) k =
  Ok (if flt (b_avg b) a then SBest a k (Some seed) (Some ms) (Some ls) else b,
      files ++ match sm_save md with Some save => [graph_file save k seed] | None => [] end).
Proof.
  unfold one_run, silhouette_pass. destruct (single_kmedoids choice X m k seed md) as [r|e]; cbn [bind]; [|discriminate].
  unfold single_silhouette. destruct (if sm_show md then _ else _); cbn [bind]; [|discriminate].
  destruct (plot_clustering_silhouette _ _ _ _ _) as [[avg cs]|e]; cbn [bind]; [|discriminate]. intros E. injection E as <- <- <-. reflexivity.
Qed.
Lemma pass_raise {color} (cmap : fnum -> color) is_black choice score samples X m md x y seed b files k e :
  one_run cmap is_black choice score samples X m md x y seed k = Raise e ->
  silhouette_pass cmap is_black choice score samples X m md x y seed (b, files) k = Raise e.
Proof.
  unfold one_run, silhouette_pass. destruct (single_kmedoids choice X m k seed md) as [r|e']; cbn [bind]; [|congruence].
  unfold single_silhouette. destruct (if sm_show md then _ else _); cbn [bind]; [|congruence].
  destruct (plot_clustering_silhouette _ _ _ _ _) as [[avg cs]|e']; cbn [bind]; congruence.
Qed.

Section Analysis.
Context {color : Type} (cmap : fnum -> color) (is_black : color -> bool) (choice : Z -> nat -> Z -> res (list Z)).
Context (score : arr2 fnum -> list Z -> res fnum) (samples : arr2 fnum -> list Z -> res (list fnum)).
Context (X : dataset) (m : arr2 fnum) (md : smeta) (x_len y_len : nat).
Context (avg : Z -> Z -> fnum) (medoids : Z -> Z -> list Z) (labels : Z -> Z -> list nat).
Notation run := (one_run cmap is_black choice score samples X m md x_len y_len).
Definition written (runs : list (Z * Z)) : list string := match sm_save md with Some save => map (fun p => graph_file save (snd p) (fst p)) runs | None => [] end.

Lemma analysis_spec runs : (forall s k, In (s, k) runs -> run s k = Ok (avg s k, medoids s k, labels s k)) ->
  exists b, foldM (fun st p => silhouette_pass cmap is_black choice score samples X m md x_len y_len (fst p) st (snd p)) runs (no_best, []) = Ok (b, written runs) /\
    ((b = no_best /\ (forall s k, In (s, k) runs -> flt (Fin (-1)) (avg s k) = false)) \/
     exists l1 s k l2, runs = l1 ++ (s, k) :: l2 /\ b = SBest (avg s k) k (Some s) (Some (medoids s k)) (Some (labels s k)) /\
       flt (Fin (-1)) (avg s k) = true /\ (forall s' k', In (s', k') runs -> flt (avg s k) (avg s' k') = false) /\
       (forall s' k', In (s', k') l1 -> flt (avg s' k') (avg s k) = true \/ avg s' k' = NaN)).
Proof.
  induction runs as [|[s k] l IH] using rev_ind; intros Hs.
  - exists no_best. split; [unfold written; destruct (sm_save md); reflexivity|]. left. split; auto. intros ? ? [].
  - destruct IH as (b & E & H); [intros; apply Hs; apply in_app_iff; auto|].
    rewrite foldM_app, E. cbn [bind foldM fst snd]. rewrite (pass_ok _ _ _ _ _ _ _ _ _ _ _ _ _ _ _ _ _ (Hs s k ltac:(apply in_app_iff; right; left; auto))). cbn [bind].
    assert (W : (written l ++ match sm_save md with Some save => [graph_file save k s] | None => [] end = written (l ++ [(s, k)]))%list).
    { unfold written. destruct (sm_save md); [rewrite map_app|]; reflexivity. }
    rewrite W.
    destruct (flt (b_avg b) (avg s k)) eqn:F.
    + eexists. split; [reflexivity|]. right. exists l, s, k, []. split; auto. split; auto.
      assert (G : flt (Fin (-1)) (avg s k) = true /\ forall s' k', In (s', k') l -> flt (b_avg b) (avg s' k') = false).
      { destruct H as [[-> Hm]|(l1 & s0 & k0 & l2 & -> & -> & Hb & Hm & _)]; cbn [b_avg no_best] in *; split; auto. eapply flt_trans; eauto. }
      destruct G as [G1 G2]. split; auto. split.
      * intros s' k' Hc'. apply in_app_iff in Hc'. destruct Hc' as [Hc'|[Hc'|[]]]; [|injection Hc' as <- <-; apply flt_irrefl].
        specialize (G2 s' k' Hc'). destruct (flt (avg s k) (avg s' k')) eqn:F2; auto. rewrite (flt_trans _ _ _ F F2) in G2. discriminate.
      * intros s' k' Hc'. specialize (G2 s' k' Hc'). destruct (is_nan (avg s' k')) eqn:N; [right; destruct (avg s' k'); auto; discriminate|]. left.
        assert (NB : is_nan (b_avg b) = false) by (apply flt_not_nan in F; tauto).
        apply fle_lt_trans with (b_avg b); auto. apply fle_iff; auto.
    + exists b. split; auto. destruct H as [[-> Hm]|(l1 & s0 & k0 & l2 & -> & -> & Hb & Hm & Hf)].
      * left. split; auto. intros s' k' Hc'. apply in_app_iff in Hc'. destruct Hc' as [Hc'|[Hc'|[]]]; auto. injection Hc' as <- <-. exact F.
      * right. exists l1, s0, k0, (l2 ++ [(s, k)])%list. split; [rewrite <- app_assoc; auto|]. split; auto. split; auto. split; auto.
        intros s' k' Hc'. apply in_app_iff in Hc'. destruct Hc' as [Hc'|[Hc'|[]]]; auto. injection Hc' as <- <-. exact F.
Qed.
End Analysis.

(** the result belongs to one run, the first of those with the largest average (above -1; NaN is passed over), and its
    number of clusters, seed, medoids and labels are those of that run; a picture is written for every run *)
Theorem C99_best_run : forall color (cmap : fnum -> color) is_black choice score samples X matrix compute m md x_len y_len avg medoids labels,
  (matrix = Some m \/ matrix = None /\ compute X = Ok m) ->
  (forall seed k, In seed (sm_seeds md) -> In k (sm_ks md) ->
     one_run cmap is_black choice score samples X m md x_len y_len seed k = Ok (avg seed k, medoids seed k, labels seed k)) ->
  let runs := all_runs (sm_seeds md) (sm_ks md) in
  exists b files, do_silhouette_analysis cmap is_black choice score samples X matrix compute md x_len y_len = Ok (b, files) /\
    files = match sm_save md with Some save => map (fun p => graph_file save (snd p) (fst p)) runs | None => [] end /\
    ((b_k b = 0%Z /\ b_seed b = None /\ b_medoids b = None /\ b_labels b = None /\
        (forall s k, In (s, k) runs -> flt (Fin (-1)) (avg s k) = false)) \/
     exists l1 s k l2, runs = l1 ++ (s, k) :: l2 /\
       b_k b = k /\ b_seed b = Some s /\ b_medoids b = Some (medoids s k) /\ b_labels b = Some (labels s k) /\ b_avg b = avg s k /\
       flt (Fin (-1)) (avg s k) = true /\
       (forall s' k', In (s', k') runs -> flt (avg s k) (avg s' k') = false) /\
       (forall s' k', In (s', k') l1 -> flt (avg s' k') (avg s k) = true \/ avg s' k' = NaN)).
Proof.
  intros color cmap is_black choice score samples X matrix compute m md x y avg medoids labels Hm Hr runs.
  unfold do_silhouette_analysis. assert (Em : match matrix with Some m => Ok m | None => compute X end = Ok m) by (destruct Hm as [->|[-> H]]; auto).
  rewrite Em. cbn [bind]. rewrite (foldM_nested (fun seed st k => silhouette_pass cmap is_black choice score samples X m md x y seed st k)).
  destruct (analysis_spec cmap is_black choice score samples X m md x y avg medoids labels runs) as (b & E & H).
  { intros s k Hin. apply in_runs in Hin. apply Hr; tauto. }
  exists b, (written md runs). split; [exact E|]. split; [reflexivity|].
  destruct H as [[-> H]|(l1 & s & k & l2 & R & -> & A & B & C)]; [left; repeat split; auto|].
  right. exists l1, s, k, l2. repeat (split; [assumption || reflexivity|]). assumption.
Qed.
Print Assumptions C99_best_run.

(** the analysis stops with the exception of the first run that fails *)
Theorem C99_first_failure : forall color (cmap : fnum -> color) is_black choice score samples X matrix compute m md x_len y_len l1 s k l2 e,
  (matrix = Some m \/ matrix = None /\ compute X = Ok m) ->
  all_runs (sm_seeds md) (sm_ks md) = l1 ++ (s, k) :: l2 ->
  (forall s' k', In (s', k') l1 -> exists r, one_run cmap is_black choice score samples X m md x_len y_len s' k' = Ok r) ->
  one_run cmap is_black choice score samples X m md x_len y_len s k = Raise e ->
  do_silhouette_analysis cmap is_black choice score samples X matrix compute md x_len y_len = Raise e.
Proof.
  intros color cmap is_black choice score samples X matrix compute m md x y l1 s k l2 e Hm Hr H1 He.
  unfold do_silhouette_analysis. assert (Em : match matrix with Some m => Ok m | None => compute X end = Ok m) by (destruct Hm as [->|[-> H]]; auto).
  rewrite Em. cbn [bind]. rewrite (foldM_nested (fun seed st k => silhouette_pass cmap is_black choice score samples X m md x y seed st k)). rewrite Hr. clear Hr Em Hm.
  generalize (no_best, @nil string). induction l1 as [|[s' k'] l1 IH]; intros [b fs]; cbn [app foldM fst snd].
  - rewrite (pass_raise _ _ _ _ _ _ _ _ _ _ _ _ _ _ _ He). reflexivity.
  - destruct (H1 s' k' (or_introl eq_refl)) as ([[a ms] ls] & E). rewrite (pass_ok _ _ _ _ _ _ _ _ _ _ _ _ _ _ _ _ _ E). cbn [bind]. apply IH. intros; apply H1; right; auto.
Qed.
Print Assumptions C99_first_failure.

(** with initial medoids, the run for k starts from the first k of them: it costs no more than they do *)
Theorem C99_first_k_medoids : forall choice X m k seed md ms c0 r,
  instance X (DMatrix m) -> dist_finite X (DMatrix m) -> fle (Fin 0) (sm_tol md) = true -> sm_mode md <> OtherMode ->
  sm_initial md = Some ms -> 1 <= k <= length ms -> valid_indices X (firstn k ms) -> consistent X (DMatrix m) (firstn k ms) c0 ->
  single_kmedoids choice X m (Z.of_nat k) seed md = Ok r ->
  fle (c_total (r_cost r)) (c_total c0) = true.
Proof.
  intros choice X m k seed md ms c0 r HI HF Ht Hmd Hi Hk HV Hc Hr. unfold single_kmedoids in Hr. rewrite Hi in Hr.
  assert (E : py_slice 0 (Z.of_nat k) ms = firstn k ms).
  { rewrite py_slice_in by lia. cbn [skipn Z.to_nat]. replace (Z.to_nat (Z.of_nat k - 0)) with k by lia. reflexivity. }
  rewrite E in Hr. refine (proj1 (C26_at_most_initial_cost _ _ _ _ _ _ _ _ _ (firstn k ms) c0 r HI HF Ht Hmd _ Hc Hr)).
  split; [|split; [rewrite firstn_length; lia|split; [lia|exact HV]]].
  destruct ms as [|z ms]; [cbn in Hk; lia|]. destruct k; [lia|]. reflexivity.
Qed.
Print Assumptions C99_first_k_medoids.

(** the pictures of different runs have different names; a plot name replaces the default place only *)
Theorem C99_file_names : forall save k s k' s', graph_file save k s = graph_file save k' s' -> k = k' /\ s = s'.
Proof. exact graph_file_inj. Qed.
Print Assumptions C99_file_names.

Theorem C99_plot_name : forall name, name <> ""%string ->
  save_graphs_with (Some default_save_graphs) (Some name) = Some ("plots/" ++ name)%string /\
  (forall save, save <> default_save_graphs -> save_graphs_with (Some save) (Some name) = Some save) /\
  (forall save, save_graphs_with save None = save) /\ save_graphs_with None (Some name) = None.
Proof.
  intros name H. unfold save_graphs_with. apply String.eqb_neq in H. rewrite H. cbn [negb andb]. split; [reflexivity|]. split; [|split; auto].
  intros save Hs. apply String.eqb_neq in Hs. rewrite Hs. reflexivity.
Qed.
Print Assumptions C99_plot_name.

(* ---------------------------------------------------------------- C100 *)
(** the bands of a silhouette plot, from its calls *)
Definition bands {color} (calls : list (@sil_call color)) : list (nat * list fnum * color) :=
  flat_map (fun c => match c with Fill y vs c => [(y, vs, c)] | _ => [] end) calls.
Definition numbers {color} (calls : list (@sil_call color)) : list (Q * nat) :=
  flat_map (fun c => match c with Text h l => [(h, l)] | _ => [] end) calls.

(** there is one band for each number below the number of distinct labels; band i has the sorted values of the samples
    with label i, begins ten above the end of the one before (the first at 10), ends below the top of the axis, and carries
    its number at its middle *)
Theorem C100_bands : forall color (cmap : fnum -> color) score samples n labels avg values,
  score labels = Ok avg -> samples labels = Ok values -> length values = length labels -> length labels = n ->
  exists calls, plot_clustering_silhouette cmap score samples n labels = Ok (avg, calls) /\
    let k := length (nodup Z.eq_dec labels) in
    In (SetYLim 0 (n + (k + 1) * 10)) calls /\ In (VLine avg) calls /\
    length (bands calls) = k /\
    (forall i, i < k -> exists y vs, nth_error (bands calls) i = Some (y, vs, cmap (fdiv (fof_nat i) (fof_nat k))) /\
        Permutation (values_of labels values (Z.of_nat i)) vs /\
        ((forall v, In v values -> is_nan v = false) -> StronglySorted (fun a b => fle a b = true) vs) /\
        (i = 0 -> y = 10) /\
        (forall y' vs' c', nth_error (bands calls) (S i) = Some (y', vs', c') -> y' = y + length vs + 10) /\
        y + length vs + 10 <= n + (k + 1) * 10 /\
        nth_error (numbers calls) i = Some ((inject_Z (Z.of_nat y) + (1 # 2) * inject_Z (Z.of_nat (length vs)))%Q, i)).
Proof.
  intros color cmap score samples n labels avg values Hs Hv Hl Hn. unfold plot_clustering_silhouette. rewrite Hs, Hv. cbn [bind].
  set (k := length (nodup Z.eq_dec labels)). pose proof (draw_clusters_spec cmap values labels k Hl) as D. cbv zeta in D. rewrite D. cbn [bind]. clear D.
  set (vs := fun i => np_sort (values_of labels values (Z.of_nat i))). set (sizes := fun i => length (vs i)).
  eexists. split; [reflexivity|]. cbv zeta.
  assert (B : forall c1 c2, @bands color (c1 :: c2) = match c1 with Fill y v c => (y, v, c) :: bands c2 | _ => bands c2 end) by (intros [ | | | ] c2; reflexivity).
  change (@bands color) with (@fills color). change (@numbers color) with (@texts color).
  set (h := fun i => (inject_Z (Z.of_nat (lower sizes i)) + (1 # 2) * inject_Z (Z.of_nat (sizes i)))%Q).
  set (c := fun i => cmap (fdiv (fof_nat i) (fof_nat k))).
  set (body := flat_map _ (seq 0 k)).
  assert (EF : fills (SetYLim 0 (n + (k + 1) * 10) :: body ++ [VLine avg]) = map (fun i => (lower sizes i, vs i, c i)) (seq 0 k)).
  { change (fills (body ++ [VLine avg]) = map (fun i => (lower sizes i, vs i, c i)) (seq 0 k)). rewrite fills_app. cbn [fills flat_map]. rewrite app_nil_r. exact (fills_clusters sizes vs c h (seq 0 k)). }
  assert (ET : texts (SetYLim 0 (n + (k + 1) * 10) :: body ++ [VLine avg]) = map (fun i => (h i, i)) (seq 0 k)).
  { change (texts (body ++ [VLine avg]) = map (fun i => (h i, i)) (seq 0 k)). rewrite texts_app. cbn [texts flat_map]. rewrite app_nil_r. exact (texts_clusters sizes vs c h (seq 0 k)). }
  rewrite EF, ET. clear EF ET B. split; [left; reflexivity|]. split; [right; apply in_app_iff; right; left; reflexivity|].
  split; [rewrite map_length, seq_length; reflexivity|].
  intros i Hi. exists (lower sizes i), (vs i).
  assert (N : forall j, j < k -> nth_error (seq 0 k) j = Some j) by (intros j Hj; rewrite nth_error_nth' with (d := 0) by (rewrite seq_length; auto); rewrite seq_nth by auto; reflexivity).
  split; [rewrite nth_error_map, N by auto; reflexivity|]. split; [apply np_sort_perm|]. split; [|split; [|split; [|split]]].
  - intros Hnan. apply np_sort_sorted. intros w Hw. apply Hnan. unfold values_of in Hw. apply in_map_iff in Hw. destruct Hw as ([a b] & <- & Hin). apply filter_In in Hin. destruct Hin as [Hin _]. apply in_combine_r in Hin. exact Hin.
  - intros ->. reflexivity.
  - intros y' vs' c' H. rewrite nth_error_map in H. destruct (Nat.lt_ge_cases (S i) k) as [Hlt|Hge].
    + rewrite N in H by auto. cbn [option_map] in H. injection H as <- <- <-. apply lower_S.
    + rewrite (proj2 (nth_error_None (seq 0 k) (S i))) in H by (rewrite seq_length; auto). discriminate.
  - change (length (vs i)) with (sizes i). rewrite <- lower_S. unfold lower. rewrite list_sum_plus, seq_length.
    assert (S : list_sum (map sizes (seq 0 (S i))) <= length labels); [|lia].
    rewrite (map_ext sizes (fun i => length (values_of labels values (Z.of_nat i)))); [apply sizes_sum; auto|].
    intros a. unfold sizes, vs. symmetry. apply Permutation_length, np_sort_perm.
  - rewrite nth_error_map, N by auto. reflexivity.
Qed.
Print Assumptions C100_bands.

(** if the labels are 0, ..., k - 1, every sample is drawn, once; and every cluster has the colour it has in the map of the
    labels *)
Theorem C100_every_sample_shown : forall color (cmap : fnum -> color) score samples labels avg values k calls,
  0 < k -> labels_are labels k -> samples labels = Ok values -> length values = length labels ->
  plot_clustering_silhouette cmap score samples (length labels) labels = Ok (avg, calls) ->
  Permutation (flat_map (fun b => snd (fst b)) (bands calls)) values /\
  forall x y pixels, label_colors cmap (mk2 x y labels) = Ok pixels ->
    forall p i, nth_error labels p = Some (Z.of_nat i) -> exists y vs c, nth_error (bands calls) i = Some (y, vs, c) /\ nth_error (a2d pixels) p = Some c.
Proof.
  intros color cmap score samples labels avg values k calls Hk HL Hv Hl HP.
  assert (Hs : score labels = Ok avg).
  { unfold plot_clustering_silhouette in HP. destruct (score labels) as [a|]; cbn [bind] in HP; [|discriminate]. rewrite Hv in HP. cbn [bind] in HP. destruct (draw_clusters _ _ _ _) as [[? ?]|]; cbn [bind] in HP; [|discriminate]. congruence. }
  destruct (C100_bands color cmap score samples (length labels) labels avg values Hs Hv Hl eq_refl) as (calls' & E & H). rewrite E in HP. injection HP as ->. cbv zeta in H.
  rewrite (labels_count _ _ HL) in H. destruct H as (_ & _ & Hlen & Hb). split.
  - assert (P : Permutation (flat_map (fun b => snd (fst b)) (bands calls)) (flat_map (fun i => values_of labels values (Z.of_nat i)) (seq 0 k))).
    { rewrite <- Hlen in *. clear - Hb. set (bs := bands calls) in *. clearbody bs.
      assert (G : forall bs' o, (forall i, i < length bs' -> exists y vs c, nth_error bs' i = Some (y, vs, c) /\ Permutation (values_of labels values (Z.of_nat (o + i))) vs) ->
                 Permutation (flat_map (fun b : nat * list fnum * color => snd (fst b)) bs') (flat_map (fun i => values_of labels values (Z.of_nat i)) (seq o (length bs')))).
      { induction bs' as [|b bs' IH]; intros o H; cbn [flat_map length seq]; auto. apply Permutation_app.
        - destruct (H 0 ltac:(cbn; lia)) as (y & vs & c & E & P). cbn in E. injection E as ->. cbn [fst snd]. rewrite Nat.add_0_r in P. symmetry. exact P.
        - apply IH. intros i Hi. destruct (H (S i) ltac:(cbn; lia)) as (y & vs & c & E & P). exists y, vs, c. split; auto. replace (S o + i) with (o + S i) by lia. exact P. }
      apply G. intros i Hi. destruct (Hb i Hi) as (y & vs & E & P & _). exists y, vs. eexists. split; [exact E|]. cbn [Nat.add]. exact P. }
    rewrite P, (values_all labels values k Hl).
    rewrite (filter_all _ (combine labels values)).
    + assert (Em : map snd (combine labels values) = values); [|rewrite Em; reflexivity].
      clear - Hl. revert labels Hl. induction values as [|v vs IH]; intros [|l ls] H; cbn in *; try discriminate; auto. f_equal. apply IH. lia.
    + intros [a b] Hin. apply in_combine_l in Hin. apply HL in Hin. cbn [fst]. lia.
  - intros x y pixels Hp p i Hi. unfold label_colors in Hp. cbn [a2d a2x a2y] in Hp. rewrite (labels_max labels k Hk HL) in Hp. cbn [bind] in Hp. injection Hp as <-. cbn [a2d].
    assert (Hik : i < k) by (apply nth_error_In in Hi; apply HL in Hi; lia). destruct (Hb i Hik) as (y' & vs & E' & _). exists y', vs. eexists. split; [exact E'|].
    rewrite nth_error_map, Hi. cbn [option_map]. unfold fint, fof_nat. replace (Z.of_nat k - 1 + 1)%Z with (Z.of_nat k) by lia. reflexivity.
Qed.
Print Assumptions C100_every_sample_shown.

(** otherwise samples can be missing: with the labels 0 and 2 the sample with label 2 is not drawn *)
Theorem C100_every_sample_shown_refuted : exists score samples labels values calls,
  samples labels = Ok values /\ length values = length labels /\
  plot_clustering_silhouette (fun v => v) score samples (length labels) labels = Ok (Fin 0, calls) /\
  exists v, In v values /\ ~ In v (flat_map (fun b => snd (fst b)) (bands calls)).
Proof.
  exists (fun _ => Ok (Fin 0)), (fun _ => Ok [Fin (1 # 2); Fin (1 # 4); Fin (1 # 3)]), [0; 2; 0]%Z. eexists. eexists.
  split; [reflexivity|]. split; [reflexivity|]. split; [vm_compute; reflexivity|].
  exists (Fin (1 # 4)). split; [right; left; reflexivity|]. vm_compute. intuition discriminate.
Qed.
Print Assumptions C100_every_sample_shown_refuted.

(* ---------------------------------------------------------------- C101 *)
(** the two pictures show, at row i and column j, the distance between the point (i, j) and the point (0, 0), and the
    distance between (i, j) and the point in the middle, whose coordinates are half the sides, rounded down *)
Theorem C101_distance_pictures : forall color x_len y_len m, 0 < x_len -> 0 < y_len -> wf2 m -> a2x m = x_len * y_len -> a2y m = x_len * y_len ->
  exists first center, show_distances x_len y_len m = Ok [[@Heatmap color first]; [Heatmap center]] /\
    a2x first = x_len /\ a2y first = y_len /\ a2x center = x_len /\ a2y center = y_len /\
    forall i j, i < x_len -> j < y_len ->
      get2 first (Z.of_nat i) (Z.of_nat j) = get2 m 0 (Z.of_nat (i * y_len + j)) /\
      get2 center (Z.of_nat i) (Z.of_nat j) = get2 m (Z.of_nat (x_len / 2 * y_len + y_len / 2)) (Z.of_nat (i * y_len + j)).
Proof.
  intros color x y m Hx Hy Hw Ex Ey. unfold show_distances.
  assert (C : center_index x y < x * y).
  { rewrite center_spec. assert (x / 2 < x) by (apply Nat.div_lt; lia). assert (y / 2 < y) by (apply Nat.div_lt; lia). nia. }
  assert (R : forall r, r < x * y -> row2 m (Z.of_nat r) = Ok (firstn (a2y m) (skipn (r * a2y m) (a2d m)))) by (intros r Hr; unfold row2; rewrite norm_index_of_nat by lia; reflexivity).
  assert (L : forall r, r < x * y -> length (firstn (a2y m) (skipn (r * a2y m) (a2d m))) = x * y).
  { intros r Hr. red in Hw. rewrite firstn_length, skipn_length, Hw, Ex, Ey. nia. }
  assert (S : forall r, r < x * y -> reshape2 (firstn (a2y m) (skipn (r * a2y m) (a2d m))) x y = Ok (mk2 x y (firstn (a2y m) (skipn (r * a2y m) (a2d m))))).
  { intros r Hr. unfold reshape2. rewrite L, Nat.eqb_refl by auto. reflexivity. }
  change 0%Z with (Z.of_nat 0). rewrite (R 0) by nia. cbn [bind]. rewrite (S 0) by nia. cbn [bind]. rewrite R by auto. cbn [bind]. rewrite S by auto. cbn [bind plot_values snd].
  eexists. eexists. split; [reflexivity|]. do 4 (split; [reflexivity|]). rewrite <- center_spec.
  assert (G : forall r i j, r < x * y -> i < x -> j < y -> get2 (mk2 x y (firstn (a2y m) (skipn (r * a2y m) (a2d m)))) (Z.of_nat i) (Z.of_nat j) = get2 m (Z.of_nat r) (Z.of_nat (i * y + j))).
  { intros r i j Hr Hi Hj. assert (Hij : i * y + j < x * y) by nia. rewrite get2_nat by (cbn; auto). rewrite get2_nat by lia. unfold at2. cbn [a2x a2y a2d].
    rewrite nth_error_firstn. replace (i * y + j <? a2y m) with true by lia. rewrite nth_error_skipn. reflexivity. }
  intros i j Hi Hj. split; apply G; auto. nia.
Qed.
Print Assumptions C101_distance_pictures.

(* ---------------------------------------------------------------- C102 *)
(** the map of labels: the pixel of a point has the colour of its label; different labels are sent to different places of the
    colour map, between 0 and 1 *)
Theorem C102_label_colors : forall color (cmap : fnum -> color) r, wf2 r -> 0 < a2x r -> 0 < a2y r -> (forall l, In l (a2d r) -> (0 <= l)%Z) ->
  exists place : Z -> Q, (exists pixels, label_colors cmap r = Ok pixels /\ a2x pixels = a2x r /\ a2y pixels = a2y r /\
      forall i j, i < a2x r -> j < a2y r -> exists l, get2 r (Z.of_nat i) (Z.of_nat j) = Ok l /\ get2 pixels (Z.of_nat i) (Z.of_nat j) = Ok (cmap (Fin (place l)))) /\
    (forall l, In l (a2d r) -> (0 <= place l < 1)%Q) /\
    (forall l l', In l (a2d r) -> In l' (a2d r) -> (place l == place l')%Q -> l = l').
Proof.
  intros color cmap r Hw Hx Hy Hp. unfold label_colors. destruct (z_max (a2d r)) as [m|e] eqn:E.
  2:{ destruct (a2d r) eqn:Ed; [|discriminate]. red in Hw. rewrite Ed in Hw. cbn in Hw. nia. }
  destruct (z_max_spec _ _ E) as [Hin Hmax]. assert (Hm : (0 < m + 1)%Z) by (specialize (Hp m Hin); lia).
  assert (Qm : (0 < inject_Z (m + 1))%Q) by (change 0%Q with (inject_Z 0); rewrite <- Zlt_Qlt; auto).
  exists (fun l => (inject_Z l / inject_Z (m + 1))%Q). split; [|split].
  - cbn [bind]. eexists. split; [reflexivity|]. do 2 (split; [reflexivity|]). intros i j Hi Hj.
    destruct (at2_some r i j Hw Hi Hj) as (l & Hl). exists l. rewrite !get2_nat by auto. rewrite Hl. split; auto.
    unfold at2 in *. cbn [a2x a2y a2d]. rewrite nth_error_map, Hl. cbn [option_map]. unfold fdiv, fint. replace (Qeq_bool (inject_Z (m + 1)) 0) with false; auto.
    symmetry. apply not_true_iff_false. intros Q. apply Qeq_bool_iff in Q. rewrite Q in Qm. discriminate Qm.
  - intros l Hl. split.
    + apply Qle_shift_div_l; auto. rewrite Qmult_0_l. change 0%Q with (inject_Z 0). rewrite <- Zle_Qle. auto.
    + apply Qlt_shift_div_r; auto. rewrite Qmult_1_l. rewrite <- Zlt_Qlt. specialize (Hmax l Hl). lia.
  - intros l l' _ _ Q. apply inject_Z_injective. assert (N : ~ (inject_Z (m + 1) == 0)%Q) by (intros Z0; rewrite Z0 in Qm; discriminate Qm).
    rewrite <- (Qmult_div_r (inject_Z l) (inject_Z (m + 1)) N), <- (Qmult_div_r (inject_Z l') (inject_Z (m + 1)) N), Q. reflexivity.
Qed.
Print Assumptions C102_label_colors.

(** the marks: one for each point, in order, in the middle of the pixel of that point, white exactly if that pixel is black *)
Theorem C102_marks : forall color (cmap : fnum -> color) is_black r has_subplot points pixels,
  label_colors cmap r = Ok pixels -> wf2 r ->
  (forall p, In p points -> (0 <= fst p < Z.of_nat (a2x r))%Z /\ (0 <= snd p < Z.of_nat (a2y r))%Z) ->
  exists marks, plot_labels cmap is_black r has_subplot (Some points) = Ok (negb has_subplot, Imshow pixels :: marks) /\
    Forall2 (fun p mk => exists h v w c, mk = Mark h v w /\ in_pixel (fst p) (snd p) (inject_Z h) (inject_Z v) /\
                         (forall i j, in_pixel i j (inject_Z h) (inject_Z v) -> i = fst p /\ j = snd p) /\
                         get2 pixels (fst p) (snd p) = Ok c /\ (w = true <-> is_black c = true)) points marks.
Proof.
  intros color cmap is_black r hs points pixels Hp Hw Hin. unfold plot_labels. rewrite Hp. cbn [bind].
  assert (W : wf2 pixels /\ a2x pixels = a2x r /\ a2y pixels = a2y r).
  { unfold label_colors in Hp. destruct (z_max (a2d r)); cbn [bind] in Hp; [|discriminate]. injection Hp as <-. unfold wf2. cbn. rewrite map_length. auto. }
  destruct W as (W & Wx & Wy).
  assert (G : exists marks, mark_calls is_black pixels points = Ok marks /\ Forall2 (fun p mk => exists c, get2 pixels (fst p) (snd p) = Ok c /\ mk = Mark (snd p) (fst p) (is_black c)) points marks).
  { unfold mark_calls. induction points as [|p ps IH]; cbn [mapM]; [eexists; split; [reflexivity|constructor]|].
    destruct IH as (ms & E & F); [intros; apply Hin; right; auto|]. destruct (Hin p (or_introl eq_refl)) as [A B].
    destruct (get2_ok pixels (fst p) (snd p)) as (c & Hc & _); auto; try (rewrite Wx; auto); try (rewrite Wy; auto).
    rewrite Hc. cbn [bind]. rewrite E. cbn [bind]. eexists. split; [reflexivity|]. constructor; auto. exists c. auto. }
  destruct G as (marks & E & F). rewrite E. cbn [bind]. exists marks. split; [reflexivity|].
  clear - F. induction F as [|p mk ps ms (c & Hc & ->) F IH]; constructor; auto.
  exists (snd p), (fst p), (is_black c), c. split; auto. split; [unfold in_pixel; repeat split; Lqa.lra|]. split; [|split; [auto|tauto]].
  intros i j [[A B] [C D]].
  assert (H : forall a b, (inject_Z a - (1 # 2) <= inject_Z b)%Q -> (inject_Z b <= inject_Z a + (1 # 2))%Q -> a = b).
  { intros a b H1 H2. destruct (Z.lt_trichotomy a b) as [L|[L|L]]; auto.
    - assert (inject_Z (a + 1) <= inject_Z b)%Q by (rewrite <- Zle_Qle; lia). rewrite inject_Z_plus in H. change (inject_Z 1) with 1%Q in H. Lqa.lra.
    - assert (inject_Z (b + 1) <= inject_Z a)%Q by (rewrite <- Zle_Qle; lia). rewrite inject_Z_plus in H. change (inject_Z 1) with 1%Q in H. Lqa.lra. }
  split; apply H; auto.
Qed.
Print Assumptions C102_marks.

(** the frame covers the pixels of the points of the region, and nothing else *)
Theorem C102_frame : forall color (cmap : fnum -> color) is_black r g marks fig calls, (x1 g < x2 g)%Z -> (y1 g < y2 g)%Z ->
  plot_partition cmap is_black r true (Some g) marks = Ok (fig, calls) ->
  fig = false /\ exists left top width height before, calls = before ++ [Frame left top width height] /\
    forall h v, in_frame left top width height h v <->
      exists i j, (x1 g <= i < x2 g)%Z /\ (y1 g <= j < y2 g)%Z /\ in_pixel i j h v.
Proof.
  intros color cmap is_black r g marks fig calls Hx Hy. unfold plot_partition, plot_labels.
  destruct (label_colors cmap r) as [px|]; cbn [bind]; [|discriminate]. destruct (match marks with None => _ | Some ps => _ end) as [ms|]; cbn [bind]; [|discriminate].
  intros E. injection E as <- <-. split; [reflexivity|]. exists (inject_Z (y1 g) - (1 # 2))%Q, (inject_Z (x1 g) - (1 # 2))%Q, (y2 g - y1 g)%Z, (x2 g - x1 g)%Z, (Imshow px :: ms). split; [reflexivity|]. intros h v. unfold in_frame, in_pixel. rewrite (frame_interval _ _ h Hy), (frame_interval _ _ v Hx). split.
  - intros [(j & Hj & A) (i & Hi & B)]. exists i, j. tauto.
  - intros (i & j & Hi & Hj & A & B). split; [exists j|exists i]; tauto.
Qed.
Print Assumptions C102_frame.

(** without a subplot the frame cannot be drawn: the call fails *)
Theorem C102_frame_on_new_figure_refuted : forall color (cmap : fnum -> color) is_black r g marks pixels ms,
  label_colors cmap r = Ok pixels -> match marks with None => Ok [] | Some ps => mark_calls is_black pixels ps end = Ok ms ->
  plot_partition cmap is_black r false (Some g) marks = Raise AttributeError.
Proof. intros color cmap is_black r g marks pixels ms H1 H2. unfold plot_partition, plot_labels. rewrite H1. cbn [bind]. rewrite H2. reflexivity. Qed.
Print Assumptions C102_frame_on_new_figure_refuted.

(* ---------------------------------------------------------------- C103 *)
(** series by colour: with one number below 7 for each series, every series is drawn, in order, and two series have the same
    colour exactly if they have the same number *)
Theorem C103_series_colors : forall A (group : list (list A)) series_len colors,
  length colors = length group -> (forall s, In s group -> length s = series_len) -> (forall c, In c colors -> (0 <= c < 7)%Z) ->
  exists drawn, plot_series_group_by_color group series_len colors = Ok drawn /\ map fst drawn = group /\
    forall i j ci cj, nth_error colors i = Some ci -> nth_error colors j = Some cj ->
      exists si ni sj nj, nth_error drawn i = Some (si, ni) /\ nth_error drawn j = Some (sj, nj) /\ (ni = nj <-> ci = cj).
Proof.
  intros A group n colors Hl Hs Hc. unfold plot_series_group_by_color.
  assert (Hlen : length (nodup Z.eq_dec colors) <= 7).
  { assert (I : incl (nodup Z.eq_dec colors) (map Z.of_nat (seq 0 7))).
    { intros z Hz. apply nodup_In in Hz. apply Hc in Hz. apply in_map_iff. exists (Z.to_nat z). split; [lia|]. apply in_seq. lia. }
    apply NoDup_incl_length in I; [|apply NoDup_nodup]. rewrite map_length, seq_length in I. exact I. }
  change (length palette) with 7. replace (7 <? length (nodup Z.eq_dec colors)) with false by lia.
  set (name := fun i => nth (Z.to_nat (nth i colors 0%Z)) palette ""%string).
  assert (M : mapM (fun '(index, series) => c <- getitem colors (Z.of_nat index) ;; name <- getitem palette c ;; if length series =? n then Ok (series, name) else Raise ValueError) (enumerate group)
    = Ok (map (fun p => (snd p, name (fst p))) (enumerate group))).
  { apply mapM_ok. intros [i s] Hin. cbn [fst snd]. unfold enumerate in Hin. pose proof (in_combine_l _ _ _ _ Hin) as Hi. pose proof (in_combine_r _ _ _ _ Hin) as Hsr. apply in_seq in Hi.
    assert (Ei : i < length colors) by lia. unfold getitem at 1. rewrite norm_index_of_nat by auto. rewrite nth_error_nth' with (d := 0%Z) by auto. cbn [bind].
    assert (Hci : (0 <= nth i colors 0 < 7)%Z) by (apply Hc, nth_In; auto).
    unfold getitem. rewrite norm_index_in by (change (length palette) with 7; lia). rewrite nth_error_nth' with (d := ""%string) by (change (length palette) with 7; lia). cbn [bind].
    rewrite (proj2 (Nat.eqb_eq _ _) (Hs s Hsr)). reflexivity. }
  rewrite M. eexists. split; [reflexivity|]. split.
  - rewrite map_map. cbn [fst]. unfold enumerate. clear. generalize 0. induction group as [|s l IH]; intros k; cbn; auto. f_equal. apply IH.
  - intros i j ci cj Hi Hj.
    assert (G : forall i ci, nth_error colors i = Some ci -> exists s, nth_error (map (fun p => (snd p, name (fst p))) (enumerate group)) i = Some (s, name i) /\ nth i colors 0%Z = ci).
    { intros a ca Ha. assert (La : a < length group) by (rewrite <- Hl; apply nth_error_Some; congruence). destruct (nth_error group a) as [s|] eqn:E; [|apply nth_error_None in E; lia].
      exists s. split; [|apply nth_error_nth; auto]. rewrite nth_error_map. unfold enumerate.
      assert (EC : nth_error (combine (seq 0 (length group)) group) a = Some (a, s)).
      { assert (GG : forall g a o, nth_error g a = Some s -> nth_error (combine (seq o (length g)) g) a = Some (o + a, s)).
        { clear. induction g as [|h g IH]; intros [|a] o H; cbn in *; try discriminate; [rewrite Nat.add_0_r; congruence|]. rewrite (IH a (S o)) by auto. f_equal. f_equal. lia. }
        apply (GG group a 0 E). }
      rewrite EC. reflexivity. }
    destruct (G i ci Hi) as (si & Ei & Ni). destruct (G j cj Hj) as (sj & Ej & Nj). exists si, (name i), sj, (name j). split; auto. split; auto.
    unfold name. rewrite Ni, Nj. assert (Bi : (0 <= ci < 7)%Z) by (apply Hc; eapply nth_error_In; eauto). assert (Bj : (0 <= cj < 7)%Z) by (apply Hc; eapply nth_error_In; eauto).
    split; [|congruence]. intros E.
    assert (D : forall a b, a < 7 -> b < 7 -> nth a palette ""%string = nth b palette ""%string -> a = b).
    { intros a b Ha Hb. do 7 (destruct a as [|a]; [do 7 (destruct b as [|b]; [cbn; congruence || (intros _; reflexivity)|]); lia|]). lia. }
    apply D in E; lia.
Qed.
Print Assumptions C103_series_colors.

(** more than seven different numbers are refused; but the check counts the numbers and does not look at them *)
Theorem C103_too_many_colors : forall A (group : list (list A)) n colors, 7 < length (nodup Z.eq_dec colors) ->
  plot_series_group_by_color group n colors = Raise ValueError.
Proof. intros A group n colors H. unfold plot_series_group_by_color. change (length palette) with 7. replace (7 <? length (nodup Z.eq_dec colors)) with true by lia. reflexivity. Qed.
Print Assumptions C103_too_many_colors.
Theorem C103_few_colors_suffice_refuted : exists (group : list (list Z)) n colors, length (nodup Z.eq_dec colors) <= 7 /\ length colors = length group /\
  (forall c, In c colors -> (0 <= c)%Z) /\ plot_series_group_by_color group n colors = Raise IndexError.
Proof. exists [[1]; [2]]%Z, 1, [0; 7]%Z. split; [apply Nat.leb_le; reflexivity|]. split; [reflexivity|]. split; [|reflexivity]. intros c [<-|[<-|[]]]; lia. Qed.
Print Assumptions C103_few_colors_suffice_refuted.

(* ---------------------------------------------------------------- examples *)
(** four points on a line, clusters {0, 1} and {2, 3} *)
Definition ex_X : dataset := [[Fin 0]; [Fin 1]; [Fin 10]; [Fin 11]].
Definition ex_m : arr2 fnum := mk2 4 4 [Fin 0; Fin 1; Fin 10; Fin 11; Fin 1; Fin 0; Fin 9; Fin 10; Fin 10; Fin 9; Fin 0; Fin 1; Fin 11; Fin 10; Fin 1; Fin 0].
Definition ex_choice (s : Z) (n : nat) (k : Z) : res (list Z) := Ok (firstn (Z.to_nat k) (if (s =? 1)%Z then [0; 2; 1]%Z else [0; 1; 2]%Z)).
Definition ex_score (m : arr2 fnum) (labels : list Z) : res fnum := Ok (if Nat.eqb (length (nodup Z.eq_dec labels)) 2 then Fin (9 # 10) else Fin (1 # 2)).
Definition ex_samples (m : arr2 fnum) (labels : list Z) : res (list fnum) := Ok (map (fun l => Fin (inject_Z l / 4)%Q) labels).
Definition ex_md : smeta := SMeta [3; 2]%Z [1; 2]%Z Lite None 10 (Fin (1 # 1000)) false true (Some "plots/ex"%string).
Example C99_example :
  do_silhouette_analysis (fun v => v) (fun _ => false) ex_choice ex_score ex_samples ex_X None (fun _ => Ok ex_m) ex_md 2 2 =
  Ok (SBest (Fin (9 # 10)) 2 (Some 1%Z) (Some [0; 2]%Z) (Some [0; 0; 1; 1]),
      ["plots/ex_k3_seed1.eps"; "plots/ex_k2_seed1.eps"; "plots/ex_k3_seed2.eps"; "plots/ex_k2_seed2.eps"]%string) /\
  (forall seed k, In seed (sm_seeds ex_md) -> In k (sm_ks ex_md) ->
     exists r, one_run (fun v => v) (fun _ => false) ex_choice ex_score ex_samples ex_X ex_m ex_md 2 2 seed k = Ok r) /\
  (exists c0, consistent ex_X (DMatrix ex_m) (firstn 2 [0; 3; 1]%Z) c0).
Proof.
  split; [vm_compute; reflexivity|]. split.
  - intros seed k [<-|[<-|[]]] [<-|[<-|[]]]; vm_compute; eexists; reflexivity.
  - assert (I : instance ex_X (DMatrix ex_m)) by (repeat split).
    assert (V : valid_indices ex_X (firstn 2 [0; 3; 1]%Z)) by (intros i [<-|[<-|[]]]; cbn; lia).
    assert (N : dist_no_nan ex_X (DMatrix ex_m)).
    { intros a b Ha Hb. cbn in Ha, Hb. do 4 (destruct a as [|a]; [do 4 (destruct b as [|b]; [reflexivity|]); lia|]). lia. }
    destruct (get_cost ex_X (DMatrix ex_m) (mk ex_X (firstn 2 [0; 3; 1]%Z))) as [c|e] eqn:E; [|vm_compute in E; discriminate].
    exists c. eapply get_cost_consistent; eauto. discriminate.
Qed.

Example C100_example :
  plot_clustering_silhouette (fun v => v) (ex_score ex_m) (ex_samples ex_m) 4 [0; 0; 1; 1]%Z =
  Ok (Fin (9 # 10), [SetYLim 0 34; Fill 10 [Fin (0 # 4); Fin (0 # 4)] (Fin (0 # 2)); Text (22 # 2) 0;
                     Fill 22 [Fin (1 # 4); Fin (1 # 4)] (Fin (1 # 2)); Text (46 # 2) 1; VLine (Fin (9 # 10))]) /\
  labels_are [0; 0; 1; 1]%Z 2.
Proof. split; [vm_compute; reflexivity|]. intros l. split; [cbn; lia|]. intros H. assert (l = 0 \/ l = 1)%Z as [-> | ->] by lia; cbn; tauto. Qed.

Example C101_example : wf2 ex_m /\ @show_distances unit 2 2 ex_m = Ok [[Heatmap (mk2 2 2 [Fin 0; Fin 1; Fin 10; Fin 11])]; [Heatmap (mk2 2 2 [Fin 11; Fin 10; Fin 1; Fin 0])]].
Proof. split; reflexivity. Qed.

Example C102_example :
  plot_partition (fun v => v) (fun c => feqb c (Fin 0)) (mk2 2 3 [0; 0; 1; 2; 1; 1]%Z) true (Some (Rect 0 2 1 2)) (Some [(0, 1); (1, 0)]%Z) =
  Ok (false, [Imshow (mk2 2 3 [Fin (0 # 3); Fin (0 # 3); Fin (1 # 3); Fin (2 # 3); Fin (1 # 3); Fin (1 # 3)]);
              Mark 1 0 true; Mark 0 1 false; Frame (1 # 2) (-1 # 2) 1 2]).
Proof. vm_compute. reflexivity. Qed.

Example C103_example : plot_series_group_by_color [[1; 2]; [3; 4]; [5; 6]]%Z 2 [2; 6; 2]%Z = Ok [([1; 2]%Z, "r"%string); ([3; 4]%Z, "k"%string); ([5; 6]%Z, "r"%string)].
Proof. reflexivity. Qed.
