(** C123: the program of the silhouette analysis. *)
From Coq Require Import String Lia ZifyBool ZifyNat.
From Verif Require Import Base.Py Base.PyFacts Base.Dict Base.Arr Base.ArrFacts Base.Str Base.Float Base.FloatFacts Model.Region Model.KMedoids Model.Distance Model.Clustering
  Model.Dataset Model.Plots Model.Algorithms Model.Programs Model.DistanceProgram Model.SavedRegion Model.SilhouetteProgram
  Spec.Grid Spec.Rect Spec.Distance Spec.Dataset Spec.Plots Spec.Solver Spec.SilhouetteProgram
  Proofs.RegionFacts Proofs.DistanceFacts Proofs.DatasetFacts Proofs.AlgorithmFacts Proofs.ProgramFacts Proofs.PlotsFacts Proofs.SilhouetteProgramFacts
  Props.Plots Props.DistanceProgram.
Local Open Scope list_scope.
Local Notation length := List.length.

(** every analysis offered shows its graphs and saves them *)
Lemma md_facts name md : silhouette_metadata_by_name name = Ok md -> sm_show md = true /\ sm_save md = Some ("plots/" ++ name)%string.
Proof.
  intros H. apply dict_get_in in H. unfold silhouettes_metadata in H. cbn [In] in H.
  repeat (destruct H as [ [= <- <-] | H ]; [ split; reflexivity | ]). contradiction.
Qed.

Lemma own_series_map d : wf3 d -> own_series d (map (t_ser (TPlain d)) (grid (a3x d) (a3y d))).
Proof.
  intros W. assert (Q : qwf d None) by (split; [ exact W | exact I ]). split; [ exact (samples d None) | ]. intros p Hp.
  destruct (series3_ok d (fst p) (snd p) W (proj1 Hp) (proj2 Hp)) as (a & Ea & _). rewrite Ea. f_equal. symmetry. apply nth_error_nth.
  rewrite nth_error_map, (nth_error_grid_index _ _ _ Hp). cbn [option_map]. unfold t_ser. cbn [series_at t_data]. rewrite Ea. reflexivity.
Qed.
Lemma own_matrix_of measure junk d M : wf3 d -> matrix_of_region measure junk (TPlain d) = Ok M -> own_matrix measure d (arr2_of_mat M).
Proof.
  intros W E. destruct (region_matrix measure junk d W) as (M' & E' & S & V). rewrite E in E'. injection E' as <-.
  destruct (arr2_of_square _ _ S) as (Wa & Xa & Ya). split; [ exact Wa | ]. split; [ exact Xa | ]. split; [ exact Ya | ].
  intros p q a b Hp Hq Ha Hb. destruct (index_of_encode _ _ _ Hp) as [ _ Lp ]. destruct (index_of_encode _ _ _ Hq) as [ _ Lq ].
  apply (arr2_of_entry _ M _ _ _ S Lp Lq). apply V; assumption.
Qed.

Section Statements.
Context (color : Type) (cmap : fnum -> color) (is_black : color -> bool) (choice : Z -> nat -> Z -> res (list Z)).
Context (score : arr2 fnum -> list Z -> res fnum) (samples : arr2 fnum -> list Z -> res (list fnum)).
Context (measure : list fnum -> list fnum -> fnum) (norm : Z -> Z -> fnum) (junk garbage : fnum).
Local Notation run := (run_silhouette color cmap is_black choice score samples measure norm junk garbage).
Local Notation after_events := (after_events color cmap is_black choice score samples measure norm junk garbage).
Local Notation one_run := (one_run cmap is_black choice score samples).

(** the setting of the theorems on one region *)
Lemma setting raw w0 es region r md : raw_dataset raw -> first_use w0 raw ->
  region_by_name region = Ok r -> silhouette_metadata_by_name (rm_name r) = Ok md -> rm_scaled r = false -> rect_in (rm_region r) (a3x raw) (a3y raw) ->
  exists d M, wf3 d /\ spans (rm_region r) (a3x d) (a3y d) /\ 0 < a3x d /\ 0 < a3y d /\
    (forall garbage fs, minv fs raw -> snd (m_create_instance garbage fs r) = Ok (MPlain d (Some r)) /\ snd (create_instance garbage fs r) = Ok (TPlain d)) /\
    matrix_of_region measure junk (TPlain d) = Ok M /\ square (a3x d * a3y d) M /\
    files_are raw r d M (after_events w0 es) (existsb (is_save region) es) (snd (flags region false false es)).
Proof.
  intros Hr (Hd & Hf & Hm) Hn Hmd Hsc Hg. pose proof (minv_delivered _ _ Hd) as Hi.
  destruct (predefined_facts _ _ Hn) as (En & _ & Es & _ & Gx & Gy & Ys & Ye).
  destruct (create_mplain raw r Hr ltac:(left; exact Es) ltac:(unfold valid_years; lia) Hg Hsc ltac:(eauto)) as (d & W & [ Sx Sy ] & Hc).
  destruct (region_matrix measure junk d W) as (M & EM & SM & _).
  exists d, M. split; [ exact W | ]. split; [ split; assumption | ]. split; [ lia | ]. split; [ lia | ]. split; [ exact Hc | ]. split; [ exact EM | ]. split; [ exact SM | ].
  assert (F0 : files_are raw r d M w0 false false) by (split; [ exact Hi | ]; split; [ exact (Hf _ _ Hn) | ]; split; [ apply Hm | discriminate ]).
  pose proof (region_after color cmap is_black choice score samples measure norm junk garbage raw region r md d M Hr Hn Hmd (fun g fs Hi => proj1 (Hc g fs Hi)) EM es w0 _ _ F0) as F.
  rewrite flags_saved in F. cbn [orb] in F. exact F.
Qed.

(** After any history in which the region was saved (runs of the program for this and other regions, in any order; requests for the
    dataset, crashes in the middle, cache files deleted or damaged), the command kmedoids analyses the region's own series with
    the region's own distances, whether or not they were computed before.  It shows the first of the best runs and names the
    graph of every run. *)
Theorem C123_kmedoids : forall raw w0 es region r md,
  raw_dataset raw -> first_use w0 raw ->
  region_by_name region = Ok r -> silhouette_metadata_by_name (rm_name r) = Ok md -> rm_scaled r = false -> rect_in (rm_region r) (a3x raw) (a3y raw) ->
  saves region es ->
  let w := after_events w0 es in
  exists d X m, snd (create_instance garbage (dw_data w0) r) = Ok (TPlain d) /\ spans (rm_region r) (a3x d) (a3y d) /\ own_series d X /\ own_matrix measure d m /\
    fst (run w region "kmedoids"%string) = w /\
    (forall avg medoids labels,
       (forall seed k, In seed (sm_seeds md) -> In k (sm_ks md) ->
          one_run X m md (a3x d) (a3y d) seed k = Ok (avg seed k, medoids seed k, labels seed k)) ->
       (exists s k, first_best (all_runs (sm_seeds md) (sm_ks md)) avg s k /\
          snd (run w region "kmedoids"%string) =
            Ok (Best (SBest (avg s k) k (Some s) (Some (medoids s k)) (Some (labels s k)))
                     (map (fun p => "plots/" ++ rm_name r ++ "_k" ++ str_int (snd p) ++ "_seed" ++ str_int (fst p) ++ ".eps")%string (all_runs (sm_seeds md) (sm_ks md))))) \/
       (forall s k, In (s, k) (all_runs (sm_seeds md) (sm_ks md)) -> flt (Fin (-1)) (avg s k) = false) /\
          snd (run w region "kmedoids"%string) = Raise ValueError) /\
    (forall l1 s k l2 e,
       all_runs (sm_seeds md) (sm_ks md) = l1 ++ (s, k) :: l2 ->
       (forall s' k', In (s', k') l1 -> exists result, one_run X m md (a3x d) (a3y d) s' k' = Ok result) ->
       one_run X m md (a3x d) (a3y d) s k = Raise e ->
       snd (run w region "kmedoids"%string) = Raise e).
Proof.
  intros raw w0 es region r md Hr Hu Hn Hmd Hsc Hg Hs w.
  destruct (setting raw w0 es region r md Hr Hu Hn Hmd Hsc Hg) as (d & M & W & Hsp & X0 & Y0 & Hc & EM & SM & F). fold w in F. clearbody w.
  apply saves_iff in Hs. rewrite Hs in F. set (measured := snd (flags region false false es)) in F. destruct F as (Hi & Ed & Em & _).
  destruct (md_facts _ _ Hmd) as [ Hshow Hsave ].
  set (X := map (t_ser (TPlain d)) (grid (a3x d) (a3y d))). set (m := arr2_of_mat M).
  exists d, X, m. split; [ exact (proj2 (Hc garbage _ (minv_delivered _ _ (proj1 Hu)))) | ]. split; [ exact Hsp | ].
  split; [ apply own_series_map; exact W | ]. split; [ exact (own_matrix_of measure junk d M W EM) | ].
  assert (E : exists matrix compute, (matrix = Some m \/ matrix = None /\ compute X = Ok m) /\
    run w region "kmedoids"%string = (w, '(b, graphs) <- do_silhouette_analysis cmap is_black choice score samples X matrix compute md (a3x d) (a3y d) ;;
      _ <- show_best cmap is_black score samples b m (a3x d) (a3y d) ;; Ok (Best b graphs))).
  { exists (if measured then Some m else None), (fun _ => M <- matrix_of_region measure junk (TPlain d) ;; Ok (arr2_of_mat M)).
    split; [ destruct measured; [ left; reflexivity | right; split; [ reflexivity | rewrite EM; reflexivity ] ] | ].
    unfold run_silhouette, do_silhouette. rewrite Hn, Hmd. unfold execute_command. cbn [String.eqb Ascii.eqb Bool.eqb].
    f_equal. unfold silhouette_analysis, load_saved. rewrite Ed. cbn [bind erase].
    change (t_x (TPlain d)) with (a3x d). change (t_y (TPlain d)) with (a3y d).
    unfold load_distance_matrix_2d, base_load, env_with, load_mat. cbn [np_load d_kind fresh]. rewrite Em.
    destruct measured.
    - destruct SM as (C & L & _). destruct Hsp as [ Sx Sy ]. unfold r_points. rewrite Sx, Sy, C, L. replace (_ && _)%bool with true by lia.
      cbn [bind d_matrix option_map]. rewrite plain_as_list by exact W. cbn [bind]. reflexivity.
    - cbn [bind d_matrix option_map]. rewrite plain_as_list by exact W. cbn [bind]. rewrite EM. reflexivity. }
  destruct E as (matrix & compute & Hm & E). rewrite E. split; [ reflexivity | ]. cbn [fst snd]. split.
  - intros avg medoids labels Hruns.
    destruct (C99_best_run color cmap is_black choice score samples X matrix compute m md (a3x d) (a3y d) avg medoids labels Hm Hruns) as (b & files & Eb & Ef & Hb).
    rewrite Eb. cbn [bind]. rewrite Hsave in Ef.
    destruct Hb as [ (B1 & B2 & B3 & B4 & B5) | (l1 & s & k & l2 & R & B1 & B2 & B3 & B4 & B5 & B6 & B7 & B8) ].
    + right. split; [ exact B5 | ]. unfold show_best. rewrite B4. reflexivity.
    + left. exists s, k. split; [ exists l1, l2; auto | ].
      assert (Hin : In (s, k) (all_runs (sm_seeds md) (sm_ks md))) by (rewrite R; apply in_app_iff; right; left; reflexivity).
      apply in_runs in Hin. specialize (Hruns s k (proj1 Hin) (proj2 Hin)).
      assert (Es : show_best cmap is_black score samples b m (a3x d) (a3y d) = Ok tt).
      { unfold show_best. rewrite B4. revert Hruns. unfold Plots.one_run. destruct (single_kmedoids choice X m k s md) as [ kr | ]; cbn [bind]; [ | discriminate ].
        unfold single_silhouette. rewrite Hshow. destruct (plot_2d_clusters cmap is_black (map Z.of_nat (c_labels (r_cost kr))) (a3x d) (a3y d) true) eqn:P1; cbn [bind]; [ | discriminate ].
        destruct (plot_clustering_silhouette cmap (score m) (samples m) (a2x m) (map Z.of_nat (c_labels (r_cost kr)))) as [ [ av cs ] | ] eqn:P2; cbn [bind]; [ | discriminate ].
        intros [= _ _ <-]. rewrite P1. cbn [bind]. rewrite P2. reflexivity. }
      rewrite Es. cbn [bind]. destruct b as [ ba bk bs bm bl ]; cbn [b_k b_seed b_medoids b_labels b_avg] in *. subst. do 2 f_equal.
  - intros l1 s k l2 e R H1 He. rewrite (C99_first_failure color cmap is_black choice score samples X matrix compute m md (a3x d) (a3y d) l1 s k l2 e Hm R H1 He). reflexivity.
Qed.

(** Saving succeeds after any history, and from then on the file holds the region's own data; other commands leave it alone. *)
Theorem C123_save : forall raw w0 es region r md,
  raw_dataset raw -> first_use w0 raw ->
  region_by_name region = Ok r -> silhouette_metadata_by_name (rm_name r) = Ok md -> rm_scaled r = false -> rect_in (rm_region r) (a3x raw) (a3y raw) ->
  exists d, snd (create_instance garbage (dw_data w0) r) = Ok (TPlain d) /\
    snd (run (after_events w0 es) region "save"%string) = Ok Nothing /\
    (saves region es -> dw_data (after_events w0 es) (dataset_filename r) = Some (Npy d)) /\
    (~ saves region es -> dw_data (after_events w0 es) (dataset_filename r) = None).
Proof.
  intros raw w0 es region r md Hr Hu Hn Hmd Hsc Hg.
  destruct (setting raw w0 es region r md Hr Hu Hn Hmd Hsc Hg) as (d & M & W & Hsp & X0 & Y0 & Hc & EM & SM & Hi & Ed & Em & _).
  exists d. split; [ exact (proj2 (Hc garbage _ (minv_delivered _ _ (proj1 Hu)))) | ].
  split; [ apply (saves_now color cmap is_black choice score samples measure norm junk garbage raw region r md d Hn Hmd (fun g fs Hi => proj1 (Hc g fs Hi)) _ Hi) | ].
  split; [ intros H; apply saves_iff in H; rewrite H in Ed; exact Ed | ].
  intros H. destruct (existsb (is_save region) es) eqn:E; [ destruct H; apply saves_iff; exact E | exact Ed ].
Qed.

(** Until the region is saved, every other command raises IOError and changes no file. *)
Theorem C123_not_saved : forall raw w0 es region r md command,
  raw_dataset raw -> first_use w0 raw ->
  region_by_name region = Ok r -> silhouette_metadata_by_name (rm_name r) = Ok md -> rm_scaled r = false -> rect_in (rm_region r) (a3x raw) (a3y raw) ->
  ~ saves region es -> (command = "distances" \/ command = "kmedoids" \/ command = "show_distances")%string ->
  run (after_events w0 es) region command = (after_events w0 es, Raise IOError).
Proof.
  intros raw w0 es region r md command Hr Hu Hn Hmd Hsc Hg Hs Hcmd. destruct (C123_save raw w0 es region r md Hr Hu Hn Hmd Hsc Hg) as (d & _ & _ & _ & E).
  eapply not_saved; eauto.
Qed.

(** The distances are those of the region's own series, for all other programs too; the file exists exactly if they were
    computed after the region was saved. *)
Theorem C123_distances : forall raw w0 es region r md,
  raw_dataset raw -> first_use w0 raw ->
  region_by_name region = Ok r -> silhouette_metadata_by_name (rm_name r) = Ok md -> rm_scaled r = false -> rect_in (rm_region r) (a3x raw) (a3y raw) ->
  exists d M, snd (create_instance garbage (dw_data w0) r) = Ok (TPlain d) /\ square (a3x d * a3y d) M /\
    (forall p q a b, in_grid (a3x d) (a3y d) p -> in_grid (a3x d) (a3y d) q -> series3 d (fst p) (snd p) = Ok a -> series3 d (fst q) (snd q) = Ok b ->
       entry M (index_of (a3y d) p) (index_of (a3y d) q) = Some (measure a b)) /\
    (saves region es -> run (after_events w0 es) region "distances"%string =
       (DWorld (dw_data (after_events w0 es)) (save_mat (dw_mats (after_events w0 es)) (distances_filename r) M), Ok Nothing)) /\
    (saves_and_measures region es -> dw_mats (after_events w0 es) (distances_filename r) = Some M) /\
    (~ saves_and_measures region es -> dw_mats (after_events w0 es) (distances_filename r) = None).
Proof.
  intros raw w0 es region r md Hr Hu Hn Hmd Hsc Hg.
  destruct (setting raw w0 es region r md Hr Hu Hn Hmd Hsc Hg) as (d & M & W & Hsp & X0 & Y0 & Hc & EM & SM & Hi & Ed & Em & _).
  exists d, M. split; [ exact (proj2 (Hc garbage _ (minv_delivered _ _ (proj1 Hu)))) | ]. split; [ exact SM | ].
  split. { destruct (region_matrix measure junk d W) as (M' & E' & _ & V). rewrite EM in E'. injection E' as <-. intros; apply V; assumption. }
  split. { intros H. apply saves_iff in H. rewrite H in Ed. exact (measures_now color cmap is_black choice score samples measure norm junk garbage region r md d M Hn Hmd EM _ Ed). }
  split; [ intros H; apply saves_and_measures_iff in H; rewrite H in Em; exact Em | ].
  intros H. destruct (snd (flags region false false es)) eqn:E; [ destruct H; apply saves_and_measures_iff; exact E | exact Em ].
Qed.

(** show_distances draws the distances to the first point and to the point in the middle; before the distances were computed it
    raises TypeError.  It changes no file. *)
Theorem C123_show_distances : forall raw w0 es region r md,
  raw_dataset raw -> first_use w0 raw ->
  region_by_name region = Ok r -> silhouette_metadata_by_name (rm_name r) = Ok md -> rm_scaled r = false -> rect_in (rm_region r) (a3x raw) (a3y raw) ->
  saves region es ->
  let w := after_events w0 es in
  exists d, snd (create_instance garbage (dw_data w0) r) = Ok (TPlain d) /\ wf3 d /\
    (~ saves_and_measures region es -> run w region "show_distances"%string = (w, Raise TypeError)) /\
    (saves_and_measures region es -> exists first center,
       run w region "show_distances"%string =
         (w, Ok (Pictures [("plots/distances_0_0_" ++ rm_name r ++ ".eps", [Heatmap first]); ("plots/distances_center_" ++ rm_name r ++ ".eps", [Heatmap center])]%string)) /\
       a2x first = a3x d /\ a2y first = a3y d /\ a2x center = a3x d /\ a2y center = a3y d /\
       let middle := (Z.of_nat (a3x d / 2), Z.of_nat (a3y d / 2)) in
       forall q a0 am b, in_grid (a3x d) (a3y d) q -> series3 d 0 0 = Ok a0 -> series3 d (fst middle) (snd middle) = Ok am -> series3 d (fst q) (snd q) = Ok b ->
         get2 first (fst q) (snd q) = Ok (measure a0 b) /\ get2 center (fst q) (snd q) = Ok (measure am b)).
Proof.
  intros raw w0 es region r md Hr Hu Hn Hmd Hsc Hg Hs w.
  destruct (setting raw w0 es region r md Hr Hu Hn Hmd Hsc Hg) as (d & M & W & Hsp & X0 & Y0 & Hc & EM & SM & Hi & Ed & Em & _). fold w in Hi, Ed, Em. clearbody w.
  apply saves_iff in Hs. rewrite Hs in Ed.
  exists d. split; [ exact (proj2 (Hc garbage _ (minv_delivered _ _ (proj1 Hu)))) | ]. split; [ exact W | ].
  assert (E : run w region "show_distances"%string = (w, loaded <- fst (load_distance_matrix_2d (env_with measure norm junk (dw_mats w)) (distances_filename r) (rm_region r) (fresh PlainDTW)) ;;
    match loaded with
    | None => Raise TypeError
    | Some M => pictures <- show_distances (a3x d) (a3y d) (arr2_of_mat M) ;; Ok (Pictures (combine (picture_files r) pictures))
    end)).
  { unfold run_silhouette, do_silhouette. rewrite Hn, Hmd. unfold execute_command. cbn [String.eqb Ascii.eqb Bool.eqb].
    unfold show_saved_distances, load_saved. rewrite Ed. reflexivity. }
  rewrite E. unfold load_distance_matrix_2d, base_load, env_with, load_mat. cbn [np_load d_kind fresh]. rewrite Em.
  split. { intros H. destruct (snd (flags region false false es)) eqn:Ef; [ destruct H; apply saves_and_measures_iff; exact Ef | ]. reflexivity. }
  intros H. apply saves_and_measures_iff in H. rewrite H.
  assert (L : ((Z.of_nat (length (m_rows M)) =? r_points (rm_region r))%Z && (Z.of_nat (m_cols M) =? r_points (rm_region r))%Z)%bool = true).
  { destruct SM as (C & L & _). destruct Hsp as [ Sx Sy ]. unfold r_points. rewrite Sx, Sy, C, L. lia. }
  rewrite L. cbn [fst bind]. destruct (own_matrix_of measure junk d M W EM) as (Wa & Xa & Ya & V).
  destruct (C101_distance_pictures color (a3x d) (a3y d) (arr2_of_mat M) X0 Y0 Wa Xa Ya) as (first & center & Es' & X1 & Y1 & X2 & Y2 & P).
  exists first, center. rewrite Es'. cbn [bind combine picture_files]. split; [ reflexivity | ]. repeat (apply conj; [ assumption | ]).
  cbv zeta. set (middle := (Z.of_nat (a3x d / 2), Z.of_nat (a3y d / 2))). intros q a0 am b Hq A0 Am B. destruct (P (Z.to_nat (fst q)) (Z.to_nat (snd q)) ltac:(destruct Hq; lia) ltac:(destruct Hq; lia)) as [ V1 V2 ].
  rewrite !Z2Nat.id in V1, V2 by (destruct Hq; lia). rewrite V1, V2.
  assert (G0 : in_grid (a3x d) (a3y d) (0, 0)%Z) by (split; cbn; lia).
  assert (Gm : in_grid (a3x d) (a3y d) middle).
  { assert (a3x d / 2 < a3x d) by (apply Nat.div_lt; lia). assert (a3y d / 2 < a3y d) by (apply Nat.div_lt; lia). split; cbn [fst snd middle]; lia. }
  split; [ exact (V _ _ _ _ G0 Hq A0 B) | ]. pose proof (V _ _ _ _ Gm Hq Am B) as E'. unfold index_of in E' at 1. cbn [fst snd middle] in E'. rewrite !Nat2Z.id in E'. exact E'.
Qed.

(** A run for one region leaves the saved data and the distances of all other regions as they were. *)
Theorem C123_other_regions : forall raw w0 es region command region' r',
  raw_dataset raw -> first_use w0 raw -> region_by_name region' = Ok r' -> region <> region' ->
  let w := after_events w0 es in
  dw_data (fst (run w region command)) (dataset_filename r') = dw_data w (dataset_filename r') /\
  dw_mats (fst (run w region command)) (distances_filename r') = dw_mats w (distances_filename r').
Proof.
  intros raw w0 es region command region' r' Hr Hu Hn Hd w.
  assert (Hi : minv (dw_data w) raw) by (apply events_keep; [ exact Hr | apply minv_delivered; apply Hu ]).
  destruct (event_step color cmap is_black choice score samples measure norm junk garbage raw w (ERun region command) region' r' Hr Hi Hn) as (_ & K2 & K3).
  split; [ apply K2; left | apply K3 ]; intros [= E _]; auto.
Qed.

(** A region that is not offered, a region without an analysis of its name and a command that is not offered raise KeyError and
    change nothing. *)
Theorem C123_not_offered : forall w region command,
  ((forall r, region_by_name region <> Ok r) \/
   (exists r, region_by_name region = Ok r /\ forall md, silhouette_metadata_by_name (rm_name r) <> Ok md) \/
   ~ In command ["save"; "distances"; "kmedoids"; "show_distances"]%string) ->
  run w region command = (w, Raise KeyError).
Proof.
  intros w region command H. unfold run_silhouette, do_silhouette.
  destruct (region_by_name region) as [ r | e ] eqn:Hn.
  2:{ unfold region_by_name in Hn. revert Hn. generalize predefined_regions. induction l as [ | [ n v ] l IH ]; cbn; [ congruence | ]. destruct (_ =? _)%string; [ discriminate | exact IH ]. }
  destruct (silhouette_metadata_by_name (rm_name r)) as [ md | e ] eqn:Hm.
  2:{ unfold silhouette_metadata_by_name in Hm. revert Hm. generalize silhouettes_metadata. induction l as [ | [ n v ] l IH ]; cbn; [ congruence | ]. destruct (_ =? _)%string; [ discriminate | exact IH ]. }
  destruct H as [ H | [ (r' & [= <-] & H) | H ] ]; [ destruct (H r); reflexivity | destruct (H md); exact Hm | ].
  unfold execute_command. cbn [In] in H.
  destruct (String.eqb_spec command "save"); [ tauto || (exfalso; apply H; auto) | ].
  destruct (String.eqb_spec command "distances"); [ exfalso; apply H; auto | ].
  destruct (String.eqb_spec command "kmedoids"); [ exfalso; apply H; auto | ].
  destruct (String.eqb_spec command "show_distances"); [ exfalso; apply H; auto 6 | ]. reflexivity.
Qed.

(** The scaled regions are offered, but the program cannot be used with them: saving always fails, and so does every other
    command, after any history. *)
Theorem C123_scaled_regions_refuted : forall raw w0 es region r md,
  raw_dataset raw -> first_use w0 raw ->
  region_by_name region = Ok r -> silhouette_metadata_by_name (rm_name r) = Ok md -> rm_scaled r = true ->
  let w := after_events w0 es in
  (exists e, snd (run w region "save"%string) = Raise e) /\
  forall command, (command = "distances" \/ command = "kmedoids" \/ command = "show_distances")%string -> run w region command = (w, Raise IOError).
Proof.
  intros raw w0 es region r md Hr Hu Hn Hmd Hsc.
  assert (G : forall es w, minv (dw_data w) raw -> dw_data w (dataset_filename r) = None ->
    minv (dw_data (after_events w es)) raw /\ dw_data (after_events w es) (dataset_filename r) = None).
  { clear es. induction es as [ | e es IH ]; intros w Hi Hf; [ auto | ]. 
    destruct (event_step color cmap is_black choice score samples measure norm junk garbage raw w e region r Hr Hi Hn) as (K1 & K2 & _).
    apply IH; [ exact K1 | ]. rewrite K2 by auto. exact Hf. }
  destruct (G es w0 (minv_delivered _ _ (proj1 Hu)) (proj1 (proj2 Hu) _ _ Hn)) as [ Hi Hf ]. clear G. intros w. fold w in Hi, Hf. clearbody w. split.
  - destruct (save_step color garbage raw w region r Hr Hi Hn) as (_ & _ & _ & K). destruct (proj1 (K Hsc)) as [ e E ]. exists e.
    unfold run_silhouette, do_silhouette. rewrite Hn, Hmd. exact E.
  - intros command Hcmd. eapply not_saved; eauto.
Qed.
End Statements.
Print Assumptions C123_kmedoids.
Print Assumptions C123_save.
Print Assumptions C123_not_saved.
Print Assumptions C123_distances.
Print Assumptions C123_show_distances.
Print Assumptions C123_other_regions.
Print Assumptions C123_not_offered.
Print Assumptions C123_scaled_regions_refuted.

(** One analysis does not stay out of the next: metadata made without a distance measure share one measure, so that the second
    analysis of a process uses the distances of the first region and labels the points of the second one differently. *)
Definition line_matrix (X : dataset) : res (arr2 fnum) :=
  Ok (mk2 (length X) (length X) (flat_map (fun a => map (fun b => fabs (fsub (hd NaN a) (hd NaN b))) X) X)).
Definition ex_X2 : dataset := [[Fin 0]; [Fin 10]; [Fin 1]; [Fin 11]].
Definition ex_choice2 (s : Z) (n : nat) (k : Z) : res (list Z) := Ok (firstn (Z.to_nat k) [0; 1; 2]%Z).
Theorem C123_independent_analyses_refuted : exists choice score samples (md : smeta) X1 X2 matrix,
  fst (analyse (fun v => v) (fun _ => false) choice score samples None X1 line_matrix md 2 2) = Some matrix /\
  snd (analyse (fun v => v) (fun _ => false) choice score samples None X2 line_matrix md 2 2) =
    Ok (SBest (Fin (9 # 10)) 2 (Some 0%Z) (Some [0; 1]%Z) (Some [0; 1; 0; 1]), []) /\
  snd (analyse (fun v => v) (fun _ => false) choice score samples (Some matrix) X2 line_matrix md 2 2) =
    Ok (SBest (Fin (9 # 10)) 2 (Some 0%Z) (Some [2; 1]%Z) (Some [1; 1; 0; 0]), []).
Proof.
  exists ex_choice2, ex_score, ex_samples, (SMeta [2]%Z [0]%Z Robust None 10 (Fin (1 # 1000)) false true None), ex_X, ex_X2. eexists.
  split; [ reflexivity | ]. split; vm_compute; reflexivity.
Qed.
Print Assumptions C123_independent_analyses_refuted.

(** two regions, with a crash and damaged files in between *)
Definition ex_world : dworld := DWorld ex_wide_dfs (fun _ => None).
Lemma ex_first_use : raw_dataset ex_wide /\ first_use ex_world ex_wide.
Proof.
  destruct ex_wide_delivered as [ Hr Hd ]. split; [ exact Hr | ]. split; [ exact Hd | ]. split; [ | reflexivity ].
  intros region r Hn. cbn [dw_data ex_world]. unfold ex_wide_dfs. rewrite put_other; [ reflexivity | ]. apply (predefined_not_cache _ _ Hn).
Qed.
Definition ex_events : list event :=
  [ ERun "nordeste_small_2014_2014_1spd" "save"; ERun "nordeste_small_2015_2015_1spd" "distances"; ERun "nordeste_small_2015_2015_1spd_scaled" "save";
    ECrash NaN 2015 2015 1; ERun "nordeste_small_2015_2015_1spd" "save"; EDamage 2015 2015 1; ERun "nordeste_small_2014_2014_1spd" "distances";
    ERun "nordeste_small_2015_2015_1spd" "kmedoids" ]%string.
Example C123_ex : exists r md r2 md2 rs mds,
  region_by_name "nordeste_small_2015_2015_1spd" = Ok r /\ silhouette_metadata_by_name (rm_name r) = Ok md /\ rm_scaled r = false /\
  rect_in (rm_region r) (a3x ex_wide) (a3y ex_wide) /\ saves "nordeste_small_2015_2015_1spd" ex_events /\ ~ saves_and_measures "nordeste_small_2015_2015_1spd" ex_events /\
  region_by_name "nordeste_small_2014_2014_1spd" = Ok r2 /\ silhouette_metadata_by_name (rm_name r2) = Ok md2 /\ rm_scaled r2 = false /\
  rect_in (rm_region r2) (a3x ex_wide) (a3y ex_wide) /\ saves_and_measures "nordeste_small_2014_2014_1spd" ex_events /\
  region_by_name "nordeste_small_2015_2015_1spd_scaled" = Ok rs /\ silhouette_metadata_by_name (rm_name rs) = Ok mds /\ rm_scaled rs = true /\
  ~ saves "brian_2015_2015_1spd" ex_events /\ length (all_runs (sm_seeds md) (sm_ks md)) = 18 /\
  (forall measure, exists d X m, own_series d X /\ own_matrix measure d m /\ a3x d = 7 /\ a3y d = 10 /\
     snd (run_silhouette unit (fun _ => tt) (fun _ => true) (fun _ _ _ => Raise ValueError) (fun _ _ => Ok NaN) (fun _ _ => Ok []) measure (fun _ _ => NaN) NaN NaN
            (after_events unit (fun _ => tt) (fun _ => true) (fun _ _ _ => Raise ValueError) (fun _ _ => Ok NaN) (fun _ _ => Ok []) measure (fun _ _ => NaN) NaN NaN ex_world ex_events)
            "nordeste_small_2015_2015_1spd" "kmedoids") = Raise ValueError).
Proof.
  assert (G : forall r, rm_region r = Rect 43 50 85 95 -> rect_in (rm_region r) (a3x ex_wide) (a3y ex_wide)).
  { intros r ->. change (a3x ex_wide) with 60. change (a3y ex_wide) with 100. unfold rect_in. cbn. lia. }
  do 6 eexists. do 3 (split; [ reflexivity | ]). split; [ apply G; reflexivity | ].
  split; [ unfold saves, ex_events; cbn [In]; auto 8 | ].
  split; [ rewrite saves_and_measures_iff; vm_compute; discriminate | ].
  do 3 (split; [ reflexivity | ]). split; [ apply G; reflexivity | ].
  split; [ apply saves_and_measures_iff; reflexivity | ]. do 3 (split; [ reflexivity | ]).
  split; [ rewrite saves_iff; vm_compute; discriminate | ]. split; [ reflexivity | ].
  intros measure. destruct ex_first_use as [ Hr Hu ].
  destruct (C123_kmedoids unit (fun _ => tt) (fun _ => true) (fun _ _ _ => Raise ValueError) (fun _ _ => Ok NaN) (fun _ _ => Ok []) measure (fun _ _ => NaN) NaN NaN
    ex_wide ex_world ex_events "nordeste_small_2015_2015_1spd" _ _ Hr Hu eq_refl eq_refl eq_refl ltac:(apply G; reflexivity)
    ltac:(unfold saves, ex_events; cbn [In]; auto 8)) as (d & X & m & _ & [ Sx Sy ] & H1 & H2 & _ & _ & H3).
  exists d, X, m. split; [ exact H1 | ]. split; [ exact H2 | ]. cbn in Sx, Sy. split; [ lia | ]. split; [ lia | ].
  eapply (H3 [] 0%Z 2%Z); [ reflexivity | intros ? ? [] | reflexivity ].
Qed.
