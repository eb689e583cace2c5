(** The predefined experiments and the solver programs. *)
From Coq Require Import String.
From Verif Require Import Base.Py Base.PyFacts Base.Arr Base.ArrFacts Base.Str Base.StrFacts Base.Dict Base.Float Model.Region Model.Scaling Model.Series
  Model.Errors Model.Models Model.Forecast Model.Clustering Model.Solver Model.SolverFiles Model.Results Model.Programs
  Spec.Grid Spec.Partition Spec.SolverFiles Spec.Solver Spec.Programs Spec.Rect Spec.Results Proofs.RegionFacts Proofs.PartitionFacts Proofs.ProperFacts
  Proofs.NameFacts Proofs.FilesFacts Proofs.SolverFacts Proofs.ResultsFacts Proofs.ForecastFacts Props.SolverFiles Props.Solver Props.Results.
From Coq Require Import ZifyBool ZifyNat.
Local Open Scope string_scope.
Local Notation length := List.length.

Lemma dict_get_in {V} (name : string) (d : list (string * V)) v : dict_get String.eqb name d = Ok v -> In (name, v) d.
Proof.
  induction d as [|[k w] t IH]; cbn [dict_get]; [discriminate|]. destruct (String.eqb k name) eqn:E.
  - apply String.eqb_eq in E. intros [= <-]. left. congruence.
  - intros H. right. auto.
Qed.

Lemma predefined_facts name r : region_by_name name = Ok r ->
  rmeta_repr r = name /\ has_char "/" (rm_name r) = false /\ rm_spd r = 1%Z /\ rm_dataset_dir r = "raw" /\
  (0 <= x1 (rm_region r) < x2 (rm_region r))%Z /\ (0 <= y1 (rm_region r) < y2 (rm_region r))%Z /\ (2011 <= rm_start r <= rm_end r)%Z /\ (rm_end r <= 2015)%Z.
Proof.
  intros H. apply dict_get_in in H. unfold predefined_regions in H. cbn [In] in H.
  repeat (destruct H as [[= <- <-]|H]; [repeat split; try reflexivity; cbn; lia|]). contradiction.
Qed.

Lemma repr_same_region r r' : same_region r r' -> rmeta_repr r = rmeta_repr r'.
Proof. intros (E1 & E2 & E3 & E4 & E5). unfold rmeta_repr. rewrite E1, E2, E3, E4, E5. reflexivity. Qed.

Lemma region_by_name_inj name name' r r' : region_by_name name = Ok r -> region_by_name name' = Ok r' -> rmeta_repr r = rmeta_repr r' ->
  name = name' /\ r = r'.
Proof.
  intros H H' E. destruct (predefined_facts _ _ H) as (E1 & _). destruct (predefined_facts _ _ H') as (E1' & _).
  assert (name = name') by congruence. subst name'. split; congruence.
Qed.

(* ---------------------------------------------------------------- metadata of a request *)

Lemma metadata_inv a r c : metadata_from_args a = Ok (r, c) ->
  region_by_name (a_region a) = Ok r /\
  ((a_clustering a = "regular" /\ c = CRegular (a_k a)) \/ (a_clustering a = "kmedoids" /\ c = CKmedoids (kmeta_default (a_k a) (a_seed a) "lite"))).
Proof.
  unfold metadata_from_args. destruct (region_by_name (a_region a)) as [r0|] eqn:E; cbn [bind]; [|discriminate].
  destruct (a_clustering a =? "regular")%string eqn:E1; cbn [bind].
  - intros [= <- <-]. apply String.eqb_eq in E1. auto.
  - destruct (a_clustering a =? "kmedoids")%string eqn:E2; cbn [bind]; [|discriminate].
    intros [= <- <-]. apply String.eqb_eq in E2. auto.
Qed.

Lemma place_clean a r c : metadata_from_args a = Ok (r, c) -> clean_place c r "dtw".
Proof.
  intros H. apply metadata_inv in H. destruct H as [Hr Hc]. destruct (predefined_facts _ _ Hr) as (_ & Hn & _).
  destruct Hc as [[_ ->]|[_ ->]]; repeat split; auto; discriminate.
Qed.

Lemma same_place_metadata a a' : same_place a a' -> metadata_from_args a = metadata_from_args a'.
Proof.
  intros (E1 & E2 & E3 & E4). unfold metadata_from_args. rewrite <- E1, <- E2, <- E3.
  destruct (region_by_name (a_region a)); cbn [bind]; auto.
  destruct (a_clustering a =? "regular")%string eqn:E; auto.
  destruct E4 as [<-|E4]; auto. rewrite E4 in E. discriminate.
Qed.

(** clusterings of the same partition come from the same options *)
Lemma metadata_same a a' r c r' c' : metadata_from_args a = Ok (r, c) -> metadata_from_args a' = Ok (r', c') ->
  same_region r r' -> same_clustering c c' -> r = r' /\ c = c' /\ same_place a a'.
Proof.
  intros H H' Hr Hc. apply metadata_inv in H, H'. destruct H as [R C], H' as [R' C'].
  destruct (region_by_name_inj _ _ _ _ R R' (repr_same_region _ _ Hr)) as [En ->]. split; [reflexivity|].
  unfold same_place. destruct C as [[C ->]|[C ->]], C' as [[C' ->]|[C' ->]]; cbn in Hc; try contradiction.
  - subst. rewrite Hc. split; [reflexivity|]. rewrite C, C'. auto 10.
  - destruct Hc as (E1 & E2 & _). rewrite E1, E2, C, C'. auto 10.
Qed.

(* ---------------------------------------------------------------- training twice *)
Section Train.
Context {P M : Type} (kind : model_kind P M).

Lemma train_known_error params (refit : refitter (M := M)) cluster r tl et s : solver_train kind params refit cluster r tl et = Ok s ->
  has_char "/" et = false.
Proof.
  unfold solver_train. destruct (split_training_and_test_last tl r) as [training test]. destruct (cluster r) as [[p ms]|]; cbn [bind]; [|discriminate].
  destruct (train_at_representatives kind params ms training) as [[m n]|]; cbn [bind fst]; [|discriminate].
  destruct (replicate_representative_models m p ms); cbn [bind]; [|discriminate].
  unfold calculate_errors. destruct (t_apply_series _ _ _ _); cbn [bind]; [|discriminate].
  destruct (get_error_func et) eqn:E; cbn [bind]; [|discriminate]. intros _. revert E. unfold get_error_func.
  repeat (match goal with |- (if ?b then _ else _) = _ -> _ => destruct b eqn:?Eb end); try discriminate; intros _;
    match goal with H : (et =? _)%string = true |- _ => apply String.eqb_eq in H; subst; reflexivity end.
Qed.

Lemma train_twice params (refit : refitter (M := M)) p ms r tl et s tl' et' s' :
  solver_train kind params refit (fun _ => Ok (p, ms)) r tl et = Ok s -> solver_train kind params refit (fun _ => Ok (p, ms)) r tl' et' = Ok s' ->
  so_partition s = p /\ so_medoids s = ms /\
  (tl = tl' -> so_training s = so_training s' /\ so_whole s = so_whole s') /\
  ((forall models models' r, refit models r = refit models' r) -> so_whole s = so_whole s').
Proof.
  unfold solver_train. intros H H'.
  destruct (split_training_and_test_last tl r) as [training test] eqn:S. destruct (split_training_and_test_last tl' r) as [training' test'] eqn:S'.
  cbn [bind] in H, H'.
  destruct (train_at_representatives kind params ms training) as [[m n]|] eqn:T; cbn [bind fst] in H; [|discriminate].
  destruct (train_at_representatives kind params ms training') as [[m' n']|] eqn:T'; cbn [bind fst] in H'; [|discriminate].
  destruct (replicate_representative_models m p ms) as [R|] eqn:ER; cbn [bind] in H; [|discriminate].
  destruct (replicate_representative_models m' p ms) as [R'|] eqn:ER'; cbn [bind] in H'; [|discriminate].
  destruct (calculate_errors kind R training test et) as [e|]; cbn [bind] in H; [|discriminate].
  destruct (calculate_errors kind R' training' test' et') as [e'|]; cbn [bind] in H'; [|discriminate].
  destruct (refit m r) as [[w k]|] eqn:F; cbn [bind fst] in H; [|discriminate].
  destruct (refit m' r) as [[w' k']|] eqn:F'; cbn [bind fst] in H'; [|discriminate].
  destruct (replicate_representative_models w p ms) as [W|] eqn:EW; cbn [bind] in H; [|discriminate].
  destruct (replicate_representative_models w' p ms) as [W'|] eqn:EW'; cbn [bind] in H'; [|discriminate].
  injection H as <-. injection H' as <-. cbn.
  split; [reflexivity|]. split; [reflexivity|]. split.
  - intros <-. rewrite S in S'. injection S' as <- <-. rewrite T in T'. injection T' as <- <-. rewrite ER in ER'. injection ER' as <-.
    rewrite F in F'. injection F' as <- <-. rewrite EW in EW'. injection EW' as <-. auto.
  - intros Hr. rewrite (Hr m m') in F. rewrite F in F'. injection F' as <- <-. congruence.
Qed.
End Train.

(* ---------------------------------------------------------------- histories *)
Section Histories.
Context (create_instance : rmeta -> res (stregion fnum)) (load_distances : rmeta -> res unit)
        (partition_impl : rmeta -> cmeta -> stregion fnum -> bool -> res part)
        (dtw : list fnum -> list fnum -> fnum) (sqrt : fnum -> fnum)
        (format_float : nat -> fnum -> string) (show_series : list fnum -> string).
Context {M : Type}.
Notation train_request := (train_request (M := M) create_instance load_distances partition_impl).
Notation predict_request := (predict_request (M := M) create_instance partition_impl dtw sqrt format_float show_series).
Notation run := (run (M := M) create_instance load_distances partition_impl dtw sqrt format_float show_series).

(** the training that a program performs once it has its partition *)
Definition trained (pg : program M) (a : solver_args) (r : rmeta) (p : crisp) (ms : list point) (spt : stregion fnum) : res (solver M) :=
  solver_train (pg_kind pg) (full2 (rm_x r) (rm_y r) (Some (pg_value pg))) (pg_refit pg (rm_x r) (rm_y r))
               (fun _ => Ok (p, ms)) spt (a_test_len a) (a_error a).

(** what the four files hold after training *)
Definition holds (fs : fsys M) (k : skey) (s : solver M) : Prop :=
  fs (partition_pickle_path k) = Some (FPartition (so_partition s, Some (so_medoids s))) /\
  fs (model_training_pickle_path k) = Some (FModels (so_training s)) /\
  fs (model_whole_pickle_path k) = Some (FModels (so_whole s)) /\
  fs (generalization_errors_pickle_path k) = Some (FErrors (so_errors s)).

Lemma key_clean (pg : program M) a r c : metadata_from_args a = Ok (r, c) -> has_char "/" (a_error a) = false -> clean_key (key_of pg a r c).
Proof. intros H He. split; [|exact He]. eapply place_clean; eauto. Qed.

Lemma train_inv fs pg a fs' : train_request fs pg a = (fs', Ok tt) ->
  exists r c spt p ms fs1 b s, metadata_from_args a = Ok (r, c) /\ create_instance r = Ok spt /\
    partition_call fs c "dtw" (Some r) (partition_impl r c spt) true (Some "pickle") = (fs1, Ok ((p, Some ms), b)) /\
    trained pg a r p ms spt = Ok s /\ fs' = save_solver fs1 (key_of pg a r c) s.
Proof.
  unfold Programs.train_request. destruct (metadata_from_args a) as [[r c]|] eqn:Em; [|discriminate].
  destruct (load_distances r) as [[]|]; cbn [bind]; [|discriminate]. destruct (create_instance r) as [spt|] eqn:Ec; [|discriminate].
  destruct (partition_call _ _ _ _ _ _ _) as [fs1 [[[p [ms|]] b]|]] eqn:Ep; try discriminate.
  fold (trained pg a r p ms spt). destruct (trained pg a r p ms spt) as [s|] eqn:Et; [|discriminate]. intros [= <-].
  exists r, c, spt, p, ms, fs1, b, s. auto 10.
Qed.

Lemma trained_parts pg a r p ms spt s : trained pg a r p ms spt = Ok s -> so_partition s = p /\ so_medoids s = ms.
Proof. intros H. destruct (train_twice _ _ _ _ _ _ _ _ _ _ _ _ H H) as (E1 & E2 & _). auto. Qed.

Lemma train_holds fs pg a fs' : train_request fs pg a = (fs', Ok tt) ->
  exists r c spt p ms s, metadata_from_args a = Ok (r, c) /\ create_instance r = Ok spt /\ trained pg a r p ms spt = Ok s /\ holds fs' (key_of pg a r c) s.
Proof.
  intros H. destruct (train_inv _ _ _ _ H) as (r & c & spt & p & ms & fs1 & b & s & Em & Ec & Ep & Et & ->).
  exists r, c, spt, p, ms, s. split; [auto|]. split; [auto|]. split; [auto|].
  assert (K : clean_key (key_of pg a r c)) by (eapply key_clean; eauto; eapply train_known_error; exact Et).
  pose proof (proj1 K) as Kp. cbn [k_clustering k_region k_dist key_of] in Kp.
  destruct (trained_parts _ _ _ _ _ _ _ Et) as [E1 E2]. rewrite <- E1, <- E2 in Ep. repeat split.
  - rewrite saved_other; [|apply partition_training; auto|apply partition_whole; auto|apply partition_errors; auto].
    eapply partition_call_saved; exact Ep.
  - apply saved_training; auto.
  - apply saved_whole; auto.
  - apply saved_errors.
Qed.

(** a partition file written for another place *)
Lemma holds_put (fs : fsys M) k s c r q : clean_key k -> clean_place c r "dtw" -> holds fs k s ->
  try_load_previous_partition fs c "dtw" r "pickle" = None -> holds (fs_put fs (pickle_full_path c r "dtw") (FPartition q)) k s.
Proof.
  intros K P (H1 & H2 & H3 & H4) Hn. repeat split; rewrite put_other; auto.
  - intros X. rewrite X in H1. rewrite (try_load_ok _ _ _ _ "pickle" _ H1) in Hn. discriminate.
  - intros X; symmetry in X; revert X; apply partition_training; auto.
  - intros X; symmetry in X; revert X; apply partition_whole; auto.
  - intros X; symmetry in X; revert X; apply partition_errors; auto.
Qed.
Lemma partition_step (fs : fsys M) k s c r impl wm : clean_key k -> clean_place c r "dtw" -> holds fs k s ->
  holds (fst (partition_call fs c "dtw" (Some r) impl wm (Some "pickle"))) k s.
Proof.
  intros K P H. destruct (partition_call_fs fs c "dtw" (Some r) impl wm (Some "pickle")) as [->|(r' & h & q & [= <-] & [= <-] & Hn & _ & ->)]; auto.
  apply holds_put; auto.
Qed.

(** saving another solver *)
Lemma save_step (fs : fsys M) k s k' s' : clean_key k -> clean_key k' -> holds fs k s ->
  (same_models k k' -> so_whole s' = so_whole s /\
     (k_test_len k = k_test_len k' -> so_training s' = so_training s /\ (k_error k = k_error k' -> so_errors s' = so_errors s))) ->
  holds (save_solver fs k' s') k s.
Proof.
  intros K K' (H1 & H2 & H3 & H4) Hs. pose proof (proj1 K) as P. pose proof (proj1 K') as P'.
  destruct (C79_files_are_distinct k k' K K') as (I1 & I2 & I3 & _ & D1 & D2 & D3 & D4 & D5 & D6).
  destruct (C79_files_are_distinct k' k K' K) as (_ & _ & _ & _ & F1 & F2 & F3 & _).
  repeat split.
  - rewrite saved_other; auto.
  - destruct (string_dec (model_training_pickle_path k) (model_training_pickle_path k')) as [E|N].
    + rewrite E, saved_training by auto. apply I1 in E. destruct (Hs (proj1 E)) as [_ X]. destruct (X (proj2 E)) as [-> _]. reflexivity.
    + rewrite saved_other; auto.
  - destruct (string_dec (model_whole_pickle_path k) (model_whole_pickle_path k')) as [E|N].
    + rewrite E, saved_whole by auto. apply I2 in E. destruct (Hs E) as [-> _]. reflexivity.
    + rewrite saved_other; auto.
  - destruct (string_dec (generalization_errors_pickle_path k) (generalization_errors_pickle_path k')) as [E|N].
    + rewrite E, saved_errors. apply I3 in E. destruct E as (E1 & E2 & E3). destruct (Hs E1) as [_ X]. destruct (X E2) as [_ Y]. rewrite (Y E3). reflexivity.
    + rewrite saved_other; auto.
Qed.

Lemma train_step fs pg a r c spt p ms s pg' a' : metadata_from_args a = Ok (r, c) -> create_instance r = Ok spt -> trained pg a r p ms spt = Ok s ->
  holds fs (key_of pg a r c) s -> keeps pg a (Train pg' a') -> holds (fst (train_request fs pg' a')) (key_of pg a r c) s.
Proof.
  intros Em Ec Et H Hk.
  assert (K : clean_key (key_of pg a r c)) by (eapply key_clean; eauto; eapply train_known_error; exact Et).
  unfold Programs.train_request. destruct (metadata_from_args a') as [[r' c']|] eqn:Em'; [|exact H].
  destruct (_ <- load_distances r' ;; create_instance r') as [spt'|] eqn:Ec'; [|exact H].
  assert (Ec0 : create_instance r' = Ok spt') by (destruct (load_distances r') as [[]|]; cbn [bind] in Ec'; congruence).
  pose proof (place_clean _ _ _ Em') as P'.
  pose proof (partition_step fs (key_of pg a r c) s c' r' (partition_impl r' c' spt') true K P' H) as H'.
  destruct (partition_call _ _ _ _ _ _ _) as [fs1 [[[p' [ms'|]] b]|]] eqn:Ep; cbn [fst] in *; auto.
  fold (trained pg' a' r' p' ms' spt'). destruct (trained pg' a' r' p' ms' spt') as [s'|] eqn:Et'; cbn [fst]; auto.
  assert (K' : clean_key (key_of pg' a' r' c')) by (eapply key_clean; eauto; eapply train_known_error; exact Et').
  apply save_step; auto. intros (Sr & _ & Sc & Sp). cbn [key_of k_region k_clustering k_params k_test_len k_error] in *.
  destruct (metadata_same _ _ _ _ _ _ Em Em' Sr Sc) as (<- & <- & Spl). destruct (Hk Spl Sp) as [-> Htl].
  assert (spt' = spt) by congruence. subst spt'.
  destruct (trained_parts _ _ _ _ _ _ _ Et) as [E1 E2].
  assert (Epp : p' = p /\ ms' = ms).
  { destruct H as (H1 & _). rewrite (partition_call_hit _ _ _ _ _ _ _ _ H1) in Ep. injection Ep as _ <- <- _. split; congruence. }
  destruct Epp as [-> ->]. unfold trained in Et, Et'.
  destruct (train_twice _ _ _ _ _ _ _ _ _ _ _ _ Et Et') as (_ & _ & T1 & T2). split.
  - destruct Htl as [Htl|Hf]; symmetry; [apply T1; auto|apply T2; intros; apply Hf].
  - intros E. destruct (T1 E) as [-> _]. split; auto. intros E'. rewrite <- E, <- E' in Et'. rewrite Et in Et'. injection Et' as <-. reflexivity.
Qed.

Lemma predict_fs fs pg a lat1 lat2 long1 long2 tf :
  fst (predict_request fs pg a lat1 lat2 long1 long2 tf) = fs \/
  exists r c g q, metadata_from_args a = Ok (r, c) /\ prediction_region lat1 lat2 long1 long2 = Ok g /\
    try_load_previous_partition fs c "dtw" r "pickle" = None /\
    fst (predict_request fs pg a lat1 lat2 long1 long2 tf) = fs_put fs (pickle_full_path c r "dtw") (FPartition q).
Proof.
  unfold Programs.predict_request. destruct (metadata_from_args a) as [[r c]|] eqn:Em; [|left; reflexivity].
  destruct (prediction_region lat1 lat2 long1 long2) as [g|] eqn:Eg; [|left; reflexivity].
  set (impl := fun wm => spt <- create_instance r ;; partition_impl r c spt wm).
  pose proof (load_solver_fs fs (key_of pg a r c) impl) as F. pose proof (load_partition_fs fs (key_of pg a r c) impl) as F'.
  destruct (load_solver fs (key_of pg a r c) impl) as [fs' l]. cbn [fst] in *. rewrite F.
  destruct F' as [->|(q & Hn & ->)]; [left; reflexivity|right]. exists r, c, g, q. auto.
Qed.

Lemma run_step fs pg a r c spt p ms s q : metadata_from_args a = Ok (r, c) -> create_instance r = Ok spt -> trained pg a r p ms spt = Ok s ->
  holds fs (key_of pg a r c) s -> keeps pg a q -> holds (run fs q) (key_of pg a r c) s.
Proof.
  intros Em Ec Et H Hk. destruct q as [pg' a'|pg' a' lat1 lat2 long1 long2 tf]; cbn [Programs.run]; [eapply train_step; eauto|].
  destruct (predict_fs fs pg' a' lat1 lat2 long1 long2 tf) as [->|(r' & c' & g & q & Em' & _ & Hn & ->)]; auto.
  apply holds_put; auto; [|eapply place_clean; eauto]. eapply key_clean; eauto; eapply train_known_error; exact Et.
Qed.

Lemma runs_hold history : forall fs pg a r c spt p ms s, metadata_from_args a = Ok (r, c) -> create_instance r = Ok spt -> trained pg a r p ms spt = Ok s ->
  holds fs (key_of pg a r c) s -> Forall (keeps pg a) history -> holds (fold_left run history fs) (key_of pg a r c) s.
Proof.
  induction history as [|q l IH]; intros fs pg a r c spt p ms s Em Ec Et H Hk; auto. inversion Hk; subst. cbn [fold_left].
  eapply IH; eauto. eapply run_step; eauto.
Qed.

Lemma predict_held fs pg a lat1 lat2 long1 long2 tf r c spt s : metadata_from_args a = Ok (r, c) -> create_instance r = Ok spt ->
  holds fs (key_of pg a r c) s ->
  predict_request fs pg a lat1 lat2 long1 long2 tf =
  (fs, g <- prediction_region lat1 lat2 long1 long2 ;;
       result <- solver_result (pg_kind pg) s (meta_of (key_of pg a r c)) (ByDTW dtw) (rm_scaled r) spt g tf ;;
       show_result sqrt format_float show_series result).
Proof.
  intros Em Ec (H1 & H2 & H3 & H4). unfold Programs.predict_request. rewrite Em.
  destruct (prediction_region lat1 lat2 long1 long2) as [g|]; [|reflexivity]. cbn [bind].
  rewrite (load_solver_ok _ _ _ _ _ _ _ H1 H2 H3 H4). cbn [bind]. rewrite Ec. reflexivity.
Qed.

(** a file that training would write, before anything has been trained *)
Lemma untrained_step fs pg a r c q : metadata_from_args a = Ok (r, c) -> has_char "/" (a_error a) = false ->
  fs (generalization_errors_pickle_path (key_of pg a r c)) = None -> ~ trains pg a q ->
  run fs q (generalization_errors_pickle_path (key_of pg a r c)) = None.
Proof.
  intros Em He H Hq. pose proof (key_clean pg _ _ _ Em He) as K.
  destruct q as [pg' a'|pg' a' lat1 lat2 long1 long2 tf]; cbn [Programs.run trains] in *.
  - unfold Programs.train_request. destruct (metadata_from_args a') as [[r' c']|] eqn:Em'; [|exact H].
    destruct (_ <- load_distances r' ;; create_instance r') as [spt'|]; [|exact H].
    pose proof (place_clean _ _ _ Em') as P'.
    assert (H' : fst (partition_call fs c' "dtw" (Some r') (partition_impl r' c' spt') true (Some "pickle")) (generalization_errors_pickle_path (key_of pg a r c)) = None).
    { destruct (partition_call_fs fs c' "dtw" (Some r') (partition_impl r' c' spt') true (Some "pickle")) as [->|(r0 & h & q & [= <-] & _ & _ & _ & ->)]; auto.
      rewrite put_other; auto. intros X; symmetry in X; revert X; apply partition_errors; auto. }
    destruct (partition_call _ _ _ _ _ _ _) as [fs1 [[[p' [ms'|]] b]|]] eqn:Ep; cbn [fst] in *; auto.
    fold (trained pg' a' r' p' ms' spt'). destruct (trained pg' a' r' p' ms' spt') as [s'|] eqn:Et'; cbn [fst]; auto.
    assert (K' : clean_key (key_of pg' a' r' c')) by (eapply key_clean; eauto; eapply train_known_error; exact Et').
    destruct (C79_files_are_distinct (key_of pg a r c) (key_of pg' a' r' c') K K') as (_ & _ & I3 & _).
    destruct (C79_files_are_distinct (key_of pg' a' r' c') (key_of pg a r c) K' K) as (_ & _ & _ & _ & _ & F2 & F3 & _).
    rewrite saved_other; auto. intros X. apply I3 in X. destruct X as ((Sr & _ & Sc & Sp) & E2 & E3).
    cbn [key_of k_region k_clustering k_params k_test_len k_error] in *.
    destruct (metadata_same _ _ _ _ _ _ Em Em' Sr Sc) as (<- & <- & Spl). apply Hq. unfold same_options. auto.
  - destruct (predict_fs fs pg' a' lat1 lat2 long1 long2 tf) as [->|(r' & c' & g & q & Em' & _ & Hn & ->)]; auto.
    rewrite put_other; auto. intros X; symmetry in X; revert X; apply partition_errors; auto. eapply place_clean; eauto.
Qed.

Lemma partition_origin (fs fs1 : fsys M) c r impl wm p b : partition_call fs c "dtw" (Some r) impl wm (Some "pickle") = (fs1, Ok (p, b)) ->
  fs (pickle_full_path c r "dtw") = Some (FPartition p) \/ impl wm = Ok p.
Proof.
  unfold partition_call. destruct (try_load_previous_partition fs c "dtw" r "pickle") as [q|] eqn:E.
  - intros [= _ <- _]. left. eapply try_load_inv; eauto.
  - destruct (impl wm) as [q|]; [|discriminate]. cbn. intros [= _ <- _]. auto.
Qed.

(** the files after training and any history that keeps them *)
Lemma held_after fs pg a fs1 history r c spt : metadata_from_args a = Ok (r, c) -> create_instance r = Ok spt ->
  train_request fs pg a = (fs1, Ok tt) -> Forall (keeps pg a) history ->
  exists p ms s, (fs (pickle_full_path c r "dtw") = Some (FPartition (p, Some ms)) \/ partition_impl r c spt true = Ok (p, Some ms)) /\
    trained pg a r p ms spt = Ok s /\ so_partition s = p /\ so_medoids s = ms /\ holds (fold_left run history fs1) (key_of pg a r c) s.
Proof.
  intros Em Ec Htr Hk.
  destruct (train_inv _ _ _ _ Htr) as (r' & c' & spt' & p & ms & fs1' & b0 & s & Em' & Ec' & Ep & Et & Efs).
  rewrite Em in Em'. injection Em' as <- <-. rewrite Ec in Ec'. injection Ec' as <-.
  destruct (trained_parts _ _ _ _ _ _ _ Et) as [F1 F2].
  assert (Hh : holds fs1 (key_of pg a r c) s).
  { destruct (train_holds _ _ _ _ Htr) as (r' & c' & spt' & p' & ms' & s' & Em' & Ec' & Et' & Hh).
    rewrite Em in Em'. injection Em' as <- <-. rewrite Ec in Ec'. injection Ec' as <-.
    assert (p' = p /\ ms' = ms) as [-> ->].
    { destruct (trained_parts _ _ _ _ _ _ _ Et') as [E1 E2]. destruct Hh as (H1 & _).
      assert (K : clean_key (key_of pg a r c)) by (eapply key_clean; eauto; eapply train_known_error; exact Et).
      pose proof (proj1 K) as Kp. cbn [k_clustering k_region k_dist key_of] in Kp. subst fs1.
      rewrite saved_other in H1; [|apply partition_training; auto|apply partition_whole; auto|apply partition_errors; auto].
      apply partition_call_saved in Ep. unfold partition_pickle_path, key_of in H1. cbn [k_clustering k_region k_dist] in H1. rewrite Ep in H1. injection H1 as H1 H2. split; congruence. }
    rewrite Et in Et'. injection Et' as <-. exact Hh. }
  exists p, ms, s. split; [eapply partition_origin; eauto|]. split; [exact Et|]. split; [exact F1|]. split; [exact F2|].
  eapply runs_hold; eauto.
Qed.

(** a successful answer, after training: the solver, the result and what is printed *)
Lemma answer fs pg a fs1 history a' lat1 lat2 long1 long2 tf r c d sc tl g Q fs2 lines files :
  forecasts_fit (pg_kind pg) ->
  metadata_from_args a = Ok (r, c) -> create_instance r = Ok (qregion d sc) -> qwf d sc -> a3x d = rm_x r -> a3y d = rm_y r ->
  is_scaled sc = rm_scaled r -> a_test_len a = Z.of_nat tl -> tl <= a3t d ->
  (forall p ms, fs (pickle_full_path c r "dtw") = Some (FPartition (p, Some ms)) \/ partition_impl r c (qregion d sc) true = Ok (p, Some ms) ->
     valid_partition p (a3x d) (a3y d) /\ medoids_of p (a3x d) (a3y d) ms) ->
  (forall ms, refits (pg_kind pg) (pg_refit pg (rm_x r) (rm_y r)) (pg_value pg) Q d sc tl ms) ->
  train_request fs pg a = (fs1, Ok tt) -> Forall (keeps pg a) history -> same_options a a' ->
  prediction_region lat1 lat2 long1 long2 = Ok g -> rect_in g (a3x d) (a3y d) ->
  predict_request (fold_left run history fs1) pg a' lat1 lat2 long1 long2 tf = (fs2, Ok (lines, files)) ->
  fs2 = fold_left run history fs1 /\
  exists p ms s q result inner,
    (fs (pickle_full_path c r "dtw") = Some (FPartition (p, Some ms)) \/ partition_impl r c (qregion d sc) true = Ok (p, Some ms)) /\
    valid_partition p (a3x d) (a3y d) /\ medoids_of p (a3x d) (a3y d) ms /\
    solver_train (pg_kind pg) (full2 (a3x d) (a3y d) (Some (pg_value pg))) (pg_refit pg (rm_x r) (rm_y r)) (fun _ => Ok (p, ms))
      (qregion d sc) (Z.of_nat tl) (a_error a) = Ok s /\
    solver_predict (pg_kind pg) s (is_scaled sc) (qregion d sc) (Z.of_nat tl) g tf = Ok q /\
    (let b := RBase (meta_of (key_of pg a r c)) (Z.max tf 0) (pr_forecast q) (pr_errors q) g (qregion d sc) in
     result = WithPartition inner c (ByDTW dtw) p (Some ms) /\
     (((0 < tf)%Z /\ inner = OutOfSample b) \/ ((tf <= 0)%Z /\ exists test, pr_test q = Some test /\ inner = InSample b test))) /\
    fits result d sc tl /\ show_result sqrt format_float show_series result = Ok (lines, files).
Proof.
  intros Hfit Em Ec Hq X Y Esc Etl Htl Hpart Href Htr Hk Ho Eg Hg Hpr.
  destruct (train_inv _ _ _ _ Htr) as (r' & c' & spt & p & ms & fs1' & b0 & s & Em' & Ec' & Ep & Et & Efs).
  rewrite Em in Em'. injection Em' as <- <-. rewrite Ec in Ec'. injection Ec' as <-.
  destruct (Hpart p ms (partition_origin _ _ _ _ _ _ _ _ Ep)) as [Hv Hm].
  assert (Hh : holds fs1 (key_of pg a r c) s).
  { destruct (train_holds _ _ _ _ Htr) as (r' & c' & spt & p' & ms' & s' & Em' & Ec' & Et' & Hh).
    rewrite Em in Em'. injection Em' as <- <-. rewrite Ec in Ec'. injection Ec' as <-.
    assert (p' = p /\ ms' = ms) as [-> ->].
    { destruct (trained_parts _ _ _ _ _ _ _ Et') as [E1 E2]. destruct (trained_parts _ _ _ _ _ _ _ Et) as [F1 F2]. destruct Hh as (H1 & _).
      assert (K : clean_key (key_of pg a r c)) by (eapply key_clean; eauto; eapply train_known_error; exact Et).
      pose proof (proj1 K) as Kp. cbn [k_clustering k_region k_dist key_of] in Kp. subst fs1.
      rewrite saved_other in H1; [|apply partition_training; auto|apply partition_whole; auto|apply partition_errors; auto].
      apply partition_call_saved in Ep. unfold partition_pickle_path, key_of in H1. cbn [k_clustering k_region k_dist] in H1. rewrite Ep in H1. injection H1 as H1 H2. split; congruence. }
    rewrite Et in Et'. injection Et' as <-. exact Hh. }
  pose proof (runs_hold history fs1 pg a r c (qregion d sc) p ms s Em Ec Et Hh Hk) as Hh'.
  destruct Ho as (Hpl & Etl' & Eer'). assert (Em' : metadata_from_args a' = Ok (r, c)) by (rewrite <- (same_place_metadata _ _ Hpl); exact Em).
  assert (Ek : key_of pg a' r c = key_of pg a r c) by (unfold key_of; rewrite Etl', Eer'; reflexivity).
  rewrite <- Ek in Hh'. rewrite (predict_held _ pg a' lat1 lat2 long1 long2 tf r c _ s Em' Ec Hh'), Eg, Ek in Hpr. cbn [bind] in Hpr.
  injection Hpr as <- Hpr. split; [reflexivity|].
  destruct (solver_result (pg_kind pg) s (meta_of (key_of pg a r c)) (ByDTW dtw) (rm_scaled r) (qregion d sc) g tf) as [result|] eqn:Er; cbn [bind] in Hpr; [|discriminate].
  unfold trained in Et. rewrite Etl in Et. assert (Et' := Et). rewrite <- X, <- Y in Et' at 1.
  rewrite <- Esc in Er.
  destruct (solver_fits (pg_kind pg) (pg_value pg) (pg_refit pg (rm_x r) (rm_y r)) (fun _ => Ok (p, ms)) d sc tl (a_error a) s p ms
              (meta_of (key_of pg a r c)) (ByDTW dtw) c "dtw" Q g tf result Hfit Hq Htl eq_refl Hv Hm (Href ms) Et' Hg) as (q & inner & Eq & Eres & Hf & Hin); auto.
  exists p, ms, s, q, result, inner. split; [eapply partition_origin; eauto|]. do 4 (split; [assumption|]). split; [split; assumption|]. split; assumption.
Qed.
End Histories.

(* ---------------------------------------------------------------- what is printed *)
Lemma concat_block {A} (n : nat) (ls : list (list A)) : (forall l, In l ls -> length l = n) -> forall i l, nth_error ls i = Some l ->
  firstn n (skipn (n * i) (List.concat ls)) = l.
Proof.
  induction ls as [|l0 ls IH]; intros Hl i l Hi; [destruct i; discriminate|]. cbn [List.concat].
  assert (L0 : length l0 = n) by (apply Hl; left; auto).
  destruct i as [|i]; cbn [nth_error] in Hi.
  - injection Hi as <-. rewrite Nat.mul_0_r. cbn [skipn]. rewrite firstn_app, L0, Nat.sub_diag. cbn [firstn]. rewrite app_nil_r.
    rewrite <- L0. apply firstn_all.
  - replace (n * S i) with (length l0 + n * i) by lia. rewrite skipn_app, skipn_all2 by lia. cbn [app].
    replace (length l0 + n * i - length l0) with (n * i) by lia. apply IH; auto. intros; apply Hl; right; auto.
Qed.
Lemma concat_length' {A} (n : nat) (ls : list (list A)) : (forall l, In l ls -> length l = n) -> length (List.concat ls) = n * length ls.
Proof.
  induction ls as [|l ls IH]; intros H; cbn [List.concat]; [cbn; lia|]. rewrite app_length, IH by (intros; apply H; right; auto).
  rewrite (H l) by (left; auto). cbn [List.length]. lia.
Qed.

Lemma mapM_nth {A B} (f : A -> res B) l r : mapM f l = Ok r -> length r = length l /\
  forall i a, nth_error l i = Some a -> exists b, f a = Ok b /\ nth_error r i = Some b.
Proof.
  revert r. induction l as [|x l IH]; intros r; cbn [mapM].
  - intros [= <-]. split; auto. intros [|i] a; discriminate.
  - destruct (f x) as [y|] eqn:E; cbn [bind]; [|discriminate]. destruct (mapM f l) as [ys|] eqn:E'; cbn [bind]; [|discriminate].
    intros [= <-]. destruct (IH ys eq_refl) as [L N]. split; [cbn; lia|]. intros [|i] a; cbn [nth_error]; [intros [= <-]; eauto|apply N].
Qed.
Lemma mapM_each {A B} (f : A -> res B) l r : mapM f l = Ok r -> forall b, In b r -> exists a, In a l /\ f a = Ok b.
Proof.
  revert r. induction l as [|x l IH]; intros r; cbn [mapM].
  - intros [= <-] b [].
  - destruct (f x) as [y|] eqn:E; cbn [bind]; [|discriminate]. destruct (mapM f l) as [ys|] eqn:E'; cbn [bind]; [|discriminate].
    intros [= <-] b [<-|Hb]; [exists x; cbn; auto|]. destruct (IH ys eq_refl b Hb) as (a & Ha & Ea). exists a. cbn. auto.
Qed.

Lemma show_blocks sqrt ff ss r d sc tl n lines files : fits r d sc tl -> (forall pt ls, other_lines pt r ls -> length ls = n) ->
  show_result sqrt ff ss r = Ok (lines, files) ->
  let g := rb_region (base_of r) in
  length lines = S n * (width g * height g) /\ save_as_csv sqrt ff ss r "outputs" = Ok files /\
  forall i j, i < width g -> j < height g -> exists first others,
    firstn (S n) (skipn (S n * (i * height g + j)) lines) = first :: others /\
    lines_for_point r (Z.of_nat i, Z.of_nat j) = Ok (first :: others) /\
    first_line (Z.of_nat i, Z.of_nat j) r first /\ other_lines (Z.of_nat i, Z.of_nat j) r others.
Proof.
  intros Hf Hn. unfold show_result. rewrite (points_ok r d sc tl (fits_base _ _ _ _ Hf)). cbn [bind]. set (g := rb_region (base_of r)).
  destruct (mapM (lines_for_point r) (grid (width g) (height g))) as [ls|] eqn:El; cbn [bind]; [|discriminate].
  destruct (save_as_csv sqrt ff ss r "outputs") as [fl|] eqn:Es; cbn [bind]; [|discriminate]. intros [= <- <-].
  assert (Hl : forall l, In l ls -> length l = S n).
  { intros l Hin. destruct (mapM_each _ _ _ El l Hin) as (pt & Hp & Ept). apply in_grid_iff in Hp.
    destruct (lines_ok r d sc tl pt Hf Hp) as (first & others & E & _ & Ho). rewrite Ept in E. injection E as ->. cbn. f_equal. eapply Hn; eauto. }
  destruct (mapM_nth _ _ _ El) as [Ll Nl]. cbv zeta.
  split; [rewrite (concat_length' (S n)), Ll, grid_length by auto; reflexivity|]. split; [reflexivity|].
  intros i j Hi Hj.
  assert (Hg : nth_error (grid (width g) (height g)) (i * height g + j) = Some (Z.of_nat i, Z.of_nat j))
    by (rewrite nth_error_grid by nia; f_equal; unfold decode; rewrite Nat.add_comm, Nat.div_add, Nat.mod_add, Nat.div_small, Nat.mod_small by lia; reflexivity).
  destruct (Nl _ _ Hg) as (l & El' & Nth). destruct (lines_ok r d sc tl (Z.of_nat i, Z.of_nat j) Hf) as (first & others & E & H1 & H2).
  { fold g. unfold in_grid. cbn [fst snd]. lia. }
  rewrite El' in E. injection E as ->. exists first, others. split; auto. apply concat_block; auto.
Qed.

(** in-sample predictions with any refitter (as C58_in_sample) *)
Lemma in_sample_any {P M} (kind : model_kind P M) mp refit Q cluster d sc tl et s p medoids g fl q :
  forecasts_fit kind -> qwf d sc -> tl <= a3t d -> rect_in g (a3x d) (a3y d) -> (fl <= 0)%Z ->
  cluster (qregion d sc) = Ok (p, medoids) -> valid_partition p (a3x d) (a3y d) -> medoids_of p (a3x d) (a3y d) medoids ->
  refits kind refit mp Q d sc tl medoids ->
  solver_train kind (full2 (a3x d) (a3y d) (Some mp)) refit cluster (qregion d sc) (Z.of_nat tl) et = Ok s ->
  solver_predict kind s (is_scaled sc) (qregion d sc) (Z.of_nat tl) g fl = Ok q ->
  exists test_region func, pr_test q = Some test_region /\ get_error_func et = Ok func /\
    forall pt medoid ms own, in_grid (Z.to_nat (x2 g - x1 g)) (Z.to_nat (y2 g - y1 g)) pt ->
      represents p medoids (in_domain g pt) medoid ->
      series3 d (fst medoid) (snd medoid) = Ok ms ->
      series3 d (fst (in_domain g pt)) (snd (in_domain g pt)) = Ok own ->
      exists model forecast f o t e,
        training_function kind mp (firstn (length ms - tl) ms) = Ok model /\
        forecast_by kind model tl = Ok forecast /\
        shown sc (in_domain g pt) forecast f /\ series_at (pr_forecast q) pt = Ok f /\
        shown sc (in_domain g pt) (skipn (length own - tl) own) o /\ series_at test_region pt = Ok o /\
        shown sc (in_domain g pt) (firstn (length own - tl) own) t /\
        func f o (Some t) = Ok e /\ value_at (pr_errors q) pt = Ok e.
Proof.
  intros Hfit Hq Htl Hg Hfl Hcl Hv Hmed Hrf Ht Hpr.
  destruct (solver_train_spec kind mp _ cluster d sc tl et s p medoids _ Hfit Hq Htl Hcl Hv Hmed Hrf Ht)
    as (_ & _ & Hm1 & Tr1 & _ & _ & e & func & Ee & We & Xe & Ye & Ef & Herr).
  destruct (predict_in kind s d sc tl fl g q e Hfit Hq Htl Hg Hfl Hm1 Ee We Xe Ye Hpr)
    as (m & tst & E1 & E2 & E3 & W & T & X & Y & _ & _ & _ & S).
  exists tst, func. rewrite E1. do 2 (split; [ assumption | ]).
  intros pt med ms own Hp Hr Ems Eown. pose proof (in_domain_grid _ _ _ _ Hg Hp) as Hd.
  destruct (S pt own Hp Eown) as ((f & f' & A1 & A2 & A3) & (o & B1 & B2) & C1).
  destruct (Herr _ own Hd Eown) as (g0 & g' & t & o' & v & D1 & D2 & D3 & D4 & D5 & D6).
  assert (Hfun : forall s t1 t2, shown sc (in_domain g pt) s t1 -> shown sc (in_domain g pt) s t2 -> t1 = t2).
  { intros s0 t1 t2. destruct sc as [ [ mn mx ] | ]; cbn [shown]; [ | congruence ].
    intros (a & b & Ha & Hb & ->) (a' & b' & Ha' & Hb' & ->). replace a' with a by congruence. replace b' with b by congruence. reflexivity. }
  assert (g0 = f) by congruence. subst g0. assert (g' = f') by eauto. subst g'. assert (o' = o) by eauto. subst o'.
  exists (model_at (so_training s) (in_domain g pt)), f, f', o, t, v.
  split; [ eapply Tr1; eauto | ]. do 7 (split; [ assumption | ]). rewrite C1. exact D6.
Qed.

(** the errors that are printed are those of in-sample predictions also when the forecast is out of sample *)
Lemma out_errors_any {P M} (kind : model_kind P M) mp refit Q cluster d sc tl et s p medoids g fl q :
  forecasts_fit kind -> qwf d sc -> tl <= a3t d -> rect_in g (a3x d) (a3y d) -> (0 < fl)%Z ->
  cluster (qregion d sc) = Ok (p, medoids) -> valid_partition p (a3x d) (a3y d) -> medoids_of p (a3x d) (a3y d) medoids ->
  refits kind refit mp Q d sc tl medoids ->
  solver_train kind (full2 (a3x d) (a3y d) (Some mp)) refit cluster (qregion d sc) (Z.of_nat tl) et = Ok s ->
  solver_predict kind s (is_scaled sc) (qregion d sc) (Z.of_nat tl) g fl = Ok q ->
  exists func, get_error_func et = Ok func /\
    forall pt medoid ms own, in_grid (Z.to_nat (x2 g - x1 g)) (Z.to_nat (y2 g - y1 g)) pt ->
      represents p medoids (in_domain g pt) medoid ->
      series3 d (fst medoid) (snd medoid) = Ok ms ->
      series3 d (fst (in_domain g pt)) (snd (in_domain g pt)) = Ok own ->
      exists model forecast f o t e,
        training_function kind mp (firstn (length ms - tl) ms) = Ok model /\
        forecast_by kind model tl = Ok forecast /\
        shown sc (in_domain g pt) forecast f /\
        shown sc (in_domain g pt) (skipn (length own - tl) own) o /\
        shown sc (in_domain g pt) (firstn (length own - tl) own) t /\
        func f o (Some t) = Ok e /\ value_at (pr_errors q) pt = Ok e.
Proof.
  intros Hfit Hq Htl Hg Hfl Hcl Hv Hmed Hrf Ht Hpr.
  destruct (solver_train_spec kind mp _ cluster d sc tl et s p medoids _ Hfit Hq Htl Hcl Hv Hmed Hrf Ht)
    as (_ & _ & Hm1 & Tr1 & Hm2 & _ & e & func & Ee & We & Xe & Ye & Ef & Herr).
  destruct (predict_out kind s d sc tl fl g q e Hfit Hq Htl Hg Hfl Hm2 Ee We Xe Ye Hpr) as (m & E1 & E2 & E3 & W & T & X & Y & S).
  exists func. split; [assumption|]. intros pt med ms own Hp Hr Ems Eown. pose proof (in_domain_grid _ _ _ _ Hg Hp) as Hd.
  destruct (S pt Hp) as (_ & C1).
  destruct (Herr _ own Hd Eown) as (g0 & g' & t & o' & v & D1 & D2 & D3 & D4 & D5 & D6).
  exists (model_at (so_training s) (in_domain g pt)), g0, g', o', t, v.
  split; [ eapply Tr1; eauto | ]. do 5 (split; [ assumption | ]). rewrite C1. exact D6.
Qed.

Lemma first_partition pt d c dist p ms l : first_line pt (WithPartition d c dist p ms) l ->
  exists i, label_at p (in_domain (rb_region (base_of d)) pt) i /\ l = LPointCluster (in_dataset d pt) i.
Proof. intros H. inversion H; subst. eauto. Qed.
Lemma others_in_partition pt b test c dist p ms ls : other_lines pt (WithPartition (InSample b test) c dist p ms) ls -> exists f t e,
  series_at (rb_forecast b) pt = Ok f /\ series_at test pt = Ok t /\ value_at (rb_errors b) pt = Ok e /\ ls = [LForecast f; LTest t; LError (sm_error (rb_meta b)) e].
Proof. intros H. inversion H; subst. match goal with H : other_lines _ (InSample _ _) _ |- _ => inversion H; subst end. eauto 10. Qed.
Lemma others_out_partition pt b c dist p ms ls : other_lines pt (WithPartition (OutOfSample b) c dist p ms) ls -> exists f e,
  series_at (rb_forecast b) pt = Ok f /\ value_at (rb_errors b) pt = Ok e /\ ls = [LForecastFuture f; LError (sm_error (rb_meta b)) e].
Proof. intros H. inversion H; subst. match goal with H : other_lines _ (OutOfSample _) _ |- _ => inversion H; subst end. eauto 10. Qed.
