(** Property C104: the first k-medoids algorithm. *)
From Coq Require Import QArith ZifyBool ZifyNat.
From Verif Require Import Base.Py Base.Float Base.PyFacts Base.FloatFacts Model.KMedoids Model.KMedoidsBad Spec.KMedoidsBad Proofs.KMedoidsBadFacts.
Local Close Scope Q_scope.
Local Open Scope nat_scope.

Section C104.
Context (measure : list fnum -> list fnum -> fnum) (combine_d : list (list fnum) -> fnum) (choice : nat -> Z -> res (list Z)) (X : dataset).
Notation kmedoids := (kmedoids_bad measure combine_d choice).
Notation total := (total_distance measure combine_d X).

(** from any non-empty list of medoids the algorithm stops and gives as many medoids and as many labels as samples; medoid j is
    still the one given, or a sample with a smaller combined distance to all the samples *)
Theorem C104_terminates k starting max_steps : starting <> [] ->
  exists ms labels, kmedoids X k (Some starting) max_steps = Ok (ms, labels) /\ length ms = length starting /\
    forall j md0 md, nth_error starting j = Some md0 -> nth_error ms j = Some md ->
      md = md0 \/ (flt (total (snd md)) (total (snd md0)) = true /\ exists s, s < length X /\ md = sample_medoid X s).
Proof.
  intros N. unfold kmedoids_bad. cbn [bind].
  destruct (loop_spec measure combine_d X (S (length starting * length X)) max_steps starting (repeat 0 (length X)) 1%Z false N) as (ms & labels & E & [L B] & _).
  { intros _. pose proof (phi_le measure combine_d X starting). lia. }
  exists ms, labels. split; auto. split; auto. intros j md0 md E0 E1.
  assert (Hj : j < length starting) by (apply nth_error_Some; congruence).
  specialize (B j Hj). rewrite (nth_error_nth _ _ d0 E0), (nth_error_nth _ _ d0 E1) in B. exact B.
Qed.

(** without a limit on the steps, from medoids that are samples: the labels are the nearest of the final medoids, and no member
    of a cluster has a smaller combined distance to all the samples than the medoid *)
Theorem C104_converged k starting ms labels : starting <> [] -> are_samples X starting -> kmedoids X k (Some starting) None = Ok (ms, labels) ->
  are_samples X ms /\ length labels = length X /\
  (measured measure X -> forall s label, nth_error labels s = Some label -> nearest_of measure ms (nth s X []) label) /\
  (forall s j md, nth_error labels s = Some j -> nth_error ms j = Some md -> flt (total (nth s X [])) (total (snd md)) = false).
Proof.
  intros N HS E. unfold kmedoids_bad in E. cbn [bind] in E.
  destruct (loop_spec measure combine_d X (S (length starting * length X)) None starting (repeat 0 (length X)) 1%Z false N) as (ms1 & labels1 & E' & B & F).
  { intros _. pose proof (phi_le measure combine_d X starting). lia. }
  rewrite E' in E. injection E as -> ->. destruct (F eq_refl eq_refl) as (ms0 & B0 & Em & Ei & El).
  assert (S0 := better_samples measure combine_d X _ _ HS B0). assert (S1 := better_samples measure combine_d X _ _ HS B).
  assert (ms0 = ms) by (eapply samples_eq; eauto). subst ms0. clear Ei B0 S0.
  assert (N' : ms <> []) by (eapply ne_len; [apply B|auto]).
  split; auto. split; [subst; unfold lab; rewrite map_length; auto|].
  assert (G : forall s label, nth_error labels s = Some label -> s < length X /\ label = lab1 measure ms (nth s X [])).
  { intros s label Hl. rewrite El in Hl. unfold lab in Hl. rewrite nth_error_map in Hl. destruct (nth_error X s) as [x|] eqn:Ex; [|discriminate].
    cbn in Hl. injection Hl as <-. split; [apply nth_error_Some; congruence|]. rewrite (nth_error_nth _ _ [] Ex). auto. }
  split.
  - intros Hm s label Hl. destruct (G s label Hl) as [Hs ->]. apply nearest_lab; auto. intros md Hin. destruct (S1 md Hin) as (t & Ht & ->). apply Hm; auto.
  - intros s j md Hl Hj. destruct (G s j Hl) as [Hs Hlab]. assert (Lj : j < length ms) by (apply nth_error_Some; congruence).
    pose proof (pass_fixed measure combine_d X ms (eq_sym Em) j (s, nth s X []) Lj) as Hst.
    assert (Hin : In (s, nth s X []) (enumerate X)).
    { apply nth_error_In with s. rewrite nth_error_enumerate, (nth_error_nth' X [] Hs). reflexivity. }
    specialize (Hst Hin). unfold step in Hst. cbn [fst snd] in Hst. rewrite (nth_error_nth _ _ d0 Hj) in Hst.
    rewrite <- El, (nth_error_nth _ _ 0 Hl), Nat.eqb_refl in Hst. cbn [negb orb] in Hst.
    destruct (S1 md (nth_error_In _ _ Hj)) as (t & Ht & ->). cbn [fst snd sample_medoid] in *.
    destruct (Z.eqb_spec (Z.of_nat s) (Z.of_nat t)) as [Es|Ns].
    { assert (s = t) by lia. subst. apply flt_irrefl. }
    destruct (flt (total (nth s X [])) (total (nth t X []))) eqn:Fl; auto.
    unfold tot in Hst. cbn [snd sample_medoid] in Hst. rewrite Fl in Hst. exfalso.
    assert (R := replace_nth_nth ms j j (Z.of_nat s, nth s X []) d0 Lj). rewrite Hst, Nat.eqb_refl, (nth_error_nth _ _ d0 Hj) in R. injection R. intros. lia.
Qed.

(** different starting samples lead to different medoids, if the measure tells different series apart *)
Theorem C104_distinct k starting max_steps ms labels : starting <> [] -> are_samples X starting -> separates measure X -> NoDup (map fst starting) ->
  kmedoids X k (Some starting) max_steps = Ok (ms, labels) -> NoDup (map fst ms).
Proof. intros N HS Sep ND E. unfold kmedoids_bad in E. cbn [bind] in E. eapply loop_distinct; eauto. Qed.

(** without starting medoids the run starts from the chosen samples *)
Theorem C104_random_start k max_steps idx : choice (length X) k = Ok (map Z.of_nat idx) -> (forall s, In s idx -> s < length X) ->
  kmedoids X k None max_steps = kmedoids X k (Some (map (sample_medoid X) idx)) max_steps /\ are_samples X (map (sample_medoid X) idx) /\
  map fst (map (sample_medoid X) idx) = map Z.of_nat idx.
Proof.
  intros E H. split; [|split].
  - unfold kmedoids_bad, choose_initial_medoids. rewrite E. cbn [bind]. rewrite mapM_map.
    rewrite (mapM_ok _ (sample_medoid X)); auto. intros s Hs. rewrite (getitem_in X s (nth s X [])); [reflexivity|]. apply nth_error_nth'. auto.
  - intros md Hm. apply in_map_iff in Hm. destruct Hm as (s & <- & Hs). eauto.
  - rewrite map_map. reflexivity.
Qed.

(** no medoids: the nearest medoid does not exist *)
Theorem C104_no_medoids k max_steps : match max_steps with None => True | Some s => (1 <= s)%Z end -> kmedoids X k (Some []) max_steps = Raise ValueError.
Proof. intros H. unfold kmedoids_bad. cbn [bind length Nat.mul bad_loop]. destruct max_steps as [s|]; [destruct (Z.leb_spec 1 s); [|lia]|]; reflexivity. Qed.
End C104.

(** samples 0, 1, 2 and 10, 11, 12 on the line, with the distance |x - y| and the sum *)
Definition line (l : list Q) : dataset := map (fun q => [Fin q]) l.
Definition line_measure (a b : list fnum) : fnum := fabs (fsub (hd NaN a) (hd NaN b)).
Definition line_total (l : list (list fnum)) : fnum := fsum (concat l).
Definition six : dataset := line [0; 1; 2; 10; 11; 12]%Q.
Definition start6 : list medoid := [sample_medoid six 0; sample_medoid six 5].

Example C104_example :
  start6 <> [] /\ are_samples six start6 /\ measured line_measure six /\ NoDup (map fst start6) /\
  separates line_measure six /\
  kmedoids_bad line_measure line_total (fun _ _ => Raise ValueError) six 2 (Some start6) None = Ok ([sample_medoid six 2; sample_medoid six 3], [0; 0; 0; 1; 1; 1]).
Proof.
  split; [discriminate|]. split.
  { intros md [<-|[<-|[]]]; [exists 0|exists 5]; split; auto; cbn; lia. }
  split.
  { intros s t Hs Ht. cbn in Hs, Ht. do 6 (destruct s as [|s]; [do 6 (destruct t as [|t]; [reflexivity|]); lia|]). lia. }
  split; [repeat constructor; cbn; intuition discriminate|]. split.
  { intros s t Hs Ht. cbn in Hs, Ht. do 6 (destruct s as [|s]; [do 6 (destruct t as [|t]; [split; [reflexivity|intros H; try reflexivity; exfalso; apply H; reflexivity]|]); lia|]). lia. }
  vm_compute. reflexivity.
Qed.

(** the medoid is the member nearest to all the samples, not the member nearest to its cluster *)
Theorem C104_best_of_its_cluster_refuted :
  exists X starting ms labels, are_samples X starting /\ kmedoids_bad line_measure line_total (fun _ _ => Raise ValueError) X 2 (Some starting) None = Ok (ms, labels) /\
    exists j md s, nth_error ms j = Some md /\ nth_error labels s = Some j /\
      let cluster := map (fun p => fst p) (filter (fun p => (snd p =? j)%nat) (combine X labels)) in
      flt (total_distance line_measure line_total cluster (nth s X [])) (total_distance line_measure line_total cluster (snd md)) = true.
Proof.
  exists six, start6, [sample_medoid six 2; sample_medoid six 3], [0; 0; 0; 1; 1; 1]. split; [apply C104_example|]. split; [apply C104_example|].
  exists 0, (sample_medoid six 2), 1. repeat split; vm_compute; reflexivity.
Qed.

(** samples 0, 9, 11 and 20 *)
Definition four : dataset := line [0; 9; 11; 20]%Q.
Definition start4 : list medoid := [sample_medoid four 0; sample_medoid four 3].

(** with a limit on the steps the labels can belong to the medoids of an earlier step *)
Theorem C104_labels_match_when_stopped_refuted :
  exists X starting ms labels, are_samples X starting /\ measured line_measure X /\
    kmedoids_bad line_measure line_total (fun _ _ => Raise ValueError) X 2 (Some starting) (Some 1%Z) = Ok (ms, labels) /\
    exists s label, nth_error labels s = Some label /\ ~ nearest_of line_measure ms (nth s X []) label.
Proof.
  exists four, start4, [sample_medoid four 1; sample_medoid four 3], [0; 0; 1; 1].
  split; [intros md [<-|[<-|[]]]; [exists 0|exists 3]; split; auto; cbn; lia|].
  split. { intros s t Hs Ht. cbn in Hs, Ht. do 4 (destruct s as [|s]; [do 4 (destruct t as [|t]; [reflexivity|]); lia|]). lia. }
  split; [vm_compute; reflexivity|].
  exists 2, 1. split; auto. intros (md & Emd & P). cbn in Emd. injection Emd as <-. destruct (P 0 _ eq_refl) as [H _]. vm_compute in H. discriminate.
Qed.

(** the caller's list of starting medoids is overwritten *)
Theorem C104_starting_medoids_kept_refuted :
  exists X starting ms, are_samples X starting /\ starting_medoids_after line_measure line_total X 2 starting None = Ok ms /\ ms <> starting.
Proof.
  exists six, start6. eexists. split; [apply C104_example|]. split; [vm_compute; reflexivity|]. discriminate.
Qed.

Print Assumptions C104_terminates.
Print Assumptions C104_converged.
Print Assumptions C104_distinct.
Print Assumptions C104_random_start.
Print Assumptions C104_no_medoids.
Print Assumptions C104_best_of_its_cluster_refuted.
Print Assumptions C104_labels_match_when_stopped_refuted.
Print Assumptions C104_starting_medoids_kept_refuted.
