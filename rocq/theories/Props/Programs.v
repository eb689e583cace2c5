(** The tables of predefined experiments (C112) and the solver programs (C113). *)
From Coq Require Import String.
From Verif Require Import Base.Py Base.PyFacts Base.Arr Base.ArrFacts Base.Str Base.StrFacts Base.Dict Base.Float Model.Region Model.Scaling Model.Series
  Model.Errors Model.Models Model.Forecast Model.Clustering Model.Solver Model.SolverFiles Model.Results Model.Programs
  Spec.Grid Spec.Partition Spec.Rect Spec.Clustering Spec.SolverFiles Spec.Solver Spec.Results Spec.Programs
  Proofs.PartitionFacts Proofs.NameFacts Proofs.FilesFacts Proofs.SolverFacts Proofs.ResultsFacts Proofs.ProgramFacts
  Props.Basics Props.Clustering Props.SolverFiles Props.Solver Props.Results.
From Coq Require Import ZifyBool ZifyNat.
Local Open Scope string_scope.
Local Notation length := List.length.

(* ---------------------------------------------------------------- C112 *)

(** C112: the name under which a region is offered is the name that its metadata has in all file names; it has one
    sample per day, a rectangle that is not empty and lies in the raw grid, and years between 2011 and 2015. *)
Theorem C112_region_names : forall name r, region_by_name name = Ok r ->
  rmeta_repr r = name /\ rm_spd r = 1%Z /\ rm_dataset_dir r = "raw" /\
  (0 <= x1 (rm_region r) < x2 (rm_region r))%Z /\ (0 <= y1 (rm_region r) < y2 (rm_region r))%Z /\
  (2011 <= rm_start r <= rm_end r)%Z /\ (rm_end r <= 2015)%Z.
Proof. intros name r H. destruct (predefined_facts _ _ H) as (A & B & C & D & E & F & G & I). auto 10. Qed.
Print Assumptions C112_region_names.

(** C112: the offered regions are told apart by their names, by their dataset files and by their distance files, and
    regions with the same first name have the same rectangle, so no file of one offered region is read for another. *)
Theorem C112_regions_distinguished : forall name name' r r', region_by_name name = Ok r -> region_by_name name' = Ok r' ->
  (rm_name r = rm_name r' -> rm_region r = rm_region r') /\
  (rmeta_repr r = rmeta_repr r' \/ dataset_filename r = dataset_filename r' \/ distances_filename r = distances_filename r' ->
   name = name' /\ r = r') /\
  dataset_filename r <> distances_filename r'.
Proof.
  intros name name' r r' H H'. destruct (predefined_facts _ _ H) as (_ & _ & _ & D & _). destruct (predefined_facts _ _ H') as (_ & _ & _ & D' & _).
  assert (Dd : rm_dataset_dir r = rm_dataset_dir r') by congruence.
  split; [|split].
  - clear - H H'. apply dict_get_in in H, H'. unfold predefined_regions in H, H'. cbn [In] in H, H'.
    repeat (destruct H as [[= <- <-]|H]; [repeat (destruct H' as [[= <- <-]|H']; [cbn; intros E; first [reflexivity|discriminate E]|]); contradiction|]). contradiction.
  - intros E. eapply region_by_name_inj; eauto. destruct (C89_region_files r r' Dd) as [F1 F2].
    destruct E as [E|[E|E]]; auto; apply repr_same_region; [apply F1|apply F2]; auto.
  - rewrite (C89_dataset_and_distances r r' Dd). intros [E _]. clear - H H' E. apply dict_get_in in H. unfold predefined_regions in H. cbn [In] in H.
    repeat (destruct H as [[= <- <-]|H]; [discriminate E|]). contradiction.
Qed.
Print Assumptions C112_regions_distinguished.
(** C112: any other name is refused *)
Theorem C112_unknown_region : forall name, ~ In name (map fst predefined_regions) -> region_by_name name = Raise KeyError.
Proof.
  intros name H. unfold region_by_name. induction predefined_regions as [|[k v] t IH]; auto. cbn [dict_get map fst In] in *.
  destruct (String.eqb k name) eqn:E; [apply String.eqb_eq in E; tauto|auto].
Qed.
Print Assumptions C112_unknown_region.
Example C112_fifteen_regions : length predefined_regions = 15 /\ NoDup (map fst predefined_regions) /\
  Forall (fun '(name, r) => region_by_name name = Ok r) predefined_regions.
Proof.
  split; [reflexivity|]. split; [|repeat constructor].
  cbn. repeat (constructor; [cbn; intros H; repeat (destruct H as [H|H]; [discriminate H|]); exact H|]). constructor.
Qed.

Lemma mkof k seed : kmedoids_of (KParams "lite" None 1000 (Fin (QArith_base.Qmake 1 1000)) true) (k, seed) = CKmedoids (kmeta_default k seed "lite").
Proof. reflexivity. Qed.
Lemma nodup_reprs {A} (f : A -> cmeta) l : NoDup l -> (forall a b, In a l -> In b l -> c_repr (f a) = c_repr (f b) -> a = b) -> NoDup (map c_repr (map f l)).
Proof.
  intros Hn Hi. rewrite map_map. induction Hn as [|a l Ha Hn IH]; cbn [map]; constructor.
  - rewrite in_map_iff. intros (b & E & Hb). apply Ha. rewrite (Hi a b); cbn; auto.
  - apply IH. intros; apply Hi; cbn; auto.
Qed.
Lemma nodup_app {A} (l1 l2 : list A) : NoDup l1 -> NoDup l2 -> (forall x, In x l1 -> ~ In x l2) -> NoDup (l1 ++ l2).
Proof.
  induction 1 as [|a l Ha Hl IH]; intros H2 Hd; cbn [app]; auto. constructor.
  - rewrite in_app_iff. intros [H|H]; [contradiction|]. apply (Hd a); [left; auto|auto].
  - apply IH; auto. intros x Hx. apply Hd. right; auto.
Qed.
Lemma kmedoids_suite ks seeds : NoDup ks -> NoDup seeds -> exists l, kmedoids_metadata_generator ks seeds = Ok l /\ NoDup (map c_repr l) /\
  length l = length ks * length seeds /\
  forall c, In c l <-> exists k seed, In k ks /\ In seed seeds /\ c = CKmedoids (kmeta_default k seed "lite").
Proof.
  intros Hk Hs. unfold kmedoids_metadata_generator. set (ps := KParams _ _ _ _ _).
  destruct (C37_suite_is_cartesian_product ks seeds ps) as (E & _ & _ & _ & L & I). exists (map (kmedoids_of ps) (pairs ks seeds)).
  split; [exact E|]. split; [|split].
  - apply nodup_reprs.
    + unfold pairs. clear - Hk Hs. induction Hk as [|k ks Hk' Hk IH]; cbn [flat_map]; [constructor|]. apply nodup_app; auto.
      * apply FinFun.Injective_map_NoDup; auto. intros a b [= ->]; auto.
      * intros [k' s] H1 H2. apply in_map_iff in H1. destruct H1 as (s' & [= <- <-] & _). apply in_flat_map in H2. destruct H2 as (k2 & H2 & H3).
        apply in_map_iff in H3. destruct H3 as (s2 & [= -> ->] & _). contradiction.
    + intros [k s] [k' s'] _ _ E'. apply c_repr_same in E'; try reflexivity. cbn in E'. destruct E' as (-> & -> & _). reflexivity.
  - rewrite map_length. exact L.
  - intros c. rewrite in_map_iff. split.
    + intros ([k s] & <- & Hin). apply I in Hin. exists k, s. intuition.
    + intros (k & s & H1 & H2 & ->). exists (k, s). split; [reflexivity|]. apply I. auto.
Qed.
Lemma regular_suite ks : NoDup ks -> exists l, regular_metadata_generator ks = Ok l /\ NoDup (map c_repr l) /\
  length l = length ks /\ forall c, In c l <-> exists k, In k ks /\ c = CRegular k.
Proof.
  intros Hk. unfold regular_metadata_generator. set (ps := KParams _ _ _ _ _).
  destruct (C37_suite_is_cartesian_product ks [] ps) as (_ & _ & _ & E & _ & _). exists (map CRegular ks).
  split; [exact E|]. split; [|split].
  - apply nodup_reprs; auto. intros k k' _ _ E'. apply c_repr_same in E'; try reflexivity. exact E'.
  - apply map_length.
  - intros c. rewrite in_map_iff. split; intros (k & H1 & H2); exists k; auto.
Qed.
Lemma in_zrange_by_2 a b k : In k (zrange_by_2 a b) <-> (a <= k < b /\ (k - a) mod 2 = 0)%Z.
Proof.
  unfold zrange_by_2. rewrite in_map_iff. split.
  - intros (i & <- & Hi). apply in_zrange in Hi. replace (a + 2 * i - a)%Z with (i * 2)%Z by lia. rewrite Z.mod_mul by lia. split; [|reflexivity]. Z.div_mod_to_equations. lia.
  - intros [H1 H2]. exists ((k - a) / 2)%Z. rewrite in_zrange. Z.div_mod_to_equations. lia.
Qed.
Lemma zrange_by_2_nodup a b : NoDup (zrange_by_2 a b).
Proof. unfold zrange_by_2. apply FinFun.Injective_map_NoDup; [intros i j; lia|apply zrange_nodup]. Qed.

(** C112: a clustering suite holds exactly the clusterings that its documentation announces, each once, with distinct
    names; the number of clusterings is as announced. *)
Theorem C112_suites : forall clustering_type suite_id l, get_suite clustering_type suite_id = Ok l ->
  (forall c, In c l <-> belongs clustering_type suite_id c) /\ NoDup (map c_repr l).
Proof.
  intros ty sid l. unfold get_suite. destruct (ty =? "kmedoids")%string eqn:Et; [|destruct (ty =? "regular")%string eqn:Et'].
  - apply String.eqb_eq in Et. subst ty. unfold kmedoids_suites. cbn [dict_get].
    destruct ("quick" =? sid)%string eqn:E1; [|destruct ("large" =? sid)%string eqn:E2; [|destruct ("all" =? sid)%string eqn:E3; cbn [bind]; [|discriminate]]].
    all: match goal with H : (_ =? ?n)%string = true |- _ => apply String.eqb_eq in H; subst n end; cbn [bind].
    all: match goal with |- kmedoids_metadata_generator ?ks ?ss = _ -> _ => destruct (kmedoids_suite ks ss (zrange_nodup _ _) (zrange_nodup _ _)) as (l0 & E & N & _ & I) end.
    all: rewrite E; intros [= <-]; split; auto; intros c; rewrite I; split.
    all: first [ intros (k & s & H1 & H2 & ->); apply in_zrange in H1, H2; constructor; lia
               | intros H; inversion H; subst; eexists _, _; rewrite !in_zrange; split; [|split; [|reflexivity]]; lia ].
  - apply String.eqb_eq in Et'. subst ty. unfold regular_suites. cbn [dict_get].
    destruct ("quick" =? sid)%string eqn:E1; [|destruct ("part1" =? sid)%string eqn:E2; [|destruct ("part2" =? sid)%string eqn:E3; cbn [bind]; [|discriminate]]].
    all: match goal with H : (_ =? ?n)%string = true |- _ => apply String.eqb_eq in H; subst n end; cbn [bind].
    all: match goal with |- regular_metadata_generator ?ks = _ -> _ => destruct (regular_suite ks ltac:(first [apply zrange_nodup|apply zrange_by_2_nodup])) as (l0 & E & N & _ & I) end.
    all: rewrite E; intros [= <-]; split; auto; intros c; rewrite I; split.
    all: first [ intros (k & H1 & ->); first [apply in_zrange in H1|apply in_zrange_by_2 in H1]; constructor; Z.div_mod_to_equations; lia
               | intros H; inversion H; subst; eexists; rewrite ?in_zrange, ?in_zrange_by_2; split; [|reflexivity]; Z.div_mod_to_equations; lia ].
  - discriminate.
Qed.
Print Assumptions C112_suites.

(** C112: exactly the suites that are announced exist; asking for another one fails *)
Theorem C112_which_suites : forall clustering_type suite_id,
  ((exists c, belongs clustering_type suite_id c) <-> exists l, get_suite clustering_type suite_id = Ok l) /\
  (clustering_type = "kmedoids" \/ clustering_type = "regular" -> (forall c, ~ belongs clustering_type suite_id c) -> get_suite clustering_type suite_id = Raise KeyError) /\
  (clustering_type <> "kmedoids" -> clustering_type <> "regular" -> get_suite clustering_type suite_id = Raise UnboundLocalError).
Proof.
  assert (All : forall ty sid, (exists l, get_suite ty sid = Ok l) \/ ((ty = "kmedoids" \/ ty = "regular") /\ get_suite ty sid = Raise KeyError /\ forall c, ~ belongs ty sid c) \/
                              (ty <> "kmedoids" /\ ty <> "regular" /\ get_suite ty sid = Raise UnboundLocalError)).
  { intros ty sid. unfold get_suite. destruct (ty =? "kmedoids")%string eqn:Et; [|destruct (ty =? "regular")%string eqn:Et'].
    - apply String.eqb_eq in Et. subst ty. unfold kmedoids_suites. cbn [dict_get].
      destruct ("quick" =? sid)%string eqn:E1; [|destruct ("large" =? sid)%string eqn:E2; [|destruct ("all" =? sid)%string eqn:E3; cbn [bind]]].
      1-3: left; cbn [bind]; match goal with |- exists l, kmedoids_metadata_generator ?ks ?ss = _ => destruct (kmedoids_suite ks ss (zrange_nodup _ _) (zrange_nodup _ _)) as (l0 & E & _) end; eauto.
      right. left. split; [auto|]. split; [reflexivity|]. intros c Hc. inversion Hc; subst; discriminate.
    - apply String.eqb_eq in Et'. subst ty. unfold regular_suites. cbn [dict_get].
      destruct ("quick" =? sid)%string eqn:E1; [|destruct ("part1" =? sid)%string eqn:E2; [|destruct ("part2" =? sid)%string eqn:E3; cbn [bind]]].
      1-3: left; cbn [bind]; match goal with |- exists l, regular_metadata_generator ?ks = _ => destruct (regular_suite ks ltac:(first [apply zrange_nodup|apply zrange_by_2_nodup])) as (l0 & E & _) end; eauto.
      right. left. split; [auto|]. split; [reflexivity|]. intros c Hc. inversion Hc; subst; discriminate.
    - apply String.eqb_neq in Et, Et'. auto 10. }
  intros ty sid. split; [|split].
  - split.
    + intros [c Hc]. destruct (All ty sid) as [H|[(_ & _ & H)|(H1 & H2 & _)]]; auto; [exfalso; eapply H; eauto|]. exfalso; inversion Hc; subst; congruence.
    + intros [l Hl]. destruct (C112_suites _ _ _ Hl) as [I _]. unfold get_suite in Hl.
      destruct l as [|c l]; [|exists c; apply I; left; auto]. exfalso. revert Hl. clear.
      destruct (ty =? "kmedoids")%string; [|destruct (ty =? "regular")%string; [|discriminate]].
      * unfold kmedoids_suites. cbn [dict_get]. repeat (match goal with |- context [if ?b then _ else _] => destruct b end); vm_compute; discriminate.
      * unfold regular_suites. cbn [dict_get]. repeat (match goal with |- context [if ?b then _ else _] => destruct b end); vm_compute; discriminate.
  - intros Hty Hn. destruct (All ty sid) as [[l H]|[(_ & H & _)|(H1 & H2 & _)]]; auto; [|tauto].
    exfalso. destruct (C112_suites _ _ _ H) as [I _]. destruct l as [|c l]; [|apply (Hn c), I; left; auto]. revert H. clear.
    unfold get_suite. destruct (ty =? "kmedoids")%string; [|destruct (ty =? "regular")%string; [|discriminate]].
    * unfold kmedoids_suites. cbn [dict_get]. repeat (match goal with |- context [if ?b then _ else _] => destruct b end); vm_compute; discriminate.
    * unfold regular_suites. cbn [dict_get]. repeat (match goal with |- context [if ?b then _ else _] => destruct b end); vm_compute; discriminate.
  - intros H1 H2. destruct (All ty sid) as [[l H]|[([H|H] & _)|(_ & _ & H)]]; try congruence.
    unfold get_suite in H. apply String.eqb_neq in H1, H2. rewrite H1, H2 in H. discriminate.
Qed.
Print Assumptions C112_which_suites.
(** C112: one list of suites is offered for both types, but some suites exist for one type only *)
Theorem C112_offered_suites_refuted : exists id id', suite_offered id /\ suite_offered id' /\
  get_suite "kmedoids" id = Raise KeyError /\ get_suite "regular" id' = Raise KeyError.
Proof. exists "part1", "large". unfold suite_offered. cbn. auto 10. Qed.
Print Assumptions C112_offered_suites_refuted.
Example C112_suite_sizes : map (fun i => match get_suite "kmedoids" i with Ok l => length l | _ => 0 end) ["quick"; "large"; "all"] = [4; 6; 447] /\
  map (fun i => match get_suite "regular" i with Ok l => length l | _ => 0 end) ["quick"; "part1"; "part2"] = [2; 94; 28].
Proof. vm_compute. auto. Qed.

(** C112: no offered region has a precalculated centroid: its centroid is calculated, and only for DTW; the two entries
    of the table are for names that are not offered. *)
Theorem C112_centroids : forall calculate name,
  (forall r, region_by_name name = Ok r -> centroid_by_region_and_distance calculate name "DistanceByDTW" = calculate r) /\
  (forall distance, distance <> "DistanceByDTW" -> centroid_by_region_and_distance calculate name distance = Raise AssertionError) /\
  (name = "nordeste_small_1y_1ppd" \/ name = "nordeste_small_1y_1ppd_norm" ->
   centroid_by_region_and_distance calculate name "DistanceByDTW" = Ok (4, 6)%Z /\ region_by_name name = Raise KeyError) /\
  (name <> "nordeste_small_1y_1ppd" -> name <> "nordeste_small_1y_1ppd_norm" -> ~ In name (map fst predefined_regions) ->
   centroid_by_region_and_distance calculate name "DistanceByDTW" = Raise KeyError).
Proof.
  intros calculate name. unfold centroid_by_region_and_distance, precalculated_centroids. split; [|split; [|split]].
  - intros r H. rewrite H. assert (N : key_eqb ("nordeste_small_1y_1ppd", "DistanceByDTW") (name, "DistanceByDTW") = false /\ key_eqb ("nordeste_small_1y_1ppd_norm", "DistanceByDTW") (name, "DistanceByDTW") = false).
    { unfold key_eqb. cbn [fst snd]. rewrite !andb_true_r. split; apply String.eqb_neq; intros <-; discriminate H. }
    destruct N as [N1 N2]. cbn [dict_in existsb fst]. unfold dict_in. cbn [existsb fst]. rewrite N1, N2. reflexivity.
  - intros d Hd. assert (N : forall a, key_eqb (a, "DistanceByDTW") (name, d) = false).
    { intros a. unfold key_eqb. cbn [fst snd]. apply andb_false_iff. right. apply String.eqb_neq. congruence. }
    unfold dict_in. cbn [existsb fst]. rewrite !N. cbn [orb]. apply String.eqb_neq in Hd. rewrite Hd. reflexivity.
  - intros [->| ->]; split; reflexivity.
  - intros H1 H2 H3. assert (N : key_eqb ("nordeste_small_1y_1ppd", "DistanceByDTW") (name, "DistanceByDTW") = false /\ key_eqb ("nordeste_small_1y_1ppd_norm", "DistanceByDTW") (name, "DistanceByDTW") = false).
    { unfold key_eqb. cbn [fst snd]. rewrite !andb_true_r. split; apply String.eqb_neq; congruence. }
    destruct N as [N1 N2]. unfold dict_in. cbn [existsb fst]. rewrite N1, N2, C112_unknown_region by auto. reflexivity.
Qed.
Print Assumptions C112_centroids.

(** C112: the orders in each ARIMA suite *)
Theorem C112_arima_suites : forall name l, arima_suite_by_name name = Ok l -> NoDup l /\ forall p d q, In (p, d, q) l <->
  (name = "arima_simple" /\ p = 2 /\ d = 1 /\ q = 1 \/ name = "arima_1_1_1" /\ p = 1 /\ d = 1 /\ q = 1 \/
   name = "arima_two" /\ p = 2 /\ d = 0 /\ 1 <= q <= 2 \/ name = "arima_1_2_1" /\ p = 1 /\ d = 2 /\ q = 1 \/
   name = "arima_2_2_2" /\ p = 2 /\ d = 2 /\ q = 2 \/ name = "arima_sweep" /\ 0 <= p <= 3 /\ 0 <= d <= 1 /\ 0 <= q <= 2)%Z.
Proof.
  intros name l. unfold arima_suite_by_name. destruct (dict_get String.eqb name predefined_arima_suites) as [[[ps ds] qs]|] eqn:E; cbn [bind]; [|discriminate].
  intros [= <-]. assert (I : forall p d q, In (p, d, q) (arima_params_gen ps ds qs) <-> In p ps /\ In d ds /\ In q qs) by (intros; apply C60_arima_suite).
  apply dict_get_in in E. unfold predefined_arima_suites in E. cbn [In] in E.
  repeat (destruct E as [[= <- <- <- <-]|E]; [split; [vm_compute; repeat (constructor; [cbn; intros H; repeat (destruct H as [H|H]; [discriminate H|]); exact H|]); constructor|];
    intros p d q; rewrite I; cbn [In]; rewrite ?in_zrange; split; [intros H; intuition lia|intros H; repeat (destruct H as [(Hn & H)|H]; [try discriminate Hn; intuition lia|]); destruct H as (Hn & H); try discriminate Hn; intuition lia]|]).
  contradiction.
Qed.
Print Assumptions C112_arima_suites.
Theorem C112_unknown_arima_suite : forall name, ~ In name (map fst predefined_arima_suites) -> arima_suite_by_name name = Raise KeyError.
Proof.
  intros name H. unfold arima_suite_by_name. replace (dict_get String.eqb name predefined_arima_suites) with (@Raise (list Z * list Z * list Z) KeyError); auto.
  induction predefined_arima_suites as [|[k v] t IH]; auto. cbn [dict_get map fst In] in *.
  destruct (String.eqb k name) eqn:E; [apply String.eqb_eq in E; tauto|auto].
Qed.
Print Assumptions C112_unknown_arima_suite.
Example C112_sweep : match arima_suite_by_name "arima_sweep" with Ok l => length l | _ => 0 end = 24.
Proof. reflexivity. Qed.

(* ---------------------------------------------------------------- C113 *)
Section Solvers.
Context (create_instance : rmeta -> res (stregion fnum)) (load_distances : rmeta -> res unit)
        (partition_impl : rmeta -> cmeta -> stregion fnum -> bool -> res part)
        (dtw : list fnum -> list fnum -> fnum) (sqrt : fnum -> fnum)
        (format_float : nat -> fnum -> string) (show_series : list fnum -> string).
Context {M : Type}.
Notation train_request := (train_request (M := M) create_instance load_distances partition_impl).
Notation predict_request := (predict_request (M := M) create_instance partition_impl dtw sqrt format_float show_series).
Notation run := (run (M := M) create_instance load_distances partition_impl dtw sqrt format_float show_series).

(** C113: after a successful training, and after any other runs that keep it, predicting with the same options uses the
    solver that was trained, for every prediction region and forecast length, and leaves all files as they are. *)
Theorem C113_predict_after_train : forall fs pg a fs1 history a', train_request fs pg a = (fs1, Ok tt) ->
  Forall (keeps pg a) history -> same_options a a' ->
  let fs2 := fold_left run history fs1 in
  exists r c spt p ms s, metadata_from_args a = Ok (r, c) /\ create_instance r = Ok spt /\
    solver_train (pg_kind pg) (full2 (rm_x r) (rm_y r) (Some (pg_value pg))) (pg_refit pg (rm_x r) (rm_y r)) (fun _ => Ok (p, ms))
      spt (a_test_len a) (a_error a) = Ok s /\
    forall lat1 lat2 long1 long2 tf, predict_request fs2 pg a' lat1 lat2 long1 long2 tf =
      (fs2, g <- prediction_region lat1 lat2 long1 long2 ;;
            result <- solver_result (pg_kind pg) s (meta_of (SKey r c "dtw" (pg_params pg) (a_test_len a) (a_error a))) (ByDTW dtw) (rm_scaled r) spt g tf ;;
            show_result sqrt format_float show_series result).
Proof.
  intros fs pg a fs1 history a' Ht Hk Ho fs2. destruct (train_holds _ _ _ _ _ _ _ Ht) as (r & c & spt & p & ms & s & Em & Ec & Et & Hh).
  exists r, c, spt, p, ms, s. do 3 (split; [assumption|]). intros lat1 lat2 long1 long2 tf.
  pose proof (runs_hold create_instance load_distances partition_impl dtw sqrt format_float show_series history fs1 pg a r c spt p ms s Em Ec Et Hh Hk) as Hh'.
  destruct Ho as (Hpl & Etl & Eer). assert (Ek : key_of pg a' r c = key_of pg a r c) by (unfold key_of; rewrite Etl, Eer; reflexivity).
  rewrite <- Ek in Hh'. rewrite (same_place_metadata _ _ Hpl) in Em.
  fold (key_of pg a r c). rewrite <- Ek. apply predict_held; auto.
Qed.

(** C113: without a training with these options and parameters, nothing is ever predicted. *)
Theorem C113_untrained_fails : forall pg a history lat1 lat2 long1 long2 tf, has_char "/" (a_error a) = false ->
  Forall (fun q => ~ trains pg a q) history ->
  exists e, snd (predict_request (fold_left run history (fun _ => None)) pg a lat1 lat2 long1 long2 tf) = Raise e.
Proof.
  intros pg a history lat1 lat2 long1 long2 tf He Hh. destruct (metadata_from_args a) as [[r c]|e] eqn:Em.
  2:{ exists e. unfold Programs.predict_request. rewrite Em. reflexivity. }
  set (path := generalization_errors_pickle_path (key_of pg a r c)).
  assert (Hn : forall fs : fsys M, fs path = None -> fold_left run history fs path = None).
  { induction history as [|q l IH]; intros fs Hf; auto. inversion Hh; subst. cbn [fold_left]. apply IH; auto. apply untrained_step; auto. }
  specialize (Hn (fun _ => None) eq_refl). revert Hn. generalize (fold_left run history (fun _ => None)). intros fs Hn.
  unfold Programs.predict_request. rewrite Em. destruct (prediction_region lat1 lat2 long1 long2) as [g|e]; [|exists e; reflexivity].
  set (impl := fun wm => spt <- create_instance r ;; partition_impl r c spt wm).
  pose proof (load_partition_fs fs (key_of pg a r c) impl) as F.
  unfold load_solver. destruct (load_partition fs (key_of pg a r c) impl) as [fs' [p|e]] eqn:El; [|exists e; reflexivity].
  cbn [fst] in F. assert (Hn' : fs' path = None).
  { pose proof (key_clean pg _ _ _ Em He) as K. destruct F as [->|(q & _ & ->)]; auto. rewrite put_other; auto.
    intros X; symmetry in X; revert X. apply partition_errors; auto. exact (proj1 K). }
  cbn [snd]. destruct (load_file fs' (model_training_pickle_path (key_of pg a r c)) as_models) as [t|e]; cbn [bind]; [|exists e; reflexivity].
  destruct (load_file fs' (model_whole_pickle_path (key_of pg a r c)) as_models) as [w|e]; cbn [bind]; [|exists e; reflexivity].
  fold path. unfold load_file. rewrite Hn'. cbn [bind]. eexists. reflexivity.
Qed.

Lemma scaled_flag (sc : option (arr2 fnum * arr2 fnum)) (b : bool) : (sc = None <-> b = false) -> is_scaled sc = b.
Proof. intros [H1 H2]. destruct sc; [|symmetry; auto]. destruct b; auto. specialize (H2 eq_refl). discriminate. Qed.
Lemma known_refits (pg : program M) d sc tl x y : known_program pg -> qwf d sc -> a3x d = x -> a3y d = y ->
  exists Q, forall ms, refits (pg_kind pg) (pg_refit pg x y) (pg_value pg) Q d sc tl ms.
Proof.
  intros [H|(fit & order_of & forecast & search & params & ->)] Hq <- <-.
  - exists (fun _ ms m => training_function (pg_kind pg) (pg_value pg) ms = Ok m). intros ms. rewrite H. apply default_refits; auto.
  - exists (refitted fit order_of search params). intros ms. cbn. apply arima_refits; auto.
Qed.

(** C113, in-sample predictions (forecast length at most 0): after training, and any other runs that keep it, the
    program prints four lines for each point of the prediction region, row by row: the position of the point in the
    raw dataset with its cluster, the forecast, the observed values and the error.  The forecast is that of the model
    trained on the series of the medoid of the cluster without its last samples, and the error is the one asked for.
    The CSV files are those of a result that fits its region (so all of C59 applies) and prints the same. *)
Theorem C113_in_sample_answers : forall fs (pg : program M) a fs1 history a' lat1 lat2 long1 long2 tf r c d sc tl g fs2 lines files,
  known_program pg -> ready create_instance partition_impl fs pg a a' lat1 lat2 long1 long2 r c d sc tl g ->
  train_request fs pg a = (fs1, Ok tt) -> Forall (keeps pg a) history -> (tf <= 0)%Z ->
  predict_request (fold_left run history fs1) pg a' lat1 lat2 long1 long2 tf = (fs2, Ok (lines, files)) ->
  fs2 = fold_left run history fs1 /\ length lines = 4 * (width g * height g) /\
  exists p ms func result, from_clustering partition_impl fs r c (qregion d sc) p ms /\ get_error_func (a_error a) = Ok func /\
    fits result d sc tl /\ base_of result = RBase (meta_of (SKey r c "dtw" (pg_params pg) (Z.of_nat tl) (a_error a))) 0
                                            (rb_forecast (base_of result)) (rb_errors (base_of result)) g (qregion d sc) /\
    save_as_csv sqrt format_float show_series result "outputs" = Ok files /\
    forall i j, i < width g -> j < height g -> let pt := (Z.of_nat i + x1 g, Z.of_nat j + y1 g)%Z in
    exists cl medoid medoid_series own f o e,
      label_at p pt cl /\ represents p ms pt medoid /\ series3 d (fst medoid) (snd medoid) = Ok medoid_series /\
      series3 d (fst pt) (snd pt) = Ok own /\ evaluated (pg_kind pg) (pg_value pg) func sc tl medoid_series own pt f o e /\
      block 4 (height g) i j lines = [LPointCluster (raw_position r g i j) cl; LForecast f; LTest o; LError (a_error a) e] /\
      lines_for_point result (Z.of_nat i, Z.of_nat j) = Ok (block 4 (height g) i j lines).
Proof.
  intros fs pg a fs1 history a' lat1 lat2 long1 long2 tf r c d sc tl g fs2 lines files Hkn (Hfit & Em & Ho & Ec & Hq & X & Y & Esc & Etl & Htl & Hpart & Eg & Hg) Ht Hh Htf Hp.
  destruct (known_refits pg d sc tl (rm_x r) (rm_y r) Hkn Hq X Y) as [Q HQ].
  destruct (answer create_instance load_distances partition_impl dtw sqrt format_float show_series fs pg a fs1 history a' lat1 lat2 long1 long2 tf r c d sc tl g Q fs2 lines files
              Hfit Em Ec Hq X Y (scaled_flag _ _ Esc) Etl Htl Hpart HQ Ht Hh Ho Eg Hg Hp)
    as (Efs & p & ms & s & q & result & inner & Hor & Hv & Hm & Es & Eq & (Er & Ei) & Hf & Hsh).
  destruct Ei as [[Hpos _]|(_ & test & Etest & Ei)]; [lia|].
  destruct (in_sample_any (pg_kind pg) (pg_value pg) _ Q _ d sc tl (a_error a) s p ms g tf q Hfit Hq Htl Hg Htf eq_refl Hv Hm (HQ ms) Es Eq) as (test' & func & Et' & Ef & S).
  rewrite Etest in Et'. injection Et' as <-.
  subst result inner.
  assert (Hn : forall pt ls, other_lines pt (WithPartition (InSample (RBase (meta_of (key_of pg a r c)) (Z.max tf 0) (pr_forecast q) (pr_errors q) g (qregion d sc)) test) c (ByDTW dtw) p (Some ms)) ls -> length ls = 3)
    by (intros pt ls H; apply others_in_partition in H; destruct H as (f & t & e & _ & _ & _ & ->); reflexivity).
  destruct (show_blocks _ _ _ _ _ _ _ 3 lines files Hf Hn Hsh) as (L & Sv & B).
  cbn [base_of rb_region] in L, B.
  split; [assumption|]. split; [exact L|]. eexists p, ms, func, _. split; [exact Hor|]. split; [assumption|]. split; [exact Hf|]. split.
  { cbn [base_of rb_forecast rb_errors]. unfold key_of. rewrite Etl. replace (Z.max tf 0) with 0%Z by lia. reflexivity. }
  split; [assumption|]. intros i j Hi Hj pt.
  destruct (B i j Hi Hj) as (first & others & Eblk & Elines & F1 & F2).
  assert (Hg0 : in_grid (Z.to_nat (x2 g - x1 g)) (Z.to_nat (y2 g - y1 g)) (Z.of_nat i, Z.of_nat j)) by (unfold in_grid, width, height in *; cbn [fst snd]; lia).
  pose proof (in_domain_grid _ _ _ _ Hg Hg0) as Hd. change (in_domain g (Z.of_nat i, Z.of_nat j)) with pt in Hd.
  destruct (represented p _ _ ms pt Hv Hm Hd) as [medoid Hr].
  assert (Hmg : in_grid (a3x d) (a3y d) medoid) by (destruct Hr as (cl & _ & _ & N); apply (proj2 Hm) in N; tauto).
  destruct (ser_ok d medoid (proj1 Hq) Hmg) as (mser & Ems & _). destruct (ser_ok d pt (proj1 Hq) Hd) as (own & Eown & _).
  destruct (S (Z.of_nat i, Z.of_nat j) medoid mser own Hg0 Hr Ems Eown) as (model & fc & f & o & t & e & A1 & A2 & A3 & A4 & A5 & A6 & A7 & A8 & A9).
  apply first_partition in F1. destruct F1 as (cl & Hcl & ->). apply others_in_partition in F2. destruct F2 as (f' & o' & e' & D1 & D2 & D3 & ->).
  cbn [rb_forecast rb_errors rb_meta rb_region base_of] in *. rewrite A4 in D1. injection D1 as <-. rewrite A6 in D2. injection D2 as <-. rewrite A9 in D3. injection D3 as <-.
  exists cl, medoid, mser, own, f, o, e. split; [exact Hcl|]. split; [exact Hr|]. split; [exact Ems|]. split; [exact Eown|].
  split; [exists model, fc, t; auto 10|]. split; [exact Eblk|]. unfold block. rewrite Eblk. exact Elines.
Qed.

(** C113, out-of-sample predictions (positive forecast length): three lines for each point of the prediction region:
    position and cluster, future forecast, and the error of the in-sample forecast.  For the programs that train
    afresh, the forecast is that of the model trained on the whole series of the medoid. *)
Theorem C113_out_of_sample_answers : forall fs (pg : program M) a fs1 history a' lat1 lat2 long1 long2 tf r c d sc tl g fs2 lines files,
  trains_afresh pg -> ready create_instance partition_impl fs pg a a' lat1 lat2 long1 long2 r c d sc tl g ->
  train_request fs pg a = (fs1, Ok tt) -> Forall (keeps pg a) history -> (0 < tf)%Z ->
  predict_request (fold_left run history fs1) pg a' lat1 lat2 long1 long2 tf = (fs2, Ok (lines, files)) ->
  fs2 = fold_left run history fs1 /\ length lines = 3 * (width g * height g) /\
  exists p ms func result, from_clustering partition_impl fs r c (qregion d sc) p ms /\ get_error_func (a_error a) = Ok func /\
    fits result d sc tl /\ base_of result = RBase (meta_of (SKey r c "dtw" (pg_params pg) (Z.of_nat tl) (a_error a))) tf
                                            (rb_forecast (base_of result)) (rb_errors (base_of result)) g (qregion d sc) /\
    save_as_csv sqrt format_float show_series result "outputs" = Ok files /\
    forall i j, i < width g -> j < height g -> let pt := (Z.of_nat i + x1 g, Z.of_nat j + y1 g)%Z in
    exists cl medoid medoid_series own model forecast f f' o e,
      label_at p pt cl /\ represents p ms pt medoid /\ series3 d (fst medoid) (snd medoid) = Ok medoid_series /\
      series3 d (fst pt) (snd pt) = Ok own /\
      training_function (pg_kind pg) (pg_value pg) medoid_series = Ok model /\ forecast_by (pg_kind pg) model (Z.to_nat tf) = Ok forecast /\
      shown sc pt forecast f /\ evaluated (pg_kind pg) (pg_value pg) func sc tl medoid_series own pt f' o e /\
      block 3 (height g) i j lines = [LPointCluster (raw_position r g i j) cl; LForecastFuture f; LError (a_error a) e] /\
      lines_for_point result (Z.of_nat i, Z.of_nat j) = Ok (block 3 (height g) i j lines).
Proof.
  intros fs pg a fs1 history a' lat1 lat2 long1 long2 tf r c d sc tl g fs2 lines files Hkn (Hfit & Em & Ho & Ec & Hq & X & Y & Esc & Etl & Htl & Hpart & Eg & Hg) Ht Hh Htf Hp.
  assert (HQ : forall ms, refits (pg_kind pg) (pg_refit pg (rm_x r) (rm_y r)) (pg_value pg) (fun _ ms m => training_function (pg_kind pg) (pg_value pg) ms = Ok m) d sc tl ms)
    by (intros ms; rewrite Hkn, <- X, <- Y; apply default_refits; auto).
  destruct (answer create_instance load_distances partition_impl dtw sqrt format_float show_series fs pg a fs1 history a' lat1 lat2 long1 long2 tf r c d sc tl g _ fs2 lines files
              Hfit Em Ec Hq X Y (scaled_flag _ _ Esc) Etl Htl Hpart HQ Ht Hh Ho Eg Hg Hp)
    as (Efs & p & ms & s & q & result & inner & Hor & Hv & Hm & Es & Eq & (Er & Ei) & Hf & Hsh).
  destruct Ei as [[_ Ei]|(Hneg & _)]; [|lia].
  destruct (out_errors_any (pg_kind pg) (pg_value pg) _ _ _ d sc tl (a_error a) s p ms g tf q Hfit Hq Htl Hg Htf eq_refl Hv Hm (HQ ms) Es Eq) as (func & Ef & S).
  assert (Es' := Es). rewrite Hkn, <- X, <- Y in Es'.
  destruct (C58_out_of_sample (pg_kind pg) (pg_value pg) _ d sc tl (a_error a) s p ms g tf q Hfit Hq Htl Hg Htf eq_refl Hv Hm Es' Eq) as (_ & _ & _ & _ & S').
  subst result inner.
  assert (Hn : forall pt ls, other_lines pt (WithPartition (OutOfSample (RBase (meta_of (key_of pg a r c)) (Z.max tf 0) (pr_forecast q) (pr_errors q) g (qregion d sc))) c (ByDTW dtw) p (Some ms)) ls -> length ls = 2)
    by (intros pt ls H; apply others_out_partition in H; destruct H as (f & e & _ & _ & ->); reflexivity).
  destruct (show_blocks _ _ _ _ _ _ _ 2 lines files Hf Hn Hsh) as (L & Sv & B).
  cbn [base_of rb_region] in L, B.
  split; [assumption|]. split; [exact L|]. eexists p, ms, func, _. split; [exact Hor|]. split; [assumption|]. split; [exact Hf|]. split.
  { cbn [base_of rb_forecast rb_errors]. unfold key_of. rewrite Etl. replace (Z.max tf 0) with tf by lia. reflexivity. }
  split; [assumption|]. intros i j Hi Hj pt.
  destruct (B i j Hi Hj) as (first & others & Eblk & Elines & F1 & F2).
  assert (Hg0 : in_grid (Z.to_nat (x2 g - x1 g)) (Z.to_nat (y2 g - y1 g)) (Z.of_nat i, Z.of_nat j)) by (unfold in_grid, width, height in *; cbn [fst snd]; lia).
  pose proof (in_domain_grid _ _ _ _ Hg Hg0) as Hd. change (in_domain g (Z.of_nat i, Z.of_nat j)) with pt in Hd.
  destruct (represented p _ _ ms pt Hv Hm Hd) as [medoid Hr].
  assert (Hmg : in_grid (a3x d) (a3y d) medoid) by (destruct Hr as (cl & _ & _ & N); apply (proj2 Hm) in N; tauto).
  destruct (ser_ok d medoid (proj1 Hq) Hmg) as (mser & Ems & _). destruct (ser_ok d pt (proj1 Hq) Hd) as (own & Eown & _).
  destruct (S (Z.of_nat i, Z.of_nat j) medoid mser own Hg0 Hr Ems Eown) as (model & fc & f & o & t & e & A1 & A2 & A3 & A5 & A7 & A8 & A9).
  destruct (S' (Z.of_nat i, Z.of_nat j) medoid mser Hg0 Hr Ems) as (model2 & fc2 & f2 & G1 & G2 & G3 & G4).
  apply first_partition in F1. destruct F1 as (cl & Hcl & ->). apply others_out_partition in F2. destruct F2 as (f' & e' & D1 & D3 & ->).
  cbn [rb_forecast rb_errors rb_meta rb_region base_of] in *. rewrite G4 in D1. injection D1 as <-. rewrite A9 in D3. injection D3 as <-.
  exists cl, medoid, mser, own, model2, fc2, f2, f, o, e. split; [exact Hcl|]. split; [exact Hr|]. split; [exact Ems|]. split; [exact Eown|].
  split; [exact G1|]. split; [exact G2|]. split; [exact G3|].
  split; [exists model, fc, t; auto 10|]. split; [exact Eblk|]. unfold block. rewrite Eblk. exact Elines.
Qed.

(** C113, out-of-sample predictions of auto-ARIMA: the order is searched without the last samples, and the model of that
    order is fitted to the whole series of the medoid; NaN is printed if one of these steps fails. *)
Theorem C113_auto_arima_answers : forall fit order_of forecast search params fs a fs1 history a' lat1 lat2 long1 long2 tf r c d sc tl g fs2 lines files,
  let pg := auto_arima_program fit order_of forecast search params in
  (forall order series m, fit order series = Ok m -> order_of m = order) ->
  (forall params series order, search params series = Ok order -> order <> ORDER_WHEN_NO_MODEL) ->
  ready create_instance partition_impl fs pg a a' lat1 lat2 long1 long2 r c d sc tl g ->
  train_request fs pg a = (fs1, Ok tt) -> Forall (keeps pg a) history -> (0 < tf)%Z ->
  predict_request (fold_left run history fs1) pg a' lat1 lat2 long1 long2 tf = (fs2, Ok (lines, files)) ->
  fs2 = fold_left run history fs1 /\ length lines = 3 * (width g * height g) /\
  exists p ms func, from_clustering partition_impl fs r c (qregion d sc) p ms /\ get_error_func (a_error a) = Ok func /\
    forall i j, i < width g -> j < height g -> let pt := (Z.of_nat i + x1 g, Z.of_nat j + y1 g)%Z in
    exists cl medoid medoid_series own f f' o e,
      label_at p pt cl /\ represents p ms pt medoid /\ series3 d (fst medoid) (snd medoid) = Ok medoid_series /\
      series3 d (fst pt) (snd pt) = Ok own /\
      (let start := firstn (length medoid_series - tl) medoid_series in
       (exists order m0 m shown_as, search params start = Ok order /\ fit order start = Ok m0 /\ fit order medoid_series = Ok m /\
          forecast m (Z.to_nat tf) = Ok shown_as /\ shown sc pt shown_as f) \/
       ((exists x, (search params start = Raise x \/ exists order, search params start = Ok order /\ (fit order start = Raise x \/ fit order medoid_series = Raise x)) /\
                   (x = ValueError \/ x = LinAlgError)) /\ f = repeat NaN (Z.to_nat tf))) /\
      evaluated (pg_kind pg) (pg_value pg) func sc tl medoid_series own pt f' o e /\
      block 3 (height g) i j lines = [LPointCluster (raw_position r g i j) cl; LForecastFuture f; LError (a_error a) e].
Proof.
  intros fit order_of forecast search params fs a fs1 history a' lat1 lat2 long1 long2 tf r c d sc tl g fs2 lines files pg Hord Hneg
    (Hfit & Em & Ho & Ec & Hq & X & Y & Esc & Etl & Htl & Hpart & Eg & Hg) Ht Hh Htf Hp.
  assert (HQ : forall ms, refits (pg_kind pg) (pg_refit pg (rm_x r) (rm_y r)) (pg_value pg) (refitted fit order_of search params) d sc tl ms)
    by (intros ms; apply arima_refits; auto).
  destruct (answer create_instance load_distances partition_impl dtw sqrt format_float show_series fs pg a fs1 history a' lat1 lat2 long1 long2 tf r c d sc tl g _ fs2 lines files
              Hfit Em Ec Hq X Y (scaled_flag _ _ Esc) Etl Htl Hpart HQ Ht Hh Ho Eg Hg Hp)
    as (Efs & p & ms & s & q & result & inner & Hor & Hv & Hm & Es & Eq & (Er & Ei) & Hf & Hsh).
  destruct Ei as [[_ Ei]|(Hn0 & _)]; [|lia].
  destruct (out_errors_any (pg_kind pg) (pg_value pg) _ _ _ d sc tl (a_error a) s p ms g tf q Hfit Hq Htl Hg Htf eq_refl Hv Hm (HQ ms) Es Eq) as (func & Ef & S).
  pose proof (C58_auto_arima fit order_of forecast search params _ d sc tl (a_error a) s p ms g tf q Hfit Hord Hneg Hq Htl Hg Htf eq_refl Hv Hm Es Eq) as S'.
  subst result inner.
  assert (Hn : forall pt ls, other_lines pt (WithPartition (OutOfSample (RBase (meta_of (key_of pg a r c)) (Z.max tf 0) (pr_forecast q) (pr_errors q) g (qregion d sc))) c (ByDTW dtw) p (Some ms)) ls -> length ls = 2)
    by (intros pt ls H; apply others_out_partition in H; destruct H as (f & e & _ & _ & ->); reflexivity).
  destruct (show_blocks _ _ _ _ _ _ _ 2 lines files Hf Hn Hsh) as (L & Sv & B).
  cbn [base_of rb_region] in L, B.
  split; [assumption|]. split; [exact L|]. exists p, ms, func. split; [exact Hor|]. split; [assumption|]. intros i j Hi Hj pt.
  destruct (B i j Hi Hj) as (first & others & Eblk & Elines & F1 & F2).
  assert (Hg0 : in_grid (Z.to_nat (x2 g - x1 g)) (Z.to_nat (y2 g - y1 g)) (Z.of_nat i, Z.of_nat j)) by (unfold in_grid, width, height in *; cbn [fst snd]; lia).
  pose proof (in_domain_grid _ _ _ _ Hg Hg0) as Hd. change (in_domain g (Z.of_nat i, Z.of_nat j)) with pt in Hd.
  destruct (represented p _ _ ms pt Hv Hm Hd) as [medoid Hr].
  assert (Hmg : in_grid (a3x d) (a3y d) medoid) by (destruct Hr as (cl & _ & _ & N); apply (proj2 Hm) in N; tauto).
  destruct (ser_ok d medoid (proj1 Hq) Hmg) as (mser & Ems & _). destruct (ser_ok d pt (proj1 Hq) Hd) as (own & Eown & _).
  destruct (S (Z.of_nat i, Z.of_nat j) medoid mser own Hg0 Hr Ems Eown) as (model & fc & f & o & t & e & A1 & A2 & A3 & A5 & A7 & A8 & A9).
  apply first_partition in F1. destruct F1 as (cl & Hcl & ->). apply others_out_partition in F2. destruct F2 as (f' & e' & D1 & D3 & ->).
  cbn [rb_forecast rb_errors rb_meta rb_region base_of] in *. rewrite A9 in D3. injection D3 as <-.
  exists cl, medoid, mser, own, f', f, o, e. split; [exact Hcl|]. split; [exact Hr|]. split; [exact Ems|]. split; [exact Eown|].
  split; [|split; [exists model, fc, t; auto 10|exact Eblk]].
  destruct (S' (Z.of_nat i, Z.of_nat j) medoid mser Hg0 Hr Ems) as [(order & m0 & m & fc2 & f2 & G1 & G2 & G3 & G4 & G5 & G6)|(Hx & G)].
  - left. exists order, m0, m, fc2. rewrite G6 in D1. injection D1 as <-. auto.
  - right. split; [exact Hx|]. congruence.
Qed.
End Solvers.
Print Assumptions C113_predict_after_train.
Print Assumptions C113_untrained_fails.
Print Assumptions C113_in_sample_answers.
Print Assumptions C113_out_of_sample_answers.
Print Assumptions C113_auto_arima_answers.

(** C113: the two baselines train afresh, so later trainings with other numbers of test samples do not change their
    predictions; all three are programs of the theorems above. *)
Theorem C113_programs : forall past measure argpartition k,
  (refits_afresh (mean_past_program past) /\ trains_afresh (mean_past_program past)) /\
  (refits_afresh (knn_medoids_program measure argpartition k) /\ trains_afresh (knn_medoids_program measure argpartition k)) /\
  forall M (fit : pdq -> list fnum -> res M) order_of forecast search params, known_program (auto_arima_program fit order_of forecast search params).
Proof.
  intros past measure argpartition k. split; [|split].
  - split; intros x y; reflexivity.
  - split; intros x y; reflexivity.
  - intros M fit order_of forecast search params. right. eexists _, _, _, _, _. reflexivity.
Qed.
Print Assumptions C113_programs.

(* ---------- a concrete world: 4 samples at 7 x 10 points, one cluster ---------- *)
Definition ex_data : arr3 fnum := mk3 4 7 10 (map (fun z => Fin (QArith_base.inject_Z z)) (zrange 0 280)).
Definition ex_instance (r : rmeta) : res (stregion fnum) := Ok (qregion ex_data None).
Definition ex_distances (r : rmeta) : res unit := Ok tt.
Definition ex_clustering (r : rmeta) (c : cmeta) (spt : stregion fnum) (with_medoids : bool) : res part :=
  Ok (Crisp (full2 7 10 0%Z) 1, if with_medoids then Some [(0, 0)%Z] else None).
Definition ex_options (tp : Z) : solver_args := SArgs "nordeste_small_2015_2015_1spd" "regular" 1 0 tp "MSE".
Definition ex_train {M} (fs : fsys M) pg a := train_request ex_instance ex_distances ex_clustering fs pg a.
Definition ex_predict {M} (fs : fsys M) pg a lat1 lat2 long1 long2 tf :=
  predict_request ex_instance ex_clustering (fun _ _ => Fin 0%Q) (fun v => v) (fun _ _ => "x") (fun _ => "s") fs pg a lat1 lat2 long1 long2 tf.
Definition ex_r : rmeta := RMeta "nordeste_small" (Rect 43 50 85 95) 2015 2015 1 false "raw".

Example C113_example_ready : forall past,
  ready ex_instance ex_clustering (fun _ => None) (mean_past_program past) (ex_options 2) (ex_options 2) "1" "2" "2" "4" ex_r (CRegular 1) ex_data None 2 (Rect 1 2 2 4).
Proof.
  intros past. unfold ready. split; [intros m len f [= <-]; apply repeat_length|]. split; [reflexivity|]. split; [repeat split; auto|]. split; [reflexivity|].
  split; [repeat split; reflexivity|]. split; [reflexivity|]. split; [reflexivity|]. split; [split; auto|]. split; [reflexivity|]. split; [cbn; lia|]. split; [|split; [reflexivity|unfold rect_in; cbn; lia]].
  intros p ms [[=]|[= <- <-]].
  assert (L : forall pt, in_grid 7 10 pt -> get2 (full2 7 10 0%Z) (fst pt) (snd pt) = Ok 0%Z) by (intros pt H; apply get_full; exact H).
  split.
  - unfold valid_partition. cbn [labels pk a3x a3y ex_data a2x a2y full2]. split; [reflexivity|]. split; [reflexivity|]. split; [reflexivity|]. split.
    + intros pt l Hp Hl. unfold label_at in Hl. cbn [labels] in Hl. rewrite L in Hl by exact Hp. injection Hl as <-. cbn. lia.
    + exists (0, 0)%Z. split; [unfold in_grid; cbn; lia|reflexivity].
  - split; [reflexivity|]. intros [|[|i]] m E; cbn in E; try discriminate. injection E as <-. split; [unfold in_grid; cbn; lia|reflexivity].
Qed.
(** training, then another training and a prediction that keep it, then in-sample and out-of-sample predictions; the
    medoid has the samples 0, 70, 140, 210 *)
Definition ex_pg := mean_past_program 2.
Definition ex_history : list (request fnum) := [Train ex_pg (ex_options 1); Predict ex_pg (ex_options 1) "0" "1" "0" "1" 0; Train (mean_past_program 1) (ex_options 2)].
Definition ex_after := fold_left (run ex_instance ex_distances ex_clustering (fun _ _ => Fin 0%Q) (fun v => v) (fun _ _ => "x") (fun _ => "s")) ex_history
                         (fst (ex_train (fun _ => None) ex_pg (ex_options 2))).
Example C113_example_runs :
  snd (ex_train (fun _ => None) ex_pg (ex_options 2)) = Ok tt /\ Forall (keeps ex_pg (ex_options 2)) ex_history /\
  (l <- snd (ex_predict ex_after ex_pg (ex_options 2) "1" "2" "2" "4" 0) ;; Ok (length (fst l), map fst (snd l), firstn 3 (fst l))) =
    Ok (8, ["outputs/nordeste_small_2015_2015_1spd/dtw/regular_k1/mean-past2/region-1-2-2-4/query-result-regular_k1__region-1-2-2-4__tp2__tf_is__MSE.csv";
            "outputs/nordeste_small_2015_2015_1spd/dtw/regular_k1/mean-past2/region-1-2-2-4/query-summary-regular_k1__region-1-2-2-4__tp2__tf_is__MSE.csv"],
        [LPointCluster (44, 87)%Z 0; LForecast [Fin (QArith_base.Qmake 70 2); Fin (QArith_base.Qmake 70 2)];
         LTest [Fin (QArith_base.inject_Z 152); Fin (QArith_base.inject_Z 222)]]).
Proof. split; [vm_compute; reflexivity|]. split.
  - unfold ex_history. constructor; [|constructor; [exact I|constructor; [|constructor]]]; unfold keeps; intros _ H.
    + split; [reflexivity|right]. apply (C113_programs 2 (fun _ _ => NaN) (fun _ _ => []) 0).
    + discriminate H.
  - vm_compute. reflexivity.
Qed.

(** C113: auto-ARIMA keeps one file of models of the whole data for all numbers of test samples, so a later training
    with another --tp changes the out-of-sample predictions of the earlier one. *)
Definition tp_fit (order : pdq) (s : list fnum) : res pdq := Ok order.
Definition tp_forecast (m : pdq) (len : nat) : res (list fnum) := Ok (repeat (Fin (QArith_base.inject_Z (fst (fst m)))) len).
Definition tp_search (params : mparams) (s : list fnum) : res pdq := Ok (Z.of_nat (length s), 0, 0)%Z.
Definition tp_pg : program pdq := auto_arima_program tp_fit (fun m => m) tp_forecast tp_search (PAutoArima 1 1 3 3 None true).
Definition tp_answer (fs : fsys pdq) : res (list line) := l <- snd (ex_predict fs tp_pg (ex_options 1) "0" "1" "0" "1" 2) ;; Ok (fst l).
Theorem C113_later_training_refuted : exists fs1 fs2, ex_train (fun _ => None) tp_pg (ex_options 1) = (fs1, Ok tt) /\
  ex_train fs1 tp_pg (ex_options 2) = (fs2, Ok tt) /\
  (forall order series m, tp_fit order series = Ok m -> m = order) /\ (forall params series order, tp_search params series = Ok order -> order <> ORDER_WHEN_NO_MODEL) /\
  exists e, tp_answer fs1 = Ok [LPointCluster (43, 85)%Z 0; LForecastFuture [Fin (QArith_base.inject_Z 3); Fin (QArith_base.inject_Z 3)]; LError "MSE" e] /\
            tp_answer fs2 = Ok [LPointCluster (43, 85)%Z 0; LForecastFuture [Fin (QArith_base.inject_Z 2); Fin (QArith_base.inject_Z 2)]; LError "MSE" e].
Proof.
  exists (fst (ex_train (fun _ => None) tp_pg (ex_options 1))), (fst (ex_train (fst (ex_train (fun _ => None) tp_pg (ex_options 1))) tp_pg (ex_options 2))).
  assert (E1 : snd (ex_train (fun _ => None) tp_pg (ex_options 1)) = Ok tt) by (vm_compute; reflexivity).
  split; [rewrite <- E1; apply surjective_pairing|].
  assert (E2 : snd (ex_train (fst (ex_train (fun _ => None) tp_pg (ex_options 1))) tp_pg (ex_options 2)) = Ok tt) by (vm_compute; reflexivity).
  split; [rewrite <- E2; apply surjective_pairing|]. split; [intros order series m [= <-]; reflexivity|].
  split; [intros params series order [= <-] H; unfold ORDER_WHEN_NO_MODEL in H; injection H as H; lia|].
  eexists. split; vm_compute; reflexivity.
Qed.
Print Assumptions C113_later_training_refuted.
