(** C120: the program that writes the training data of the classifier for random points. *)
From Coq Require Import String Permutation ZifyBool ZifyNat.
From Verif Require Import Base.Py Base.Arr Base.Str Base.StrFacts Base.Dict Base.Float Base.FloatFacts Base.PyFacts Model.Region Model.Models Model.Distance Model.Clustering Model.Solver Model.SolverFiles
  Model.Results Model.TrainInput Model.Programs Model.Dnn Model.Classifier Model.PartitionAnalysis Model.Extraction
  Spec.Grid Spec.TrainInput Spec.Solver Spec.Distance Spec.PartitionAnalysis Spec.Extraction Spec.SolverFiles
  Proofs.NameFacts Proofs.SolverFacts Proofs.TrainInputFacts Proofs.DistanceFacts Proofs.AnalysisFacts Proofs.ProgramFacts Proofs.ClassifierFacts Proofs.ExtractionFacts Proofs.FilesFacts Props.Clustering Props.SolverFiles Props.Programs Props.TrainInput Props.PartitionAnalysis.
From Coq Require Import QArith.
Local Close Scope Q_scope. Local Open Scope nat_scope. Local Open Scope string_scope.
Local Notation length := List.length.

Lemma load_missing {M} (fs : fsys M) k impl p : fs (partition_pickle_path k) = Some (FPartition p) -> fs (model_training_pickle_path k) = None ->
  load_solver fs k impl = (fs, Raise IOError).
Proof. intros Hp Ht. unfold load_solver. rewrite (load_partition_hit _ _ _ _ Hp). cbn [bind]. unfold load_file. rewrite Ht. reflexivity. Qed.

Section C120.
Context {M : Type} (env : denv) (create_instance : rmeta -> res (stregion fnum)) (partition_impl : rmeta -> cmeta -> stregion fnum -> bool -> res part)
        (dtw : list fnum -> list fnum -> fnum) (format_float : nat -> fnum -> string) (show_series : list fnum -> string).
Context (fit : pdq -> list fnum -> res M) (order_of : M -> pdq) (forecast : M -> nat -> res (list fnum)) (search : mparams -> list fnum -> res pdq).
Context (set_order : list Z -> list Z) (point_order : list point -> list point) (choice : Z -> list Z -> Z -> res (list Z)).
Local Notation run := (extraction env create_instance partition_impl dtw format_float show_series fit order_of forecast search set_order point_order choice).
Local Notation evaluate := (evaluate_random_points env create_instance partition_impl dtw format_float show_series fit order_of forecast search set_order point_order choice).

Lemma run_unfold (w : world M) region r d sc D dist ty sid suite name cr count seed threshold arima params tp error :
  ready env create_instance region r d sc D dist -> get_suite ty sid = Ok suite -> dict_get String.eqb arima predefined_auto_arima = Ok params ->
  criterion_by_name name params tp error = Ok cr ->
  run w (XArgs region ty sid name count seed threshold arima tp error) =
  let s0 := XState (World (w_pickles w) (w_texts w) (DObj PlainDTW (Some D) false)) [] in
  let '(s, result) := match evaluate cr r (qregion d sc) (suite_repr ty sid) count seed threshold s0 with
                      | (s, Raise e) => (s, Raise e)
                      | (s, Ok _) => produce_csv format_float show_series r (qregion d sc) (suite_repr ty sid) s
                      end in (x_world s, result).
Proof.
  intros (Hr & Hi & Hq & [ Sx Sy ] & Hl & (HD1 & HD2 & _) & _) Hs Ha Hc. unfold extraction. cbn [xa_region xa_type xa_suite xa_criterion xa_count xa_seed xa_threshold xa_auto_arima xa_tp xa_error].
  rewrite Hr, Hs. cbn [bind]. unfold load_distance_matrix_2d, base_load. cbn [d_kind]. rewrite Hl.
  assert (Hp : r_points (rm_region r) = Z.of_nat (a3x d * a3y d)) by (unfold r_points; rewrite Sx, Sy; lia). rewrite Hp, HD1, HD2, Z.eqb_refl. cbn [andb d_kind d_weighted].
  rewrite Ha. cbn [bind]. rewrite Hi. cbn [bind]. rewrite Hc. cbn [bind]. cbv zeta. destruct (evaluate _ _ _ _ _ _ _ _) as [ s [ u | e ] ]; reflexivity.
Qed.

Lemma points_drawn (d : arr3 fnum) sr seed count free : draws (choice seed) -> any_order set_order -> any_order point_order -> 0 < a3y d ->
  (0 <= seed < 4294967296)%Z -> free_positions (a3x d) (a3y d) sr free ->
  ((0 <= count <= Z.of_nat (length free))%Z ->
     exists pts, seeded_points set_order choice seed count (extract_all_medoid_indices point_order sr (a3y d)) (a3x d) (a3y d) = Ok pts /\ drawn (a3x d) (a3y d) sr count pts) /\
  (~ (0 <= count <= Z.of_nat (length free))%Z ->
     seeded_points set_order choice seed count (extract_all_medoid_indices point_order sr (a3y d)) (a3x d) (a3y d) = Raise ValueError).
Proof.
  intros Hd Ho Hp Hy Hs [ Nf Hf ]. unfold seeded_points. replace ((0 <=? seed) && (seed <? 4294967296))%Z with true by lia.
  set (bl := extract_all_medoid_indices _ _ _).
  assert (Hf' : forall v, In v free <-> (0 <= v <= Z.of_nat (a3x d) * Z.of_nat (a3y d) - 1)%Z /\ ~ In v bl).
  { intros v. rewrite Hf. unfold bl. rewrite (in_blocked _ _ _ _ Hp). split; intros [ A B ]; (split; [ lia | ]).
    - intros (m & Hm & ->). exact (B m Hm eq_refl).
    - intros m Hm ->. apply B. exists m. auto. }
  destruct (random_total set_order (choice seed) Hd Ho count 0 _ bl free Nf Hf') as [ T1 T2 ]. split; intros Hc.
  - destruct (T1 Hc) as [ idx E ]. assert (E' : exists pts, random_points_different_to_medoids set_order (choice seed) count bl (a3x d) (a3y d) = Ok pts).
    { unfold random_points_different_to_medoids. cbv zeta. rewrite E. cbn [bind]. eauto. }
    destruct E' as [ pts E' ]. exists pts. split; [ exact E' | ]. destruct (random_points_ok set_order (choice seed) Hd Ho count bl _ _ pts Hy E') as (L & Nd & Hin).
    split; [ exact L | ]. split; [ exact Nd | ]. intros p Hpt. destruct (Hin p Hpt) as [ G N ]. split; [ exact G | ]. intros m Hm Eq. apply N. unfold bl. rewrite (in_blocked _ _ _ _ Hp). exists m. auto.
  - unfold random_points_different_to_medoids. cbv zeta. rewrite (T2 Hc). reflexivity.
Qed.

(** C120: the points depend on the seed, the number of points and the suite only; the files have what [left_by_run] says, by
    distance and by error, whatever the threshold and whatever was on disk before. *)
Theorem C120_run : forall region r d sc D dist sr ty sid suite count seed free,
  ready env create_instance region r d sc D dist -> get_suite ty sid = Ok suite -> usable (rm_region r) sr ->
  draws (choice seed) -> any_order set_order -> any_order point_order -> (0 <= seed < 4294967296)%Z ->
  free_positions (a3x d) (a3y d) sr free -> (0 <= count <= Z.of_nat (length free))%Z ->
  exists pts, drawn (a3x d) (a3y d) sr count pts /\
    forall (w : world M) threshold arima params tp error,
      retrieve_suite_result (w_texts w (table_at region ty sid)) = Ok sr -> dict_get String.eqb arima predefined_auto_arima = Ok params ->
      (exists w' result, run w (XArgs region ty sid "min_distance" count seed threshold arima tp error) = (w', result) /\
         left_by_run format_float w w' result region ty sid MinDistance count seed threshold (rm_region r) d sr (by_distance dist (rm_region r)) pts) /\
      (forall solver_of,
         (forall c ms, In (c, ms) sr -> exists md s, factory_from_repr c = Ok md /\ solver_saved (w_pickles w) (SKey r md "dtw" params tp error) s /\
            solver_of c = Ok (s, meta_of (SKey r md "dtw" params tp error))) ->
         exists w' result, run w (XArgs region ty sid "min_error" count seed threshold arima tp error) = (w', result) /\
           left_by_run format_float w w' result region ty sid (MinError params tp error) count seed threshold (rm_region r) d sr
             (min_error_penalties (auto_arima_kind fit forecast search) solver_of (ByDTW dtw) (rm_scaled r) (qregion d sc)) pts).
Proof.
  intros region r d sc D dist sr ty sid suite count seed free Hready Hs Hu Hd Ho Hp Hseed Hfree Hc.
  pose proof Hready as (Hr & Hi & Hq & Hsp & Hl & HD & Hent). destruct (predefined_facts _ _ Hr) as (En & Hn & _ & _ & Hx & Hy & _).
  assert (Hy0 : 0 < a3y d) by (destruct Hsp; lia).
  destruct (proj1 (points_drawn d sr seed count free Hd Ho Hp Hy0 Hseed Hfree) Hc) as (pts & Ep & Hdr). exists pts. split; [ exact Hdr | ].
  assert (Hg : Forall (in_grid (a3x d) (a3y d)) pts) by (apply Forall_forall; intros p H; apply (proj2 (proj2 Hdr) p H)).
  intros w threshold arima params tp error Et Ha. rewrite <- En in Et. split.
  - rewrite (run_unfold w region r d sc D dist ty sid suite "min_distance" MinDistance count seed threshold arima params tp error Hready Hs Ha eq_refl). cbv zeta.
    destruct (run_generic env create_instance partition_impl dtw format_float show_series fit order_of forecast search set_order point_order choice r d sc sr Hn Hq Hsp Hu
                (by_distance dist (rm_region r)) (@loaded_state M D) ty sid MinDistance count seed threshold
                (XState (World (w_pickles w) (w_texts w) (DObj PlainDTW (Some D) false)) []) pts) as (s' & result & E & L); auto.
    + intros s c ms pt. apply (distance_pure env r d sc D dist sr Hsp Hent). intros c0 ms0 m0 Hin Hm. apply (proj2 Hu c0 ms0 Hin). exact Hm.
    + reflexivity.
    + rewrite E. rewrite En in L. exists (x_world s'), result. auto.
  - intros solver_of Hsv.
    rewrite (run_unfold w region r d sc D dist ty sid suite "min_error" (MinError params tp error) count seed threshold arima params tp error Hready Hs Ha eq_refl). cbv zeta.
    destruct (run_generic env create_instance partition_impl dtw format_float show_series fit order_of forecast search set_order point_order choice r d sc sr Hn Hq Hsp Hu
                (min_error_penalties (auto_arima_kind fit forecast search) solver_of (ByDTW dtw) (rm_scaled r) (qregion d sc)) (@cached_state M r (w_pickles w) params tp error)
                ty sid (MinError params tp error) count seed threshold (XState (World (w_pickles w) (w_texts w) (DObj PlainDTW (Some D) false)) []) pts) as (s' & result & E & L); auto.
    + intros s c ms pt. cbn [medoid_penalties]. apply errors_pure with (sr := sr); auto.
    + split; [ reflexivity | ]. intros kr l H. discriminate.
    + rewrite E. rewrite En in L. exists (x_world s'), result. auto.
Qed.

(** C120: by distance and without a threshold every point gets a line with a closest medoid of the suite and its own series. *)
Theorem C120_closest : forall region r d sc D (dist : point -> point -> Q) sr ty sid suite count seed free arima params tp error (w : world M),
  ready env create_instance region r d sc D (fun q pt => Fin (dist q pt)) -> get_suite ty sid = Ok suite -> usable (rm_region r) sr ->
  draws (choice seed) -> any_order set_order -> any_order point_order -> (0 <= seed < 4294967296)%Z ->
  free_positions (a3x d) (a3y d) sr free -> (0 <= count <= Z.of_nat (length free))%Z ->
  retrieve_suite_result (w_texts w (table_at region ty sid)) = Ok sr -> dict_get String.eqb arima predefined_auto_arima = Ok params ->
  exists pts w' first lines, drawn (a3x d) (a3y d) sr count pts /\ first_clustering sr first /\
    run w (XArgs region ty sid "min_distance" count seed 0 arima tp error) = (w', Ok tt) /\
    w_texts w' (run_file "random_point" region ty sid MinDistance count seed) = Some (header_line first (a3t d) :: lines) /\
    Forall2 (fun p line => exists c ms i m series, In (c, ms) sr /\ nth_error ms i = Some m /\
               (forall c' ms' m', In (c', ms') sr -> In m' ms' -> (dist p (inside (rm_region r) m) <= dist p (inside (rm_region r) m'))%Q) /\
               series3 d (fst p) (snd p) = Ok series /\ line_of format_float region c (Z.of_nat i) m series line) pts lines.
Proof.
  intros region r d sc D dist sr ty sid suite count seed free arima params tp error w Hready Hs Hu Hd Ho Hp Hseed Hfree Hc Et Ha.
  destruct (C120_run region r d sc D _ sr ty sid suite count seed free Hready Hs Hu Hd Ho Hp Hseed Hfree Hc) as (pts & Hdr & Hrun).
  destruct (Hrun w 0%Z arima params tp error Et Ha) as [ (w' & result & E & (rs & h & first & Ec & Hf & (lines & Tl & Fl) & _ & Hres)) _ ].
  assert (Hall : forall i x, nth_error rs i = Some x -> exists p c k m, nth_error pts i = Some p /\ x = Ok (c, Z.of_nat k, m) /\
     (exists ms, In (c, ms) sr /\ nth_error ms k = Some m) /\
     forall c' ms' m', In (c', ms') sr -> In m' ms' -> (dist p (inside (rm_region r) m) <= dist p (inside (rm_region r) m'))%Q).
  { intros i x Hx. destruct (choices_each _ _ _ _ _ _ _ _ _ Ec Hx) as (p & h0 & Hpt & ->). exists p.
    destruct (by_distance_fit dist (rm_region r) sr p Hu) as [ Hfit Hfin ].
    pose proof (C61_least_penalty _ sr p 0 h0 Hfit (or_introl eq_refl)) as C.
    assert (Hcand : forall n k c ms m, nth_error sr n = Some (c, ms) -> nth_error ms k = Some m ->
       candidate (by_distance (fun q pt => Fin (dist q pt)) (rm_region r)) sr p 0 h0 n k c m (Fin (dist p (inside (rm_region r) m)))).
    { intros n k c ms m H1 H2. exists ms. eexists. split; [ exact H1 | ]. split; [ exact H2 | ]. split; [ reflexivity | ]. split; [ rewrite nth_error_map, H2; reflexivity | ].
      split; [ left; reflexivity | ]. intros j v Hj _. rewrite nth_error_map in Hj. destruct (nth_error ms j); [ | discriminate ]. injection Hj as <-. reflexivity. }
    destruct (choose_medoid _ sr p 0 h0) as [ [ [ [ c i0 ] m ] | e ] h' ].
    - destruct C as (n & k & v & -> & (ms & ps & E1 & E2 & E3 & E4 & _) & _ & Hle). exists c, k, m. split; [ exact Hpt | ]. split; [ reflexivity | ].
      pose proof (nth_error_In _ _ E1) as Hin. split; [ exists ms; auto | ]. intros c' ms' m' Hin' Hm'.
      destruct (In_nth_error _ _ Hin') as [ n' En' ]. destruct (In_nth_error _ _ Hm') as [ k' Ek' ].
      destruct (Hle n' k' c' m' _ (Hcand n' k' c' ms' m' En' Ek')) as [ Hv _ ]. unfold by_distance in E3. injection E3 as <-. rewrite nth_error_map, E2 in E4. injection E4 as <-.
      apply fle_Fin. exact Hv.
    - exfalso. destruct C as (_ & _ & C). destruct Hu as [ Hne Hu' ]. destruct sr as [ | [ c ms ] sr' ]; [ congruence | ]. destruct (Hu' c ms (or_introl eq_refl)) as (Hm & _).
      destruct ms as [ | m ms ]; [ congruence | ]. specialize (C 0 0 c m _ (Hcand 0 0 c (m :: ms) m eq_refl eq_refl)). discriminate. }
  assert (Hok : exists picks, rs = map Ok picks).
  { clear - Hall. assert (H : forall x, In x rs -> exists a, x = Ok a). { intros x Hx. apply In_nth_error in Hx. destruct Hx as [ i Hi ]. destruct (Hall i x Hi) as (p & c & k & m & _ & -> & _). eauto. }
    clear Hall. induction rs as [ | x rs IH ]; [ exists []; reflexivity | ]. destruct (H x (or_introl eq_refl)) as [ a -> ]. destruct IH as [ l -> ]; [ intros; apply H; right; auto | ].
    exists (a :: l). reflexivity. }
  destruct Hok as [ picks -> ]. rewrite leading_ok in Fl, Hres. cbn [fst snd] in Fl, Hres. destruct Hres as [ -> _ ].
  exists pts, w', first, lines. split; [ exact Hdr | ]. split; [ exact Hf | ]. split; [ exact E | ]. split; [ exact Tl | ].
  pose proof (choices_length _ _ _ _ _ _ _ Ec) as Hlen. rewrite map_length in Hlen. clear - Fl Hall Hlen.
  assert (Hall' : forall i pick, nth_error picks i = Some pick -> exists p c k m, nth_error pts i = Some p /\ pick = (c, Z.of_nat k, m) /\
     (exists ms, In (c, ms) sr /\ nth_error ms k = Some m) /\
     forall c' ms' m', In (c', ms') sr -> In m' ms' -> (dist p (inside (rm_region r) m) <= dist p (inside (rm_region r) m'))%Q).
  { intros i pick Hi. destruct (Hall i (Ok pick)) as (p & c & k & m & A & B & C). { rewrite nth_error_map, Hi. reflexivity. } exists p, c, k, m. injection B as ->. auto. }
  clear Hall. revert picks lines Fl Hlen Hall'. induction pts as [ | p pts IH ]; intros picks lines Fl Hlen Hall; destruct picks as [ | pick picks ]; try discriminate; cbn [combine] in Fl.
  - inversion Fl; subst. constructor.
  - inversion Fl as [ | ? line ? lines' H1 H2 ]; subst. destruct (Hall 0 pick eq_refl) as (p' & c & k & m & [= <-] & -> & (ms & Hin & Hk) & Hmin). destruct H1 as (s & Es & Hl). constructor.
    + exists c, ms, k, m, s. auto 6.
    + eapply IH; [ exact H2 | injection Hlen as Hlen; exact Hlen | ]. intros i pick Hi. exact (Hall (S i) pick Hi).
Qed.

(** C120: with a threshold t the run succeeds exactly if there are at most t points for each medoid of the suite.  Otherwise it
    fails with ValueError and leaves a file with t lines for each medoid, without a histogram and without the medoids. *)
Theorem C120_threshold : forall region r d sc D (dist : point -> point -> Q) sr ty sid suite count seed free threshold arima params tp error (w : world M),
  ready env create_instance region r d sc D (fun q pt => Fin (dist q pt)) -> get_suite ty sid = Ok suite -> usable (rm_region r) sr ->
  draws (choice seed) -> any_order set_order -> any_order point_order -> (0 <= seed < 4294967296)%Z ->
  free_positions (a3x d) (a3y d) sr free -> (0 <= count <= Z.of_nat (length free))%Z -> (0 < threshold)%Z ->
  retrieve_suite_result (w_texts w (table_at region ty sid)) = Ok sr -> dict_get String.eqb arima predefined_auto_arima = Ok params ->
  exists w' first lines, first_clustering sr first /\
    let capacity := (threshold * Z.of_nat (suite_size sr))%Z in
    run w (XArgs region ty sid "min_distance" count seed threshold arima tp error) = (w', if (count <=? capacity)%Z then Ok tt else Raise ValueError) /\
    w_texts w' (run_file "random_point" region ty sid MinDistance count seed) = Some (header_line first (a3t d) :: lines) /\
    Z.of_nat (length lines) = Z.min count capacity /\
    ((capacity < count)%Z -> forall q, q <> run_file "random_point" region ty sid MinDistance count seed -> w_texts w' q = w_texts w q).
Proof.
  intros region r d sc D dist sr ty sid suite count seed free threshold arima params tp error w Hready Hs Hu Hd Ho Hp Hseed Hfree Hc Hth Et Ha.
  destruct (C120_run region r d sc D _ sr ty sid suite count seed free Hready Hs Hu Hd Ho Hp Hseed Hfree Hc) as (pts & Hdr & Hrun).
  destruct (Hrun w threshold arima params tp error Et Ha) as [ (w' & result & E & (rs & h & first & Ec & Hf & (lines & Tl & Fl) & _ & Hres)) _ ].
  exists w', first, lines. split; [ exact Hf | ]. cbv zeta. pose proof (choices_length _ _ _ _ _ _ _ Ec) as Hlen. destruct Hdr as (Hcount & _).
  destruct (leading_capacity rs (Z.to_nat (threshold * Z.of_nat (suite_size sr)))) as [ L1 L2 ].
  { intros i x Hx. pose proof (C62_capacity sr threshold (map (fun p => Call sr p (by_distance (fun q pt => Fin (dist q pt)) (rm_region r))) pts) rs h Hth (retrieved_nodup _ _ Et)) as C.
    destruct (fun H => C H Ec i x Hx) as [ C1 C2 ].
    - intros c Hin. apply in_map_iff in Hin. destruct Hin as (p & <- & _). cbn [c_suite c_penalties c_point]. split; [ reflexivity | ]. apply (by_distance_fit dist (rm_region r) sr p Hu).
    - split; intros H; [ apply C1 | apply C2 ]; nia. }
  assert (Ll : length lines = length (fst (leading rs))).
  { rewrite <- (forall2_length _ _ _ Fl), combine_length. rewrite L1, Hlen. lia. }
  rewrite L2 in Hres. assert (H0 : (0 <= threshold * Z.of_nat (suite_size sr))%Z) by nia.
  destruct (count <=? threshold * Z.of_nat (suite_size sr))%Z eqn:El.
  - replace (length rs <=? Z.to_nat (threshold * Z.of_nat (suite_size sr)))%nat with true in Hres by lia. destruct Hres as [ -> _ ]. split; [ exact E | ]. split; [ exact Tl | ].
    split; [ rewrite Ll, L1; lia | lia ].
  - replace (length rs <=? Z.to_nat (threshold * Z.of_nat (suite_size sr)))%nat with false in Hres by lia. destruct Hres as [ -> Hq ]. split; [ exact E | ]. split; [ exact Tl | ].
    split; [ rewrite Ll, L1; lia | auto ].
Qed.

(** C120, not true that runs with different thresholds have different files: the name has no threshold.  After a complete run
    without a threshold, a run with too small a threshold fails and leaves fewer lines in the same file. *)
Theorem C120_threshold_in_name_refuted : forall region r d sc D (dist : point -> point -> Q) sr ty sid suite count seed free threshold arima params tp error (w : world M),
  ready env create_instance region r d sc D (fun q pt => Fin (dist q pt)) -> get_suite ty sid = Ok suite -> usable (rm_region r) sr ->
  draws (choice seed) -> any_order set_order -> any_order point_order -> (0 <= seed < 4294967296)%Z ->
  free_positions (a3x d) (a3y d) sr free -> (0 <= count <= Z.of_nat (length free))%Z -> (0 < threshold)%Z -> (threshold * Z.of_nat (suite_size sr) < count)%Z ->
  retrieve_suite_result (w_texts w (table_at region ty sid)) = Ok sr -> dict_get String.eqb arima predefined_auto_arima = Ok params ->
  exists w1 w2 lines1 lines2, run w (XArgs region ty sid "min_distance" count seed 0 arima tp error) = (w1, Ok tt) /\
    run w1 (XArgs region ty sid "min_distance" count seed threshold arima tp error) = (w2, Raise ValueError) /\
    w_texts w1 (run_file "random_point" region ty sid MinDistance count seed) = Some lines1 /\
    w_texts w2 (run_file "random_point" region ty sid MinDistance count seed) = Some lines2 /\ length lines2 < length lines1.
Proof.
  intros region r d sc D dist sr ty sid suite count seed free threshold arima params tp error w Hready Hs Hu Hd Ho Hp Hseed Hfree Hc Hth Hsmall Et Ha.
  destruct (C120_closest region r d sc D dist sr ty sid suite count seed free arima params tp error w Hready Hs Hu Hd Ho Hp Hseed Hfree Hc Et Ha) as (pts & w1 & first & lines1 & Hdr & Hf1 & E1 & T1 & F1).
  destruct (C120_run region r d sc D _ sr ty sid suite count seed free Hready Hs Hu Hd Ho Hp Hseed Hfree Hc) as (pts' & _ & Hrun).
  destruct (Hrun w 0%Z arima params tp error Et Ha) as [ (w1' & result & E1' & (rs & h & first' & _ & _ & _ & _ & Hres)) _ ]. rewrite E1 in E1'. injection E1' as <- <-.
  assert (Et1 : retrieve_suite_result (w_texts w1 (table_at region ty sid)) = Ok sr).
  { destruct (files_apart region ty sid MinDistance count seed ty sid) as (N1 & N2 & N3 & N4 & N5 & N6). destruct (snd (leading rs)); [ destruct Hres; discriminate | ].
    destruct Hres as (_ & _ & _ & Hq). rewrite Hq by auto. exact Et. }
  destruct (C120_threshold region r d sc D dist sr ty sid suite count seed free threshold arima params tp error w1 Hready Hs Hu Hd Ho Hp Hseed Hfree Hc Hth Et1 Ha)
    as (w2 & first2 & lines2 & _ & E2 & T2 & L2 & _). cbv zeta in E2, L2. replace (count <=? threshold * Z.of_nat (suite_size sr))%Z with false in E2 by lia.
  exists w1, w2, (header_line first (a3t d) :: lines1), (header_line first2 (a3t d) :: lines2). split; [ exact E1 | ]. split; [ exact E2 | ]. split; [ exact T1 | ]. split; [ exact T2 | ].
  cbn [length]. apply forall2_length in F1. destruct Hdr as (Hcount & _). lia.
Qed.

(** C120: without one of the things it needs the program fails before it writes anything. *)
Theorem C120_nothing_written : forall (w : world M) a e,
  region_by_name (xa_region a) = Raise e \/
  (exists r, region_by_name (xa_region a) = Ok r /\ get_suite (xa_type a) (xa_suite a) = Raise e) \/
  (exists r d sc D dist suite params, ready env create_instance (xa_region a) r d sc D dist /\ get_suite (xa_type a) (xa_suite a) = Ok suite /\ e = ValueError /\
     dict_get String.eqb (xa_auto_arima a) predefined_auto_arima = Ok params /\ In (xa_criterion a) ["min_distance"; "min_error"] /\
     (w_texts w (table_at (xa_region a) (xa_type a) (xa_suite a)) = None \/
      exists sr, retrieve_suite_result (w_texts w (table_at (xa_region a) (xa_type a) (xa_suite a))) = Ok sr /\
        (~ (0 <= xa_seed a < 4294967296)%Z \/
         exists free, draws (choice (xa_seed a)) /\ any_order set_order /\ any_order point_order /\ free_positions (a3x d) (a3y d) sr free /\
           ~ (0 <= xa_count a <= Z.of_nat (length free))%Z))) ->
  exists w', run w a = (w', Raise e) /\ (forall q, w_texts w' q = w_texts w q) /\ (forall q, w_pickles w' q = w_pickles w q).
Proof.
  intros w a e [ H | [ (r & Hr & H) | (r & d & sc & D & dist & suite & params & Hready & Hs & -> & Ha & Hcr & H) ] ].
  - unfold extraction. rewrite H. cbn [bind]. eauto.
  - unfold extraction. rewrite Hr. cbn [bind]. rewrite H. cbn [bind]. eauto.
  - destruct a as [ region ty sid cname count seed threshold arima tp error ]. cbn [xa_region xa_type xa_suite xa_criterion xa_count xa_seed xa_threshold xa_auto_arima xa_tp xa_error] in *.
    pose proof Hready as (Hr & Hi & Hq & Hsp & Hl & HD & Hent). destruct (predefined_facts _ _ Hr) as (En & Hn & _ & _ & Hx & Hy & _).
    assert (Hcr' : exists cr, criterion_by_name cname params tp error = Ok cr) by (destruct Hcr as [ <- | [ <- | [] ] ]; eexists; reflexivity). destruct Hcr' as [ cr Ecr ].
    rewrite (run_unfold w region r d sc D dist ty sid suite cname cr count seed threshold arima params tp error Hready Hs Ha Ecr). cbv zeta.
    unfold evaluate_random_points. rewrite (table_at_path ty sid r Hn), En. cbn [x_world w_texts].
    destruct H as [ -> | (sr & -> & H) ]; cbn [retrieve_suite_result bind].
    { eexists. split; [ reflexivity | ]. split; reflexivity. }
    assert (Ep : seeded_points set_order choice seed count (extract_all_medoid_indices point_order sr (a3y d)) (a3x d) (a3y d) = Raise ValueError).
    { destruct (Z_lt_dec seed 0) as [ L | L ]; [ unfold seeded_points; replace ((0 <=? seed) && (seed <? 4294967296))%Z with false by lia; reflexivity | ].
      destruct (Z_lt_dec seed 4294967296) as [ L' | L' ]; [ | unfold seeded_points; replace ((0 <=? seed) && (seed <? 4294967296))%Z with false by lia; reflexivity ].
      destruct H as [ H | (free & Hd & Ho & Hp & Hfree & Hc) ]; [ exfalso; lia | ].
      apply (points_drawn d sr seed count free Hd Ho Hp); auto; destruct Hsp; lia. }
    rewrite q_x, q_y, Ep. cbn [bind]. eexists. split; [ reflexivity | ]. split; reflexivity.
Qed.

(** C120: with the criterion of the error, a solver that was not trained ends the run: the file has its first line only and
    no other file is written. *)
Theorem C120_untrained : forall region r d sc D dist sr ty sid suite count seed free threshold arima params tp error (w : world M) c ms rest md p,
  ready env create_instance region r d sc D dist -> get_suite ty sid = Ok suite -> usable (rm_region r) sr ->
  draws (choice seed) -> any_order set_order -> any_order point_order -> (0 <= seed < 4294967296)%Z ->
  free_positions (a3x d) (a3y d) sr free -> (0 < count <= Z.of_nat (length free))%Z ->
  retrieve_suite_result (w_texts w (table_at region ty sid)) = Ok sr -> dict_get String.eqb arima predefined_auto_arima = Ok params ->
  sr = (c, ms) :: rest -> factory_from_repr c = Ok md ->
  w_pickles w (partition_pickle_path (SKey r md "dtw" params tp error)) = Some (FPartition p) ->
  w_pickles w (model_training_pickle_path (SKey r md "dtw" params tp error)) = None ->
  exists w', run w (XArgs region ty sid "min_error" count seed threshold arima tp error) = (w', Raise IOError) /\
    w_texts w' (run_file "random_point" region ty sid (MinError params tp error) count seed) = Some [header_line md (a3t d)] /\
    (forall q, q <> run_file "random_point" region ty sid (MinError params tp error) count seed -> w_texts w' q = w_texts w q) /\
    forall q, w_pickles w' q = w_pickles w q.
Proof.
  intros region r d sc D dist sr ty sid suite count seed free threshold arima params tp error w c ms rest md p Hready Hs Hu Hd Ho Hp Hseed Hfree Hc Et Ha Esr Emd Hpart Hmiss.
  pose proof Hready as (Hr & Hi & Hq & Hsp & Hl & HD & Hent). destruct (predefined_facts _ _ Hr) as (En & Hn & _ & _ & Hx & Hy & _).
  assert (Hy0 : 0 < a3y d) by (destruct Hsp; lia).
  destruct (proj1 (points_drawn d sr seed count free Hd Ho Hp Hy0 Hseed Hfree) ltac:(lia)) as (pts & Ep & Hdr).
  rewrite (run_unfold w region r d sc D dist ty sid suite "min_error" (MinError params tp error) count seed threshold arima params tp error Hready Hs Ha eq_refl). cbv zeta.
  unfold evaluate_random_points. rewrite (table_at_path ty sid r Hn), En. cbn [x_world w_texts]. rewrite Et. cbn [bind]. rewrite q_x, q_y, Ep. cbn [bind].
  rewrite (paths_eq (MinError params tp error) r ty sid count seed Hn), En. set (cp := run_file "random_point" _ _ _ _ _ _).
  destruct (header_ok r sr Hu (a3t d)) as (first & hd & (c0 & ms0 & rest0 & E0 & E1) & Eh & El). rewrite Esr in E0. injection E0 as <- <- <-. rewrite Emd in E1. injection E1 as <-.
  replace (t_len (qregion d sc)) with (a3t d) by (destruct sc as [ [ ? ? ] | ]; reflexivity). rewrite Eh.
  destruct pts as [ | pt pts ]; [ destruct Hdr as (H & _); cbn in H; lia | ]. cbn [write_choices]. unfold choose_medoid_in. rewrite Esr. cbn [choose_among medoid_penalties].
  unfold error_penalties at 1, solver_key. rewrite Emd. cbn [bind]. cbn [x_solvers dict_get add_line put x_world w_pickles write_text append_text k_clustering].
  rewrite (load_missing (w_pickles w) (SKey r md "dtw" params tp error) _ p Hpart Hmiss). cbn [bind choose_step].
  eexists. split; [ reflexivity | ]. unfold add_line, put, append_text, write_text. cbn [w_texts w_pickles x_world]. rewrite String.eqb_refl, ?El. split; [ reflexivity | ]. split; [ | reflexivity ].
  intros q Hq'. unfold add_line, put, append_text, write_text. cbn [w_texts w_pickles x_world]. rewrite !(proj2 (String.eqb_neq q cp) Hq'). reflexivity.
Qed.

(** C120: the two programs together.  After the analysis of a suite with these partitions and medoids, the training data is
    made from the medoids of the table: the points are any number of points up to those that are not medoids. *)
Theorem C120_after_analysis : forall choice' format_coverage region r d sc D dist ty sid suite results (w : world M) count seed,
  ready env create_instance region r d sc D dist -> get_suite ty sid = Ok suite -> outcomes choice' env (w_pickles w) r d sc D suite results ->
  draws (choice seed) -> any_order set_order -> any_order point_order -> (0 <= seed < 4294967296)%Z ->
  (0 <= count)%Z -> (count + Z.of_nat (length (flat_map snd results)) <= Z.of_nat (a3x d * a3y d))%Z ->
  exists w1 pts, analyze_suite choice' env create_instance format_coverage format_float w region ty sid = (w1, Ok tt) /\
    let g := rm_region r in
    let sr := map (fun cr => (c_repr (fst cr), map (fun m => (fst m + x1 g, snd m + y1 g)%Z) (snd (snd cr)))) (combine suite results) in
    retrieve_suite_result (w_texts w1 (table_at region ty sid)) = Ok sr /\ usable g sr /\ drawn (a3x d) (a3y d) sr count pts /\
    forall threshold arima params tp error, dict_get String.eqb arima predefined_auto_arima = Ok params ->
      exists w' result, run w1 (XArgs region ty sid "min_distance" count seed threshold arima tp error) = (w', result) /\
        left_by_run format_float w1 w' result region ty sid MinDistance count seed threshold g d sr (by_distance dist g) pts.
Proof.
  intros choice' fc region r d sc D dist ty sid suite results w count seed Hready Hs Hout Hd Ho Hp Hseed Hc0 Hc.
  destruct (C117_written M choice' env create_instance fc format_float w region r d sc D dist ty sid suite results Hready Hs Hout) as (w1 & rows & E1 & _ & Et).
  pose proof Hready as (Hr & Hi & Hq & Hsp & Hl & HD & Hent). pose proof (forall2_length _ _ _ Hout) as Hlen.
  set (g := rm_region r) in *. set (sr := map (fun cr => (c_repr (fst cr), map (fun m => (fst m + x1 g, snd m + y1 g)%Z) (snd (snd cr)))) (combine suite results)) in *.
  assert (Hu : usable g sr).
  { destruct (suite_clean _ _ _ Hs) as (_ & _ & Hclean). destruct (C112_suites _ _ _ Hs) as [ Hbel _ ]. split.
    - destruct (proj2 (proj1 (C112_which_suites ty sid)) (ex_intro _ _ Hs)) as [ c Hcc ]. apply Hbel in Hcc. destruct suite as [ | c0 suite ]; [ destruct Hcc | ].
      destruct results as [ | pm results ]; [ discriminate | ]. discriminate.
    - intros c ms Hin. apply in_map_iff in Hin. destruct Hin as ([ cm [ p0 ms0 ] ] & E & Hin). cbn [fst snd] in E. injection E as <- <-.
      assert (Hcm : In cm suite) by (eapply in_combine_l; exact Hin). destruct (Hclean cm Hcm) as [ _ Hk ].
      assert (Hw : with_medoids (a3x d) (a3y d) (c_k cm) p0 ms0).
      { apply In_nth_error in Hin. destruct Hin as [ i Hin ]. clear - Hin Hout. revert i Hin. induction Hout as [ | c1 pm suite results [ _ H ] Hout IH ]; intros i Hin; [ destruct i; discriminate | ].
        destruct i as [ | i ]; cbn [combine nth_error] in Hin; [ injection Hin as -> ->; exact H | eauto ]. }
      destruct Hw as (_ & _ & Hlm & Hgm). split; [ destruct ms0; [ cbn in Hlm; lia | discriminate ] | ]. split.
      + apply Hbel in Hcm. inversion Hcm; subst; try (eexists; apply C35_regular_round_trip); match goal with |- exists md, factory_from_repr (c_repr (CKmedoids ?m)) = _ => destruct (C35_kmedoids_round_trip m eq_refl) as (m' & E' & _) end; eauto.
      + intros m Hm. apply in_map_iff in Hm. destruct Hm as (m0 & <- & Hm0). rewrite Forall_forall in Hgm. destruct (Hgm m0 Hm0) as [ A B ]. destruct Hsp as [ Sx Sy ]. fold g in Sx, Sy.
        cbn [fst snd]. lia. }
  assert (Hsize : suite_size sr = length (flat_map snd results)).
  { unfold suite_size, sr. clear - Hlen. revert results Hlen. induction suite as [ | c suite IH ]; intros [ | [ p ms ] results ] Hlen; try discriminate; [ reflexivity | ].
    cbn [combine map flat_map snd]. rewrite !app_length, map_length. f_equal. apply IH. injection Hlen as ->. reflexivity. }
  destruct (free_enough (a3x d) (a3y d) sr) as (free & Hfree & Hen).
  destruct (C120_run region r d sc D dist sr ty sid suite count seed free Hready Hs Hu Hd Ho Hp Hseed Hfree ltac:(lia)) as (pts & Hdr & Hrun).
  exists w1, pts. split; [ exact E1 | ]. cbv zeta. fold sr. split; [ exact Et | ]. split; [ exact Hu | ]. split; [ exact Hdr | ].
  intros threshold arima params tp error Ha. apply (proj1 (Hrun w1 threshold arima params tp error Et Ha)).
Qed.
End C120.
Print Assumptions C120_run.
Print Assumptions C120_closest.
Print Assumptions C120_threshold.
Print Assumptions C120_threshold_in_name_refuted.
Print Assumptions C120_nothing_written.
Print Assumptions C120_untrained.
Print Assumptions C120_after_analysis.

(** C120: runs with another criterion, suite, number of points or seed have other files; the parameters of the models count
    as far as their names show them. *)
Definition same_criterion (a b : criterion) : Prop :=
  match a, b with
  | MinDistance, MinDistance => True
  | MinError p tp e, MinError p' tp' e' => same_params p p' /\ tp = tp' /\ e = e'
  | _, _ => False
  end.
Definition plain_error (cr : criterion) : Prop := match cr with MinDistance => True | MinError _ _ e => has_char "_" e = false end.
Theorem C120_names : forall what region ty sid suite cr count seed ty' sid' suite' cr' count' seed',
  get_suite ty sid = Ok suite -> get_suite ty' sid' = Ok suite' -> plain_error cr -> plain_error cr' ->
  run_file what region ty sid cr count seed = run_file what region ty' sid' cr' count' seed' ->
  same_criterion cr cr' /\ ty = ty' /\ sid = sid' /\ count = count' /\ seed = seed'.
Proof.
  intros what region ty sid suite cr count seed ty' sid' suite' cr' count' seed' Hs Hs' He He' E. unfold run_file in E. apply sapp_inj_l, sapp_inj_l, sapp_inj_l, sapp_inj_l in E.
  assert (N : forall n, has_char "_" (str_int n) = false) by (intros; apply str_int_no_char; [ reflexivity | discriminate ]).
  assert (Hty : forall t i l, get_suite t i = Ok l -> has_char "-" t = false).
  { intros t i l H. unfold get_suite in H. destruct (t =? "kmedoids")%string eqn:E1; [ apply String.eqb_eq in E1; subst; reflexivity | ].
    destruct (t =? "regular")%string eqn:E2; [ apply String.eqb_eq in E2; subst; reflexivity | discriminate ]. }
  replace (criterion_in_name cr ++ ty ++ "-" ++ sid ++ "_count" ++ str_int count ++ "_seed" ++ str_int seed ++ ".csv")
    with ((criterion_in_name cr ++ ty ++ "-" ++ sid) ++ "_count" ++ str_int count ++ "_seed" ++ str_int seed ++ ".csv") in E by (rewrite !sapp_assoc; reflexivity).
  replace (criterion_in_name cr' ++ ty' ++ "-" ++ sid' ++ "_count" ++ str_int count' ++ "_seed" ++ str_int seed' ++ ".csv")
    with ((criterion_in_name cr' ++ ty' ++ "-" ++ sid') ++ "_count" ++ str_int count' ++ "_seed" ++ str_int seed' ++ ".csv") in E by (rewrite !sapp_assoc; reflexivity).
  set (A := criterion_in_name cr ++ ty ++ "-" ++ sid) in *. set (A' := criterion_in_name cr' ++ ty' ++ "-" ++ sid') in *.
  assert (E1 : (A ++ "_count" ++ str_int count) ++ String "_" ("seed" ++ str_int seed ++ ".csv") = (A' ++ "_count" ++ str_int count') ++ String "_" ("seed" ++ str_int seed' ++ ".csv"))
    by (rewrite !sapp_assoc; exact E).
  apply cut_last in E1; [ | rewrite !has_char_app, N; reflexivity | rewrite !has_char_app, N; reflexivity ]. destruct E1 as [ E1 E2 ].
  apply sapp_inj_l in E2. apply str_int_prefix in E2; try reflexivity. destruct E2 as [ -> _ ].
  assert (E3 : A ++ String "_" ("count" ++ str_int count) = A' ++ String "_" ("count" ++ str_int count')) by exact E1.
  apply cut_last in E3; [ | rewrite !has_char_app, N; reflexivity | rewrite !has_char_app, N; reflexivity ]. destruct E3 as [ E3 E4 ].
  apply sapp_inj_l in E4. apply str_int_inj in E4. subst count'.
  assert (Hsuite : ty ++ String "-" sid = ty' ++ String "-" sid' -> ty = ty' /\ sid = sid') by (intros H; apply cut_first in H; eauto).
  unfold A, A' in E3. clear E E1 A A'. destruct cr as [ | p tp e ], cr' as [ | p' tp' e' ]; cbn [criterion_in_name] in E3.
  - apply sapp_inj_l in E3. destruct (Hsuite E3) as [ -> -> ]. repeat split.
  - discriminate E3.
  - discriminate E3.
  - rewrite !sapp_assoc in E3. apply sapp_inj_l in E3. apply (params_prefix p p' ("tp" ++ _) ("tp" ++ _)) in E3. destruct E3 as [ Hpar E3 ].
    apply (sapp_inj_l "tp") in E3. apply str_int_prefix in E3; try reflexivity. destruct E3 as [ -> E3 ]. apply (sapp_inj_l "__") in E3.
    apply (cut_first "_" e (String "_" _) e' (String "_" _)) in E3; [ | exact He | exact He' ]. destruct E3 as [ -> E3 ]. injection E3 as E3. destruct (Hsuite E3) as [ -> -> ]. repeat split. exact Hpar.
Qed.
Print Assumptions C120_names.

(** the 7 by 10 region and the suite of four clusterings of Props/PartitionAnalysis.v: after its analysis, 20 points are drawn
    and a closest medoid is chosen for each; a threshold of one makes ten lines and fails *)
Example C120_ex : exists (w1 : world unit) w2 w3 lines2 lines3,
  let run := extraction ex7_env (fun _ => Ok (qregion ex7_d None)) (fun _ _ _ _ => Raise ValueError) (fun _ _ => NaN) (fun _ _ => "v") (fun _ => "")
    (fun _ _ => Raise ValueError) (fun _ => (0, 0, 0)%Z) (fun _ _ => Raise ValueError) (fun _ _ => Raise ValueError) (@rev Z) (@rev point) (fun _ => ex_choice) in
  let file := "outputs/nordeste_small_2015_2015_1spd/dtw/random_point_dist_medoid__kmedoids-quick_count20_seed3.csv" in
  run w1 (XArgs "nordeste_small_2015_2015_1spd" "kmedoids" "quick" "min_distance" 20 3 0 "simple" 8 "MASE") = (w2, Ok tt) /\
  run w2 (XArgs "nordeste_small_2015_2015_1spd" "kmedoids" "quick" "min_distance" 20 3 1 "simple" 8 "MASE") = (w3, Raise ValueError) /\
  w_texts w2 file = Some lines2 /\ w_texts w3 file = Some lines3 /\ length lines2 = 21 /\ length lines3 = 11.
Proof.
  destruct ex7_ready as [ r Hready ]. destruct (get_suite "kmedoids" "quick") as [ suite | ] eqn:Hs; [ | discriminate ].
  assert (Hlen : map c_k suite = [2; 2; 3; 3]%Z) by (vm_compute in Hs; injection Hs as <-; reflexivity).
  destruct (C117_kmedoids_suite unit ex7_choice ex7_env (fun _ => Ok (qregion ex7_d None)) (fun _ => None) _ r ex7_d None ex7_matrix _ "quick" suite Hready Hs) as (results & Hout & _).
  - intros c _ q. discriminate.
  - reflexivity.
  - intros q _. unfold ex7_dist. rewrite Z.sub_diag. reflexivity.
  - intros q pt. apply ex7_pos.
  - intros c Hc. apply (proj1 (C112_suites _ _ _ Hs)) in Hc. inversion Hc; subst. eexists _, (zrange 0 k). split; [ reflexivity | ].
    cbn [c_k kmeta_default km_k]. assert (k = 2 \/ k = 3)%Z as [ -> | -> ] by lia; (split; [ reflexivity | ]; split; [ cbn; lia | ]; split; [ reflexivity | ];
      split; [ left; reflexivity | ]; split; [ reflexivity | ]; split; [ reflexivity | ]; split; [ apply zrange_nodup | ]; intros i Hin; apply in_zrange in Hin; cbn; lia).
  - assert (Hsize : length (flat_map snd results) = 10).
    { assert (E : map (fun pm => length (snd pm)) results = map Z.to_nat (map c_k suite)).
      { clear - Hout. induction Hout as [ | c pm suite results [ _ (_ & _ & H & _) ] Hout IH ]; cbn [map]; [ reflexivity | ]. f_equal; [ lia | exact IH ]. }
      rewrite Hlen in E. cbn in E. clear - E. assert (G : length (flat_map snd results) = list_sum (map (fun pm => length (snd pm)) results)).
      { clear E. induction results as [ | pm results IH ]; cbn; [ reflexivity | ]. rewrite app_length, IH. reflexivity. }
      rewrite G, E. reflexivity. }
    assert (Hrev : forall A, any_order (@rev A)) by (intros A l; apply Permutation_sym, Permutation_rev).
    set (w0 := World (fun _ => None : option (@file unit)) (fun _ => None) (fresh PlainDTW)).
    destruct (C120_after_analysis ex7_env (fun _ => Ok (qregion ex7_d None)) (fun _ _ _ _ => Raise ValueError) (fun _ _ => NaN) (fun _ _ => "v") (fun _ => "")
      (fun _ _ => Raise ValueError) (fun _ => (0, 0, 0)%Z) (fun _ _ => Raise ValueError) (fun _ _ => Raise ValueError) (@rev Z) (@rev point) (fun _ => ex_choice)
      ex7_choice (fun _ => "v") _ r ex7_d None ex7_matrix _ "kmedoids" "quick" suite results w0 20 3 Hready Hs Hout ex_draws (Hrev Z) (Hrev point) ltac:(lia) ltac:(lia)) as (w1 & pts & _ & Hx).
    { change (a3x ex7_d * a3y ex7_d) with 70. lia. }
    cbv zeta in Hx. set (sr := map _ (combine suite results)) in Hx. destruct Hx as (Et & Hu & _ & _).
    assert (Hss : suite_size sr = 10).
    { rewrite <- Hsize. unfold suite_size, sr. pose proof (forall2_length _ _ _ Hout) as L. clear - L. revert results L.
      induction suite as [ | c suite IH ]; intros [ | [ p ms ] results ] L; try discriminate; [ reflexivity | ]. cbn [combine map flat_map snd]. rewrite !app_length, map_length. f_equal. apply IH. injection L as ->. reflexivity. }
    destruct (free_enough 7 10 sr) as (free & Hfree & Hen).
    destruct (C120_threshold_in_name_refuted ex7_env (fun _ => Ok (qregion ex7_d None)) (fun _ _ _ _ => Raise ValueError) (fun _ _ => NaN) (fun _ _ => "v") (fun _ => "")
      (fun _ _ => Raise ValueError) (fun _ => (0, 0, 0)%Z) (fun _ _ => Raise ValueError) (fun _ _ => Raise ValueError) (@rev Z) (@rev point) (fun _ => ex_choice)
      _ r ex7_d None ex7_matrix ex7_dist sr "kmedoids" "quick" suite 20 3 free 1 "simple" (PAutoArima 1 1 3 3 None true) 8 "MASE" w1 Hready Hs Hu ex_draws (Hrev Z) (Hrev point) ltac:(lia) Hfree) as (w2 & w3 & l2 & l3 & E2 & E3 & T2 & T3 & L); auto; try lia; try reflexivity.
    exists w1, w2, w3, l2, l3. cbv zeta. split; [ exact E2 | ]. split; [ exact E3 | ]. split; [ exact T2 | ]. split; [ exact T3 | ].
    destruct (C120_closest ex7_env (fun _ => Ok (qregion ex7_d None)) (fun _ _ _ _ => Raise ValueError) (fun _ _ => NaN) (fun _ _ => "v") (fun _ => "")
      (fun _ _ => Raise ValueError) (fun _ => (0, 0, 0)%Z) (fun _ _ => Raise ValueError) (fun _ _ => Raise ValueError) (@rev Z) (@rev point) (fun _ => ex_choice)
      _ r ex7_d None ex7_matrix ex7_dist sr "kmedoids" "quick" suite 20 3 free "simple" (PAutoArima 1 1 3 3 None true) 8 "MASE" w1 Hready Hs Hu ex_draws (Hrev Z) (Hrev point) ltac:(lia) Hfree ltac:(lia) Et eq_refl) as (pts' & w2' & first & lines & (Hd & _) & _ & E2' & T2' & F).
    rewrite E2 in E2'. injection E2' as <-. rewrite T2 in T2'. injection T2' as ->. apply forall2_length in F. split; [ cbn [length]; lia | ].
    clear L. assert (Et2 : retrieve_suite_result (w_texts w2 (table_at "nordeste_small_2015_2015_1spd" "kmedoids" "quick")) = Ok sr).
    { destruct (C120_run (M := unit) ex7_env (fun _ => Ok (qregion ex7_d None)) (fun _ _ _ _ => Raise ValueError) (fun _ _ => NaN) (fun _ _ => "v") (fun _ => "")
      (fun _ _ => Raise ValueError) (fun _ => (0, 0, 0)%Z) (fun _ _ => Raise ValueError) (fun _ _ => Raise ValueError) (@rev Z) (@rev point) (fun _ => ex_choice)
      _ r ex7_d None ex7_matrix _ sr "kmedoids" "quick" suite 20 3 free Hready Hs Hu ex_draws (Hrev Z) (Hrev point) ltac:(lia) Hfree ltac:(lia)) as (p1 & _ & Hr1).
      destruct (Hr1 w1 0%Z "simple" (PAutoArima 1 1 3 3 None true) 8%Z "MASE" Et eq_refl) as [ (w2' & res2 & E2' & (rs & h & f1 & _ & _ & _ & _ & Hq)) _ ]. rewrite E2 in E2'. injection E2' as <- <-.
      destruct (files_apart "nordeste_small_2015_2015_1spd" "kmedoids" "quick" MinDistance 20 3 "kmedoids" "quick") as (N1 & N2 & N3 & N4 & N5 & N6).
      destruct (snd (leading rs)); [ destruct Hq; discriminate | ]. destruct Hq as (_ & _ & _ & Hq). rewrite Hq by auto. exact Et. }
    destruct (C120_threshold ex7_env (fun _ => Ok (qregion ex7_d None)) (fun _ _ _ _ => Raise ValueError) (fun _ _ => NaN) (fun _ _ => "v") (fun _ => "")
      (fun _ _ => Raise ValueError) (fun _ => (0, 0, 0)%Z) (fun _ _ => Raise ValueError) (fun _ _ => Raise ValueError) (@rev Z) (@rev point) (fun _ => ex_choice)
      _ r ex7_d None ex7_matrix ex7_dist sr "kmedoids" "quick" suite 20 3 free 1 "simple" (PAutoArima 1 1 3 3 None true) 8 "MASE" w2 Hready Hs Hu ex_draws (Hrev Z) (Hrev point) ltac:(lia) Hfree ltac:(lia) ltac:(lia) Et2 eq_refl) as (w3' & f3 & l3' & _ & Hx).
    cbv zeta in Hx. destruct Hx as (E3' & T3' & L3 & _). rewrite E3 in E3'. injection E3' as <- _. rewrite T3 in T3'. injection T3' as ->. cbn [length]. lia.
Qed.
