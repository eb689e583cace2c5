(** C136: the training-error program with --plots. *)
From Coq Require Import String Lia QArith.
From Verif Require Import Base.Py Base.PyFacts Base.Str Base.StrFacts Base.Arr Base.ArrFacts Base.Float Base.FloatFacts Base.Dict Model.Region Model.Series Model.Arrays Model.Errors Model.Models Model.Distance
  Model.KMedoids Model.Clustering Model.Variance Model.Solver Model.SolverFiles Model.Forecast Model.Results Model.Reports Model.Algorithms Model.Programs Model.Dnn Model.PartitionAnalysis
  Model.SuitePrograms Model.ErrorPlot
  Spec.Grid Spec.Partition Spec.Distance Spec.Solver Spec.SolverFiles Spec.Algorithms Spec.Programs Spec.PartitionAnalysis Spec.Reports Spec.SuitePrograms Spec.TrainingErrors Spec.ErrorPlot
  Proofs.RegionFacts Proofs.PartitionFacts Proofs.ProperFacts Proofs.SolverFacts Proofs.DistanceFacts Proofs.DistanceObjFacts Proofs.VarianceFacts
  Proofs.ReportFacts Proofs.ClusteringFacts Proofs.NameFacts Proofs.ProgramFacts Proofs.FilesFacts Proofs.AnalysisFacts Proofs.SuiteFacts Proofs.AnalysisRunFacts
  Props.Clustering Props.SolverFiles Props.Programs Props.Reports Props.PartitionAnalysis Props.SuitePrograms Props.TrainingErrors Props.ErrorPlot.
From Coq Require Import ZifyBool ZifyNat.
Close Scope Q_scope.
Local Notation length := List.length.
Local Open Scope nat_scope.

(* ---------------------------------------------------------------- rows and pictures *)
Definition drawn (rp : list field * list scatter_call) : res (list field * picture) := Ok (fst rp, (snd rp, None)).
Lemma rows_prefix rps : forall rest f, rows_and_pictures (map drawn rps ++ rest)%list f =
  let '(f', e, ps) := rows_and_pictures rest (f ++ map fst rps)%list in (f', e, map snd rps ++ ps)%list.
Proof.
  induction rps as [ | [ row pic ] rps IH ]; intros rest f; cbn [map app drawn fst snd rows_and_pictures].
  - rewrite app_nil_r. destruct (rows_and_pictures rest f) as [ [ f' e ] ps ]. reflexivity.
  - unfold drawn at 1. cbn [fst snd]. rewrite IH, <- app_assoc. cbn [app]. destruct (rows_and_pictures rest _) as [ [ f' e ] ps ]. reflexivity.
Qed.
Lemma split_drawn n : forall steps, n <= length steps -> (forall a, a < n -> exists rp, nth_error steps a = Some (drawn rp)) ->
  exists rps, length rps = n /\ steps = (map drawn rps ++ skipn n steps)%list.
Proof.
  induction n as [ | n IH ]; intros steps Hle H.
  - exists []. split; reflexivity.
  - destruct steps as [ | st steps ]; [ cbn in Hle; lia | ]. destruct (H 0 ltac:(lia)) as (rp & E). cbn in E. injection E as ->.
    destruct (IH steps) as (rps & L & E); [ cbn in Hle; lia | intros a Ha; apply (H (S a)); lia | ]. exists (rp :: rps). split; [ cbn; lia | ]. cbn [map app skipn]. rewrite <- E. reflexivity.
Qed.
Lemma skipn_nth {A} (l : list A) n a : nth_error l n = Some a -> exists rest, skipn n l = a :: rest.
Proof. revert n. induction l as [ | b l IH ]; intros [ | n ] E; try discriminate; cbn in *; [ injection E as <-; eauto | apply IH, E ]. Qed.

Lemma arima_plot_path_at c r name et i order : has_char "/" (rm_name r) = false -> has_char "/" (mode_of c) = false -> has_char "/" name = false ->
  arima_plot_path c r name et ("cluster" ++ str_int (Z.of_nat i)) order = arima_picture_at (rmeta_repr r) c name et i order.
Proof.
  intros Hr Hc Hn. destruct order as [ [ p d ] q ]. unfold arima_plot_path, arima_picture_at, order_name. rewrite clustering_path2; try assumption; try discriminate.
  rewrite ?sapp_assoc. reflexivity.
Qed.

Section Plots.
Context {M : Type} (fit : pdq -> list fnum -> res M) (forecast : M -> nat -> res (list fnum)).
Local Notation kind := (arima_kind fit forecast).
Context (sqrt : fnum -> fnum) (workers : option Z) (junk : fnum) (order_of : M -> res pdq).
Context (ran : cmeta -> Z -> stregion fnum -> point -> pdq -> string -> string -> res (experiment * picture)).
Context (env : denv) (create_instance : rmeta -> res (stregion fnum)) (region : string) (r : rmeta) (d : arr3 fnum) (sc : option (arr2 fnum * arr2 fnum)) (D : mat) (dist : point -> point -> fnum).
Context (Hready : ready env create_instance region r d sc D dist).
Context (et : string) (func : list fnum -> list fnum -> option (list fnum) -> res fnum) (Hn : 8 <= a3t d) (Hw : workers_ok workers) (Hf : get_error_func et = Ok func).
Context (oid : string) (Hoid : has_char "/" oid = false) (orders : list pdq).
Context (mo : pdq -> point -> option M) (fo : pdq -> point -> list fnum) (err : pdq -> point -> point -> fnum).
Local Notation x := (a3x d).
Local Notation y := (a3y d).
Local Notation spt := (qregion d sc).
Local Notation loaded := (DObj PlainDTW (Some D) false).
Local Notation use := (use_arima_errors_with_plots r spt oid orders et ran).
Local Notation s := (@List.length pdq orders).

(** one analysis and its picture *)
Definition made_and_drawn (c : cmeta) (p : crisp) (i : nat) (med : point) (order : pdq) : Prop :=
  label_at p med (Z.of_nat i) /\
  (forall members, cluster_points p x y (Z.of_nat i) members -> forecasts kind (Some order) func d sc 8 members (mo order) (fo order) (err order)) /\
  forall file desc, analyzed_and_drawn kind sqrt (full2 x y (Some (Some order))) workers junk env order_of (Some (dmeta_of r)) loaded (TCluster spt p (Z.of_nat i)) med et file desc
    (ran c (Z.of_nat i) (TCluster spt p (Z.of_nat i)) med order file desc).

Lemma drawn_result c p ms i med order members file desc : with_medoids x y (c_k c) p ms -> nth_error ms i = Some med -> made_and_drawn c p i med order -> cluster_points p x y (Z.of_nat i) members ->
  exists fe tf tc, error_summary sqrt members (fo order) (err order) med fe /\
    ran c (Z.of_nat i) (TCluster spt p (Z.of_nat i)) med order file desc =
      Ok (Experiment fe (without_model (mo order) members) tf tc,
          match reported order_of (mo order med) with
          | Ok shown => (complete_picture members (dist med) (err order med) shown et desc (Some file), None)
          | Raise e => ([Points (map (dist med) members) (map (err order med) members)], Some e)
          end).
Proof.
  intros (V & K & L & G) Hi (Hl & Hfo & Ha) Hm. specialize (Hfo members Hm). specialize (Ha file desc). pose proof Hready as (_ & _ & Hq & _ & _ & HD & He).
  assert (Hg : in_grid x y med) by (rewrite Forall_forall in G; apply G, (nth_error_In _ _ Hi)).
  assert (Hmem : forall pt, In pt members <-> in_grid x y pt /\ label_at p pt (Z.of_nat i)) by (intros pt; rewrite (cluster_members _ _ _ _ _ V Hm); apply members_iff, V).
  assert (Hmed : In med members) by (apply Hmem; auto).
  destruct Ha as (errors & a' & tf & tc & Ha & E).
  destruct (analyzed_result kind sqrt workers junk d sc p (Z.of_nat i) members (Some order) et func (mo order) (fo order) (err order) med Hq V Hm Hn Hw Hf Hfo Hmed) as (fe & models & Hfe & Et & _ & _).
  destruct (C127_cluster _ M kind sqrt workers junk d sc p (Z.of_nat i) members (Some order) 8 et func (mo order) (fo order) (err order) med Hq V Hm Hn Hw Hf Hfo Hmed) as (fe' & Hfe' & _ & Hd).
  rewrite (Hd errors a' Ha) in E. cbn [bind] in E. change (Z.of_nat DEFAULT_FORECAST_LENGTH) with 8%Z in E. rewrite Et in E. cbn [bind snd] in E.
  destruct (C134_picture _ M kind sqrt workers junk env order_of (Some (dmeta_of r)) loaded D d sc p (Z.of_nat i) members (Some order) 8 et func (mo order) (fo order) (err order) med errors a'
    Hq V Hm Hn Hf Hfo Hmed eq_refl HD Ha) as (dist' & Hdist & Hpic).
  change DEFAULT_FORECAST_LENGTH with 8 in E. rewrite Hpic in E. cbn [fst] in E.
  assert (Ed : map dist' members = map (dist med) members).
  { apply map_ext_in. intros pt Hp. pose proof (Hdist pt Hp) as Q. rewrite He in Q by (try assumption; apply Hmem, Hp). congruence. }
  exists fe', tf, tc. split; [ exact Hfe' | ]. rewrite E. do 2 f_equal. unfold reported, complete_picture. rewrite Ed. reflexivity.
Qed.

(** the steps of a clustering *)
Definition step_of (c : cmeta) (p : crisp) (i : nat) (med : point) (order : pdq) : res (list field * picture) :=
  z <- ran c (Z.of_nat i) (TCluster spt p (Z.of_nat i)) med order (arima_picture_at region c oid et i order) (c_repr c) ;;
  Ok (cluster_result_row (Z.of_nat i) (cluster_len p (Z.of_nat i)) order (fst z), snd z).
Lemma steps_of c p ms : has_char "/" (mode_of c) = false -> with_medoids x y (c_k c) p ms -> ms <> [] ->
  exists steps, use c p ms = (let '(file, e, pictures) := rows_and_pictures steps [cluster_result_header] in ([(arima_errors_at region c oid et, file)], e, pictures)) /\
    length steps = length ms * s /\
    forall i j med order, nth_error ms i = Some med -> nth_error orders j = Some order -> nth_error steps (i * s + j) = Some (step_of c p i med order).
Proof.
  intros Hc (V & K & L & G) Hne. pose proof Hready as (Hr & Hi & Hq & Hsp & Hl & HD & He). destruct (predefined_facts _ _ Hr) as (En & Hnm & _).
  unfold use_arima_errors_with_plots. rewrite (clusters_ok (fun _ _ _ => Raise ValueError) (fun _ _ => ""%string) r d sc D dist Hnm He p ms) by (try assumption; (split; [ exact V | split; [ congruence | auto ] ])).
  rewrite (arima_errors_path_at c r oid et Hnm Hc Hoid), En.
  match goal with |- context [rows_and_pictures (flat_map ?h _) _] => set (g := h) end.
  exists (flat_map g (zrange 0 (c_k c))). split; [ reflexivity | ].
  assert (Hlen : forall i, In i (zrange 0 (c_k c)) -> length (g i) = s).
  { intros i Hi'. apply in_zrange in Hi'. unfold g. replace (i <? pk p)%Z with true by lia. apply map_length. }
  split. { rewrite (flat_map_len g s _ Hlen), zrange_length. f_equal. lia. }
  intros i j med order Hm Ho. assert (Hil : i < length ms) by (apply nth_error_Some; congruence). assert (Hj : j < s) by (apply nth_error_Some; congruence).
  rewrite (flat_map_nth g s _ _ Hlen). replace ((i * s + j) / s) with i by (rewrite Nat.add_comm, Nat.div_add, Nat.div_small by lia; lia).
  replace ((i * s + j) mod s) with j by (rewrite Nat.add_comm, Nat.mod_add, Nat.mod_small by lia; lia).
  rewrite zrange_nth by lia. rewrite Z.add_0_l. unfold g. replace (Z.of_nat i <? pk p)%Z with true by lia. rewrite nth_error_map, Ho. cbn [option_map]. f_equal.
  rewrite (getitem_in _ i (HRegion ("cluster" ++ str_int (Z.of_nat i)) (TCluster spt p (Z.of_nat i)) (nth_error ms i) None))
    by (rewrite nth_error_map, nth_error_seq, (proj2 (Nat.ltb_lt _ _) Hil); reflexivity).
  cbn [bind h_own h_region h_name]. rewrite Hm. cbn [bind]. rewrite (arima_plot_path_at c r oid et i order Hnm Hc Hoid), En. reflexivity.
Qed.

(** the analyses before number [n] are made, and their medoids have an order *)
Definition plots_before (c : cmeta) (p : crisp) (ms : list point) (n : nat) : Prop :=
  forall i j med order, nth_error ms i = Some med -> nth_error orders j = Some order -> i * s + j < n ->
    made_and_drawn c p i med order /\ exists shown, reported order_of (mo order med) = Ok shown.

Lemma index_split (ms : list point) a : a < length ms * s -> exists i j med order, nth_error ms i = Some med /\ nth_error orders j = Some order /\ a = i * s + j.
Proof.
  intros Ha. assert (Hs : s <> 0) by lia. assert (Hi : a / s < length ms) by (apply Nat.div_lt_upper_bound; lia). pose proof (Nat.mod_upper_bound a s Hs) as Hj.
  destruct (nth_error ms (a / s)) as [ med | ] eqn:Em; [ | apply nth_error_None in Em; lia ]. destruct (nth_error orders (a mod s)) as [ order | ] eqn:Eo; [ | apply nth_error_None in Eo; lia ].
  exists (a / s), (a mod s), med, order. repeat split; try assumption. rewrite Nat.mul_comm. apply Nat.div_mod, Hs.
Qed.
Lemma index_unique i j i' j' : j < s -> j' < s -> i * s + j = i' * s + j' -> i = i' /\ j = j'.
Proof. intros Hj Hj' E. assert (i = i') by nia. subst. lia. Qed.

(** the rows and pictures before number [n] *)
Lemma plots_prefix c p ms n steps : with_medoids x y (c_k c) p ms -> n <= length ms * s -> length steps = length ms * s ->
  (forall i j med order, nth_error ms i = Some med -> nth_error orders j = Some order -> nth_error steps (i * s + j) = Some (step_of c p i med order)) ->
  plots_before c p ms n ->
  exists rps, steps = (map drawn rps ++ skipn n steps)%list /\ length rps = n /\
    orders_rows sqrt x y p ms orders mo fo err n (cluster_result_header :: map fst rps) /\
    orders_pictures order_of region c oid et x y p ms orders dist mo err n (map snd rps).
Proof.
  intros HW Hle Hlen Hst Hb. pose proof HW as (V & _).
  assert (Hstep : forall i j med order members, nth_error ms i = Some med -> nth_error orders j = Some order -> i * s + j < n -> cluster_points p x y (Z.of_nat i) members ->
    exists fe tf tc shown, error_summary sqrt members (fo order) (err order) med fe /\ reported order_of (mo order med) = Ok shown /\
      step_of c p i med order = drawn (cluster_result_row (Z.of_nat i) (cluster_len p (Z.of_nat i)) order (Experiment fe (without_model (mo order) members) tf tc),
        complete_picture members (dist med) (err order med) shown et (c_repr c) (Some (arima_picture_at region c oid et i order)))).
  { intros i j med order members Hi Hj Hlt Hm. destruct (Hb i j med order Hi Hj Hlt) as [ Hmade (shown & Hsh) ].
    destruct (drawn_result c p ms i med order members (arima_picture_at region c oid et i order) (c_repr c) HW Hi Hmade Hm) as (fe & tf & tc & Hfe & E).
    exists fe, tf, tc, shown. split; [ exact Hfe | ]. split; [ exact Hsh | ]. unfold step_of. rewrite E, Hsh. reflexivity. }
  destruct (split_drawn n steps) as (rps & L & E).
  { lia. }
  { intros a Ha. destruct (index_split ms a ltac:(lia)) as (i & j & med & order & Hi & Hj & ->). rewrite (Hst _ _ _ _ Hi Hj).
    destruct (Hstep i j med order _ Hi Hj Ha (cluster_members_ok p x y _ V)) as (fe & tf & tc & shown & _ & _ & ->). eauto. }
  assert (Hat : forall i j med order members, nth_error ms i = Some med -> nth_error orders j = Some order -> i * s + j < n -> cluster_points p x y (Z.of_nat i) members ->
    exists fe tf tc shown, error_summary sqrt members (fo order) (err order) med fe /\ reported order_of (mo order med) = Ok shown /\
      nth_error rps (i * s + j) = Some (cluster_result_row (Z.of_nat i) (cluster_len p (Z.of_nat i)) order (Experiment fe (without_model (mo order) members) tf tc),
        complete_picture members (dist med) (err order med) shown et (c_repr c) (Some (arima_picture_at region c oid et i order)))).
  { intros i j med order members Hi Hj Hlt Hm. destruct (Hstep i j med order members Hi Hj Hlt Hm) as (fe & tf & tc & shown & Hfe & Hsh & Es). exists fe, tf, tc, shown. split; [ exact Hfe | ]. split; [ exact Hsh | ].
    pose proof (Hst _ _ _ _ Hi Hj) as Q. rewrite E, nth_error_app1 in Q by (rewrite map_length; lia). rewrite nth_error_map in Q.
    destruct (nth_error rps (i * s + j)) as [ [ r1 r2 ] | ]; [ | discriminate ]. cbn [option_map] in Q. rewrite Es in Q. unfold drawn in Q. cbn [fst snd] in Q. congruence. }
  exists rps. split; [ exact E | ]. split; [ exact L | ]. split.
  - exists (map fst rps). split; [ reflexivity | ]. split; [ rewrite map_length; exact L | ]. intros i j med pp dd qq members Hi Hj Hm Hlt.
    destruct (Hat i j med (pp, dd, qq) members Hi Hj Hlt Hm) as (fe & tf & tc & shown & Hfe & _ & Er). exists fe, tf, tc. split; [ exact Hfe | ].
    change (@List.length (Z * Z * Z) orders) with s. rewrite nth_error_map, Er. cbn [option_map fst cluster_result_row ex_failed ex_forecast_time ex_compute_time ex_errors].
    replace (cluster_len p (Z.of_nat i)) with (length members); [ reflexivity | ].
    rewrite (cluster_len_spec p x y _ V), (cluster_members _ _ _ _ _ V Hm). f_equal. apply filter_ext_in. intros pt Hin. apply in_grid_iff in Hin. apply (has_lab_label_of p _ _ pt _ V Hin).
  - split; [ rewrite map_length; exact L | ]. intros i j med order members Hi Hj Hm Hlt. destruct (Hat i j med order members Hi Hj Hlt Hm) as (fe & tf & tc & shown & _ & Hsh & Er).
    exists shown. split; [ exact Hsh | ]. change (@List.length (Z * Z * Z) orders) with s. rewrite nth_error_map, Er. reflexivity.
Qed.

(** all analyses are made and drawn *)
Lemma plots_all c p ms : has_char "/" (mode_of c) = false -> with_medoids x y (c_k c) p ms -> ms <> [] -> plots_before c p ms (length ms * s) ->
  exists file pictures, use c p ms = ([(arima_errors_at region c oid et, file)], None, pictures) /\
    orders_table sqrt x y p ms orders mo fo err file /\ orders_pictures order_of region c oid et x y p ms orders dist mo err (length ms * s) pictures.
Proof.
  intros Hc HW Hne Hb. destruct (steps_of c p ms Hc HW Hne) as (steps & Eu & L & Hst).
  destruct (plots_prefix c p ms (length ms * s) steps HW (le_n _) L Hst Hb) as (rps & E & Lr & Hrows & Hpics). rewrite Eu, E, rows_prefix.
  rewrite skipn_all2 by lia. cbn [rows_and_pictures app]. rewrite app_nil_r. eexists _, _. split; [ reflexivity | ]. split; [ exact Hrows | exact Hpics ].
Qed.
(** analysis number [n] is made, but its medoid has no order *)
Lemma plots_stop c p ms i j med order e : has_char "/" (mode_of c) = false -> with_medoids x y (c_k c) p ms -> nth_error ms i = Some med -> nth_error orders j = Some order ->
  plots_before c p ms (i * s + j) -> made_and_drawn c p i med order -> reported order_of (mo order med) = Raise e ->
  exists file pictures members, cluster_points p x y (Z.of_nat i) members /\
    use c p ms = ([(arima_errors_at region c oid et, file)], Some e, (pictures ++ [[Points (map (dist med) members) (map (err order med) members)]])%list) /\
    orders_rows sqrt x y p ms orders mo fo err (i * s + j + 1) file /\ orders_pictures order_of region c oid et x y p ms orders dist mo err (i * s + j) pictures.
Proof.
  intros Hc HW Hi Hj Hb Hmade Hno. destruct (steps_of c p ms Hc HW ltac:(intros ->; destruct i; discriminate)) as (steps & Eu & L & Hst).
  assert (Hil : i < length ms) by (apply nth_error_Some; congruence). assert (Hjs : j < s) by (apply nth_error_Some; congruence).
  destruct (plots_prefix c p ms (i * s + j) steps HW ltac:(nia) L Hst Hb) as (rps & E & Lr & (rows & Er & Lrow & Hrows) & Hpics). injection Er as <-.
  pose proof HW as (V & _). set (members := filter (has_lab p (Z.of_nat i)) (grid x y)). assert (Hm : cluster_points p x y (Z.of_nat i) members) by apply (cluster_members_ok p x y _ V).
  destruct (drawn_result c p ms i med order members (arima_picture_at region c oid et i order) (c_repr c) HW Hi Hmade Hm) as (fe & tf & tc & Hfe & Eran). rewrite Hno in Eran.
  destruct (skipn_nth _ _ _ (Hst _ _ _ _ Hi Hj)) as (rest & Erest). rewrite Erest in E.
  rewrite Eu, E, rows_prefix. unfold step_of. rewrite Eran. cbn [bind fst snd rows_and_pictures]. eexists _, _, members. split; [ exact Hm | ]. split; [ reflexivity | ]. split; [ | exact Hpics ].
  eexists. split; [ reflexivity | ]. rewrite app_length, map_length, Lr. split; [ cbn; lia | ].
  intros i' j' med' pp dd qq members' Hi' Hj' Hm' Hlt. change (@List.length (Z * Z * Z) orders) with s in *. change (@nth_error pdq orders j' = Some (pp, dd, qq)) in Hj'.
  assert (Hjs' : j' < s) by (apply nth_error_Some; congruence).
  destruct (Nat.eq_dec (i' * s + j') (i * s + j)) as [ Eij | Nij ].
  - destruct (index_unique _ _ _ _ Hjs' Hjs Eij) as [ -> -> ]. rewrite Hi in Hi'. injection Hi' as <-. rewrite Hj in Hj'. injection Hj' as ->.
    assert (members' = members) by (unfold members; apply cluster_members; assumption). subst members'.
    exists fe, tf, tc. split; [ exact Hfe | ]. rewrite nth_error_app2, map_length, Lr, Nat.sub_diag by (rewrite map_length; lia).
    cbn [nth_error cluster_result_row ex_failed ex_forecast_time ex_compute_time ex_errors].
    replace (cluster_len p (Z.of_nat i)) with (length members); [ reflexivity | ].
    rewrite (cluster_len_spec p x y _ V). unfold members. f_equal. apply filter_ext_in. intros pt Hin. apply in_grid_iff in Hin. apply (has_lab_label_of p _ _ pt _ V Hin).
  - destruct (Hrows i' j' med' pp dd qq members' Hi' Hj' Hm' ltac:(change (@List.length (Z * Z * Z) orders) with s; lia)) as (fe' & tf' & tc' & Hfe' & Er'). exists fe', tf', tc'. split; [ exact Hfe' | ].
    change (@List.length (Z * Z * Z) orders) with s in *. rewrite nth_error_app1 by (rewrite map_length; lia). exact Er'.
Qed.
End Plots.

(* ---------------------------------------------------------------- C136 *)
(** C136: with --plots, when the model of each medoid has an order, the program writes the same tables and partitions as without pictures, and
    saves for each cluster and each order one complete picture: a point for each point of the cluster, with its distance to the medoid and the
    error there of the forecast of the medoid's model. *)
Theorem C136_written : forall M choice env create_instance format_coverage fit forecast sqrt workers junk order_of ran (w : world M) t region r d sc D dist experiment oid ty sid suite results
    orders et func (mo : pdq -> point -> option M) fo err,
  let kind := arima_kind fit forecast in
  ready env create_instance region r d sc D dist -> with_orders experiment oid ty sid -> get_suite ty sid = Ok suite -> arima_suite_by_name oid = Ok orders ->
  outcomes choice env (w_pickles w) r d sc D suite results ->
  8 <= a3t d -> workers_ok workers -> get_error_func et = Ok func ->
  each suite results (fun c p ms => forall i med order, nth_error ms i = Some med -> In order orders ->
    label_at p med (Z.of_nat i) /\
    (forall members, cluster_points p (a3x d) (a3y d) (Z.of_nat i) members -> forecasts kind (Some order) func d sc 8 members (mo order) (fo order) (err order)) /\
    (forall file desc, analyzed_and_drawn kind sqrt (full2 (a3x d) (a3y d) (Some (Some order))) workers junk env order_of (Some (dmeta_of r)) (DObj PlainDTW (Some D) false)
       (TCluster (qregion d sc) p (Z.of_nat i)) med et file desc (ran c (Z.of_nat i) (TCluster (qregion d sc) p (Z.of_nat i)) med order file desc)) /\
    exists shown, reported order_of (mo order med) = Ok shown) ->
  exists w' t', arima_error_analysis_with_plots choice env create_instance format_coverage ran w t region experiment et = (w', t', None) /\
    tables_left t t' (fun c => arima_errors_at region c oid et) suite results (fun _ p ms file => orders_table sqrt (a3x d) (a3y d) p ms orders mo fo err file) /\
    each suite results (fun c p ms => exists pictures, snd (use_arima_errors_with_plots r (qregion d sc) oid orders et ran c p ms) = pictures /\
      orders_pictures order_of region c oid et (a3x d) (a3y d) p ms orders dist mo err (length ms * length orders) pictures) /\
    partitions_left format_coverage w w' region suite results.
Proof.
  intros M choice env create fc fit forecast sqrt workers junk order_of ran w t region r d sc D dist experiment oid ty sid suite results orders et func mo fo err kind Hready Hx Hs Ho Hout Hn Hw Hf Hall.
  pose proof Hready as (Hr & Hi & _). destruct (orders_metadata _ _ _ _ Hx) as (e & Ee & E1 & E2 & E3 & E4).
  unfold arima_error_analysis_with_plots. rewrite Hr. cbn [bind]. rewrite Ee. cbn [bind]. rewrite E1, E2, E3, E4, Hs, Ho. cbn [bind]. rewrite Hi. cbn [bind py_assert String.eqb Ascii.eqb Bool.eqb].
  rewrite (load_ready env create region r d sc D dist Hready).
  destruct (suite_clean _ _ _ Hs) as (_ & _ & Cm). pose proof (forall2_length _ _ _ Hout) as Hlen.
  assert (Huse : each suite results (fun c p ms => exists file pictures, use_arima_errors_with_plots r (qregion d sc) oid orders et ran c p ms = ([(arima_errors_at region c oid et, file)], None, pictures) /\
     orders_table sqrt (a3x d) (a3y d) p ms orders mo fo err file /\ orders_pictures order_of region c oid et (a3x d) (a3y d) p ms orders dist mo err (length ms * length orders) pictures)).
  { intros i c p ms A B. destruct (medoids_nonempty _ _ _ _ _ _ _ ty sid suite results [] i c p ms ltac:(rewrite app_nil_r; exact Hs) Hout A B) as (Hc & HW & Hne).
    apply (plots_all fit forecast sqrt workers junk order_of ran env create region r d sc D dist Hready et func Hn Hw Hf oid (orders_no_slash _ _ _ _ Hx) orders mo fo err c p ms Hc HW Hne).
    intros i' j' med' order' Hi' Hj' _. destruct (Hall i c p ms A B i' med' order' Hi' (nth_error_In _ _ Hj')) as (Q1 & Q2 & Q3 & Q4). split; [ split; [ exact Q1 | split; [ exact Q2 | exact Q3 ] ] | exact Q4 ]. }
  destruct (use_each_single (fun c p ms _ => fst (use_arima_errors_with_plots r (qregion d sc) oid orders et ran c p ms)) D (fun c => arima_errors_at region c oid et) suite results
     (fun _ p ms file => orders_table sqrt (a3x d) (a3y d) p ms orders mo fo err file)) as [ U1 U2 ].
  { intros i c p ms A B. destruct (Huse i c p ms A B) as (file & pictures & E & T & _). exists file. rewrite E. auto. }
  destruct (loaded_all choice env create fc region r d sc D dist Hready (fun c p ms _ => fst (use_arima_errors_with_plots r (qregion d sc) oid orders et ran c p ms)) w t ty sid suite results Hs Hout U1) as (w' & E & L).
  exists w'. eexists. split; [ exact E | ]. split; [ | split; [ | exact L ] ].
  - eapply (all_files_single D (fun c p ms _ => fst (use_arima_errors_with_plots r (qregion d sc) oid orders et ran c p ms)) _ _ t ty sid suite []); [ rewrite app_nil_r; exact Hs | exact Hlen | | exact U2 ].
    rewrite app_nil_r. intros c c' A B Ec. apply (clustering_at_inj region c c' _ _ (proj1 (Cm c A)) (proj1 (Cm c' B)) Ec).
  - intros i c p ms A B. destruct (Huse i c p ms A B) as (file & pictures & E' & _ & Hp). exists pictures. rewrite E'. auto.
Qed.
Print Assumptions C136_written.

(** C136: with --plots, the first medoid whose model has no order ends the program: the table of its clustering has the rows up to and including
    that of this medoid, the pictures before it are complete, the points of its own picture are drawn but not saved.  The tables of the
    clusterings before are complete and stay. *)
Theorem C136_stops : forall M choice env create_instance format_coverage fit forecast sqrt workers junk order_of ran (w : world M) t region r d sc D dist experiment oid ty sid
    before results c after p ms i j med order orders et func (mo : pdq -> point -> option M) fo err e,
  let kind := arima_kind fit forecast in
  let n := i * length orders + j in
  let made c p i med order := label_at p med (Z.of_nat i) /\
    (forall members, cluster_points p (a3x d) (a3y d) (Z.of_nat i) members -> forecasts kind (Some order) func d sc 8 members (mo order) (fo order) (err order)) /\
    (forall file desc, analyzed_and_drawn kind sqrt (full2 (a3x d) (a3y d) (Some (Some order))) workers junk env order_of (Some (dmeta_of r)) (DObj PlainDTW (Some D) false)
       (TCluster (qregion d sc) p (Z.of_nat i)) med et file desc (ran c (Z.of_nat i) (TCluster (qregion d sc) p (Z.of_nat i)) med order file desc)) in
  ready env create_instance region r d sc D dist -> with_orders experiment oid ty sid -> get_suite ty sid = Ok (before ++ c :: after)%list -> arima_suite_by_name oid = Ok orders ->
  length before = length results -> outcomes choice env (w_pickles w) r d sc D (before ++ [c]) (results ++ [(p, ms)]) ->
  8 <= a3t d -> workers_ok workers -> get_error_func et = Ok func ->
  each before results (fun c p ms => forall i med order, nth_error ms i = Some med -> In order orders -> made c p i med order /\ exists shown, reported order_of (mo order med) = Ok shown) ->
  (forall i' j' med' order', nth_error ms i' = Some med' -> nth_error orders j' = Some order' -> i' * length orders + j' < n ->
     made c p i' med' order' /\ exists shown, reported order_of (mo order' med') = Ok shown) ->
  nth_error ms i = Some med -> nth_error orders j = Some order -> made c p i med order -> reported order_of (mo order med) = Raise e ->
  exists w' t' file pictures members, arima_error_analysis_with_plots choice env create_instance format_coverage ran w t region experiment et = (w', t', Some e) /\
    each before results (fun c' p' ms' => exists file, t' (arima_errors_at region c' oid et) = Some file /\ orders_table sqrt (a3x d) (a3y d) p' ms' orders mo fo err file) /\
    t' (arima_errors_at region c oid et) = Some file /\ orders_rows sqrt (a3x d) (a3y d) p ms orders mo fo err (n + 1) file /\
    (forall q, q <> arima_errors_at region c oid et -> each before results (fun c' _ _ => q <> arima_errors_at region c' oid et) -> t' q = t q) /\
    orders_pictures order_of region c oid et (a3x d) (a3y d) p ms orders dist mo err n pictures /\ cluster_points p (a3x d) (a3y d) (Z.of_nat i) members /\
    snd (use_arima_errors_with_plots r (qregion d sc) oid orders et ran c p ms) = (pictures ++ [[Points (map (dist med) members) (map (err order med) members)]])%list /\
    partitions_left format_coverage w w' region (before ++ [c]) (results ++ [(p, ms)]).
Proof.
  intros M choice env create fc fit forecast sqrt workers junk order_of ran w t region r d sc D dist experiment oid ty sid before results c after p ms i j med order orders et func mo fo err e kind n made
    Hready Hx Hs Ho Hlen Hout Hn Hw Hf Hall Hmade Hi Hj Hm Hno.
  pose proof Hready as (Hr & Hin & _). destruct (orders_metadata _ _ _ _ Hx) as (e' & Ee & E1 & E2 & E3 & E4).
  unfold arima_error_analysis_with_plots. rewrite Hr. cbn [bind]. rewrite Ee. cbn [bind]. rewrite E1, E2, E3, E4, Hs, Ho. cbn [bind]. rewrite Hin. cbn [bind py_assert String.eqb Ascii.eqb Bool.eqb].
  rewrite (load_ready env create region r d sc D dist Hready). destruct (outcomes_before _ _ _ _ _ _ _ _ _ _ _ _ Hlen Hout) as [ Hob HW ]. destruct (suite_clean _ _ _ Hs) as (_ & _ & Cm).
  destruct (plots_stop fit forecast sqrt workers junk order_of ran env create region r d sc D dist Hready et func Hn Hw Hf oid (orders_no_slash _ _ _ _ Hx) orders mo fo err c p ms i j med order e)
    as (file & pictures & members & Hmem & Euse & Hrows & Hpics).
  { apply Cm, in_or_app. right. left. reflexivity. } { exact HW. } { exact Hi. } { exact Hj. } { exact Hmade. } { exact Hm. } { exact Hno. }
  destruct (fails_single choice env create fc region r d sc D dist (fun c p ms _ => fst (use_arima_errors_with_plots r (qregion d sc) oid orders et ran c p ms))
     (fun c => "arima-" ++ oid ++ "/error-analysis__" ++ c_repr c ++ "__" ++ oid ++ "__" ++ et ++ ".csv")%string
     (fun _ p ms file => orders_table sqrt (a3x d) (a3y d) p ms orders mo fo err file) w t ty sid before results c after p ms file e Hready Hs Hlen Hout) as (w' & t' & E & T1 & T2 & T3 & L).
  { intros i' c' p' ms' A B. destruct (medoids_nonempty _ _ _ _ _ _ _ ty sid before results _ i' c' p' ms' Hs Hob A B) as (Hc & HW' & Hne).
    destruct (plots_all fit forecast sqrt workers junk order_of ran env create region r d sc D dist Hready et func Hn Hw Hf oid (orders_no_slash _ _ _ _ Hx) orders mo fo err c' p' ms' Hc HW' Hne)
      as (file' & pictures' & E' & T' & _).
    { intros i1 j1 med1 order1 Hi1 Hj1 _. apply (Hall i' c' p' ms' A B i1 med1 order1 Hi1 (nth_error_In _ _ Hj1)). }
    exists file'. rewrite E'. auto. }
  { rewrite Euse. reflexivity. }
  exists w', t', file, pictures, members. split; [ exact E | ]. split; [ exact T1 | ]. split; [ exact T2 | ]. split; [ exact Hrows | ]. split; [ exact T3 | ]. split; [ exact Hpics | ]. split; [ exact Hmem | ].
  split; [ rewrite Euse; reflexivity | exact L ].
Qed.
Print Assumptions C136_stops.

(* ---------------------------------------------------------------- a concrete case: saved partitions, known distances *)
Lemma drawn_made {P M} (kind : model_kind P M) sqrt workers junk env (order_of : M -> res pdq) (md : option dmeta) D (dist : point -> point -> fnum) (d : arr3 fnum) sc p i ap et func mo fo err med tf tc file desc :
  let members := filter (has_lab p i) (grid (a3x d) (a3y d)) in
  qwf d sc -> valid_partition p (a3x d) (a3y d) -> 8 <= a3t d -> workers_ok workers -> get_error_func et = Ok func ->
  forecasts kind ap func d sc 8 members mo fo err -> In med members -> square (a3x d * a3y d) D ->
  (forall q pt, in_grid (a3x d) (a3y d) q -> in_grid (a3x d) (a3y d) pt -> entry D (index_of (a3y d) q) (index_of (a3y d) pt) = Some (dist q pt)) ->
  analyzed_and_drawn kind sqrt (full2 (a3x d) (a3y d) (Some ap)) workers junk env order_of md (DObj PlainDTW (Some D) false) (TCluster (qregion d sc) p i) med et file desc
    (Ok (Experiment (summary sqrt d (Some (p, i)) fo err med) (without_model mo members) tf tc,
         match reported order_of (mo med) with
         | Ok shown => (complete_picture members (dist med) (err med) shown et desc (Some file), None)
         | Raise e => ([Points (map (dist med) members) (map (err med) members)], Some e)
         end)).
Proof.
  intros members Hq Hv Hn Hw Hf Hfo Hmed HD He. pose proof Hfo as [ H1 H2 ].
  destruct (analysis_run kind sqrt workers junk d sc (Some (p, i)) ap 8 Hq Hv Hn et func Hf mo fo err H1 H2 med (Raise ValueError) new_analysis Hw Hmed) as (_ & (a' & Ha) & models & E & G).
  assert (Hmem : forall pt, In pt members <-> in_grid (a3x d) (a3y d) pt /\ label_at p pt i) by (intros pt; apply members_iff, Hv).
  destruct (C134_picture _ M kind sqrt workers junk env order_of md (DObj PlainDTW (Some D) false) D d sc p i members ap 8 et func mo fo err med _ a'
    Hq Hv (cluster_members_ok p _ _ i Hv) Hn Hf Hfo Hmed eq_refl HD Ha) as (dist' & Hdist & Hpic).
  assert (Ed : map dist' members = map (dist med) members).
  { apply map_ext_in. intros pt Hp. pose proof (Hdist pt Hp) as Q. rewrite He in Q by (apply Hmem; assumption). congruence. }
  exists (Ok (summary sqrt d (Some (p, i)) fo err med)), a', tf, tc. split; [ exact Ha | ]. cbn [bind]. change DEFAULT_FORECAST_LENGTH with 8. cbn [creg] in E. rewrite E. cbn [bind snd].
  rewrite Hpic. cbn [fst]. do 2 f_equal. unfold reported, complete_picture. rewrite Ed. reflexivity.
Qed.
Definition ex36_partition (k : Z) : crisp := Crisp (mk2 7 10 (map (fun z => Z.modulo (z + 1) k) (zrange 0 70))) k.
Lemma ex36_valid k : (k = 2 \/ k = 3)%Z -> valid_partition (ex36_partition k) 7 10.
Proof.
  intros Hk. split; [ reflexivity | ]. split; [ reflexivity | ]. split; [ reflexivity | ]. split.
  - intros [ a b ] l Hg Hlab. unfold label_at, get2 in Hlab. cbn [labels ex36_partition a2x a2y a2d fst snd pk] in *.
    destruct (norm_index 7 a) as [ i | ]; [ | discriminate ]. destruct (norm_index 10 b) as [ j | ]; [ | discriminate ].
    match type of Hlab with context [nth_error ?L ?n] => destruct (nth_error L n) as [ v | ] eqn:E; [ | discriminate ] end. injection Hlab as <-.
    apply nth_error_In, in_map_iff in E. destruct E as (z & <- & _). apply Z.mod_pos_bound. lia.
  - destruct Hk as [ -> | -> ]; [ exists (0, 0)%Z | exists (0, 1)%Z ]; (split; [ split; cbn; lia | reflexivity ]).
Qed.
Definition ex36_ran (cluster : stregion fnum) (med : point) (order : pdq) (file desc : string) : res (experiment * picture) :=
  match cluster with
  | TCluster _ p i =>
      let members := filter (has_lab p i) (grid 7 10) in
      Ok (Experiment (summary (fun v => v) ex27_d (Some (p, i)) ex27_forecasts ex27_error med) (without_model ex27_model members) (Fin 1) (Fin 2),
          match reported (fun _ => Ok (2, 0, 1)%Z) (ex27_model med) with
          | Ok shown => (complete_picture members (fun pt => Fin (ex7_dist med pt)) (ex27_error med) shown "MSE" desc (Some file), None)
          | Raise e => ([Points (map (fun pt => Fin (ex7_dist med pt)) members) (map (ex27_error med) members)], Some e)
          end)
  | _ => Raise ValueError
  end.
Lemma ex36_made r (order : pdq) p i med : ready ex7_env (fun _ => Ok (qregion ex27_d None)) "nordeste_small_2015_2015_1spd" r ex27_d None ex7_matrix (fun q pt => Fin (ex7_dist q pt)) ->
  valid_partition p 7 10 -> in_grid 7 10 med -> label_at p med (Z.of_nat i) ->
  label_at p med (Z.of_nat i) /\
  (forall members, cluster_points p 7 10 (Z.of_nat i) members -> forecasts (arima_kind ex27_fit ex25_forecast) (Some order) mse ex27_d None 8 members ex27_model ex27_forecasts ex27_error) /\
  (forall file desc, analyzed_and_drawn (arima_kind ex27_fit ex25_forecast) (fun v => v) (full2 7 10 (Some (Some order))) (Some 4%Z) (Fin 7) ex7_env (fun _ => Ok (2, 0, 1)%Z) (Some (dmeta_of r))
     (DObj PlainDTW (Some ex7_matrix) false) (TCluster (qregion ex27_d None) p (Z.of_nat i)) med "MSE" file desc (ex36_ran (TCluster (qregion ex27_d None) p (Z.of_nat i)) med order file desc)).
Proof.
  intros (_ & _ & Hq & _ & _ & HD & He) V Hg Hl. split; [ exact Hl | ].
  assert (K : forall members, cluster_points p 7 10 (Z.of_nat i) members -> forecasts (arima_kind ex27_fit ex25_forecast) (Some order) mse ex27_d None 8 members ex27_model ex27_forecasts ex27_error).
  { intros members Hm. apply ex27_known; try reflexivity.
    - intros v s. destruct v as [ | | | [ [ | ? | ? ] [ ? | ? | ] ] ]; reflexivity.
    - apply Forall_forall. intros pt Hin. rewrite (cluster_members _ _ _ _ _ V Hm) in Hin. apply (members_iff p 7 10 _ V) in Hin. apply Hin. }
  split; [ exact K | ]. intros file desc. unfold ex36_ran.
  apply (drawn_made (arima_kind ex27_fit ex25_forecast) (fun v => v) (Some 4%Z) (Fin 7) ex7_env (fun _ => Ok (2, 0, 1)%Z) (Some (dmeta_of r)) ex7_matrix (fun q pt => Fin (ex7_dist q pt)) ex27_d None p (Z.of_nat i) (Some order) "MSE" mse).
  - exact Hq.
  - exact V.
  - cbn. lia.
  - cbn. lia.
  - reflexivity.
  - apply K, cluster_members_ok, V.
  - apply (members_iff p 7 10 _ V). auto.
  - exact HD.
  - exact He.
Qed.
Definition ex36_medoids (k : Z) : list point := if (k =? 2)%Z then [(3, 5); (3, 4)]%Z else [(3, 5); (3, 3); (3, 4)]%Z.
Definition ex36_bad (k : Z) : list point := if (k =? 2)%Z then [(3, 5); (0, 0)]%Z else [(3, 5); (0, 0); (3, 4)]%Z.
Definition ex36_saved (medoids : Z -> list point) (suite : list cmeta) : fsys fnum :=
  fun q => match find (fun c => String.eqb (saved_at "nordeste_small_2015_2015_1spd" c) q) suite with
           | Some c => Some (FPartition (ex36_partition (c_k c), Some (medoids (c_k c))))
           | None => None
           end.
Lemma ex36_outcomes medoids r suite : ready ex7_env (fun _ => Ok (qregion ex27_d None)) "nordeste_small_2015_2015_1spd" r ex27_d None ex7_matrix (fun q pt => Fin (ex7_dist q pt)) ->
  get_suite "kmedoids" "quick" = Ok suite -> medoids = ex36_medoids \/ medoids = ex36_bad ->
  outcomes ex7_choice ex7_env (ex36_saved medoids suite) r ex27_d None ex7_matrix suite (map (fun c => (ex36_partition (c_k c), medoids (c_k c))) suite) /\
  Forall (fun c => c_k c = 2 \/ c_k c = 3)%Z suite.
Proof.
  intros Hready Hs Hm. assert (Hk : Forall (fun c => c_k c = 2 \/ c_k c = 3)%Z suite) by (vm_compute in Hs; injection Hs as <-; repeat constructor; cbn; lia).
  split; [ | exact Hk ]. destruct (predefined_facts _ _ (proj1 Hready)) as (En & _).
  assert (Hat : Forall (fun c => ex36_saved medoids suite (saved_at "nordeste_small_2015_2015_1spd" c) = Some (FPartition (ex36_partition (c_k c), Some (medoids (c_k c))))) suite).
  { unfold ex36_saved. vm_compute in Hs. injection Hs as <-. repeat constructor; reflexivity. }
  unfold outcomes. revert Hk Hat. generalize (ex36_saved medoids suite). intros fs Hk Hat. clear Hs. induction suite as [ | c suite IH ]; [ constructor | ].
  inversion Hk as [ | ? ? Hk1 Hk2 ]; subst. inversion Hat as [ | ? ? Ha1 Ha2 ]; subst. cbn [map]. constructor; [ | apply IH; assumption ]. cbn [fst snd]. split.
  - unfold used. rewrite En, Ha1. reflexivity.
  - split; [ apply (ex36_valid _ Hk1) | ]. split; [ reflexivity | ]. destruct Hm as [ -> | -> ], Hk1 as [ -> | -> ]; (split; [ reflexivity | repeat constructor; cbn; lia ]).
Qed.
Lemma ex36_labels medoids k i med : (k = 2 \/ k = 3)%Z -> medoids = ex36_medoids \/ medoids = ex36_bad -> nth_error (medoids k) i = Some med ->
  in_grid 7 10 med /\ label_at (ex36_partition k) med (Z.of_nat i).
Proof.
  intros Hk Hm Hi. destruct Hm as [ -> | -> ], Hk as [ -> | -> ];
    (destruct i as [ | [ | [ | i ] ] ]; cbn in Hi; try discriminate Hi; try (injection Hi as <-; split; [ split; cbn; lia | reflexivity ]); destruct i; discriminate Hi).
Qed.
Definition ex36_world (medoids : Z -> list point) (suite : list cmeta) : world fnum := World (ex36_saved medoids suite) (fun _ => None) (fresh PlainDTW).
Definition ex36_orders : list pdq := [(2, 0, 1); (2, 0, 2)]%Z.
Example C136_ex : exists r suite w' t',
  get_suite "kmedoids" "quick" = Ok suite /\ length suite = 4 /\
  arima_error_analysis_with_plots ex7_choice ex7_env (fun _ => Ok (qregion ex27_d None)) (fun _ => "v"%string) (fun _ _ => ex36_ran) (ex36_world ex36_medoids suite) (fun _ => None)
    "nordeste_small_2015_2015_1spd" "arima_two_quick" "MSE" = (w', t', None) /\
  each suite (map (fun c => (ex36_partition (c_k c), ex36_medoids (c_k c))) suite) (fun c p ms => 2 <= length ms /\
    orders_pictures (fun _ => Ok (2, 0, 1)%Z) "nordeste_small_2015_2015_1spd" c "arima_two" "MSE" 7 10 p ms ex36_orders (fun q pt => Fin (ex7_dist q pt)) (fun _ => ex27_model) (fun _ => ex27_error)
      (length ms * 2) (snd (use_arima_errors_with_plots r (qregion ex27_d None) "arima_two" ex36_orders "MSE" (fun _ _ => ex36_ran) c p ms))).
Proof.
  destruct ex27_ready as [ r Hready ]. exists r. destruct (get_suite "kmedoids" "quick") as [ suite | ] eqn:Hs; [ | discriminate ]. exists suite.
  assert (Hlen : length suite = 4) by (vm_compute in Hs; injection Hs as <-; reflexivity).
  destruct (ex36_outcomes ex36_medoids r suite Hready Hs (or_introl eq_refl)) as [ Ho Hk ]. rewrite Forall_forall in Hk.
  assert (Hx : with_orders "arima_two_quick" "arima_two" "kmedoids" "quick") by (split; [ reflexivity | split; [ cbn; auto | split; reflexivity ] ]).
  destruct (C136_written fnum ex7_choice ex7_env (fun _ => Ok (qregion ex27_d None)) (fun _ => "v"%string) ex27_fit ex25_forecast (fun v => v) (Some 4%Z) (Fin 7) (fun _ => Ok (2, 0, 1)%Z) (fun _ _ => ex36_ran)
    (ex36_world ex36_medoids suite) (fun _ => None) _ r ex27_d None ex7_matrix _ _ _ _ _ suite _ ex36_orders "MSE" mse (fun _ => ex27_model) (fun _ => ex27_forecasts) (fun _ => ex27_error)
    Hready Hx Hs eq_refl Ho ltac:(cbn; lia) ltac:(cbn; lia) eq_refl) as (w' & t' & E & _ & Hp & _).
  - intros i c p ms A B j med order Hj _. rewrite nth_error_map, A in B. cbn [option_map] in B. injection B as <- <-. pose proof (Hk c (nth_error_In _ _ A)) as Hkc.
    destruct (ex36_labels ex36_medoids _ _ _ Hkc (or_introl eq_refl) Hj) as [ Hg Hl ].
    destruct (ex36_made r order (ex36_partition (c_k c)) j med Hready (ex36_valid _ Hkc) Hg Hl) as (Q1 & Q2 & Q3). split; [ exact Q1 | ]. split; [ exact Q2 | ]. split; [ exact Q3 | ].
    exists (2, 0, 1)%Z. clear - Hkc Hj. destruct Hkc as [ Ek | Ek ]; rewrite Ek in Hj; destruct j as [ | [ | [ | j ] ] ]; cbn in Hj; try discriminate Hj; try (injection Hj as <-; reflexivity); destruct j; discriminate Hj.
  - exists w', t'. split; [ reflexivity | ]. split; [ exact Hlen | ]. split; [ exact E | ].
    intros i c p ms A B. destruct (Hp i c p ms A B) as (pictures & <- & H). split; [ | exact H ].
    rewrite nth_error_map, A in B. cbn [option_map] in B. injection B as <- <-. destruct (Hk c (nth_error_In _ _ A)) as [ -> | -> ]; cbn; lia.
Qed.
(** the second medoid of the first clustering has no model: two complete pictures, three rows, an AttributeError *)
Example C136_stops_ex : exists r suite c after w' t' file pictures members,
  ready ex7_env (fun _ => Ok (qregion ex27_d None)) "nordeste_small_2015_2015_1spd" r ex27_d None ex7_matrix (fun q pt => Fin (ex7_dist q pt)) /\
  get_suite "kmedoids" "quick" = Ok suite /\ suite = c :: after /\ c_k c = 2%Z /\
  arima_error_analysis_with_plots ex7_choice ex7_env (fun _ => Ok (qregion ex27_d None)) (fun _ => "v"%string) (fun _ _ => ex36_ran) (ex36_world ex36_bad suite) (fun _ => None)
    "nordeste_small_2015_2015_1spd" "arima_two_quick" "MSE" = (w', t', Some AttributeError) /\
  t' (arima_errors_at "nordeste_small_2015_2015_1spd" c "arima_two" "MSE") = Some file /\
  orders_rows (fun v => v) 7 10 (ex36_partition 2) (ex36_bad 2) ex36_orders (fun _ => ex27_model) (fun _ => ex27_forecasts) (fun _ => ex27_error) 3 file /\
  orders_pictures (fun _ => Ok (2, 0, 1)%Z) "nordeste_small_2015_2015_1spd" c "arima_two" "MSE" 7 10 (ex36_partition 2) (ex36_bad 2) ex36_orders (fun q pt => Fin (ex7_dist q pt)) (fun _ => ex27_model)
    (fun _ => ex27_error) 2 pictures /\
  snd (use_arima_errors_with_plots r (qregion ex27_d None) "arima_two" ex36_orders "MSE" (fun _ _ => ex36_ran) c (ex36_partition 2) (ex36_bad 2)) =
    (pictures ++ [[Points (map (fun pt => Fin (ex7_dist (0, 0)%Z pt)) members) (map (ex27_error (0, 0)%Z) members)]])%list.
Proof.
  destruct ex27_ready as [ r Hready ]. exists r. destruct (get_suite "kmedoids" "quick") as [ suite | ] eqn:Hs; [ | discriminate ]. exists suite.
  assert (Hc : exists c after, suite = c :: after /\ c_k c = 2%Z) by (vm_compute in Hs; injection Hs as <-; eexists _, _; split; reflexivity).
  destruct Hc as (c & after & Es & Hck). exists c, after.
  destruct (ex36_outcomes ex36_bad r suite Hready Hs (or_intror eq_refl)) as [ Ho Hk ].
  assert (Hx : with_orders "arima_two_quick" "arima_two" "kmedoids" "quick") by (split; [ reflexivity | split; [ cbn; auto | split; reflexivity ] ]).
  assert (Ho1 : outcomes ex7_choice ex7_env (w_pickles (ex36_world ex36_bad suite)) r ex27_d None ex7_matrix ([] ++ [c])%list ([] ++ [(ex36_partition 2, ex36_bad 2)])%list).
  { cbn [w_pickles ex36_world app]. revert Ho. generalize (ex36_saved ex36_bad suite). rewrite Es. intros fs Ho. cbn [map] in Ho. rewrite Hck in Ho. inversion Ho; subst. constructor; [ assumption | constructor ]. }
  assert (Hm : forall j med (order : pdq), nth_error (ex36_bad 2) j = Some med -> _) by
    (intros j med order Hj; exact (ex36_made r order (ex36_partition 2) j med Hready (ex36_valid 2%Z (or_introl eq_refl))
       (proj1 (ex36_labels ex36_bad 2%Z j med (or_introl eq_refl) (or_intror eq_refl) Hj)) (proj2 (ex36_labels ex36_bad 2%Z j med (or_introl eq_refl) (or_intror eq_refl) Hj)))).
  destruct (C136_stops fnum ex7_choice ex7_env (fun _ => Ok (qregion ex27_d None)) (fun _ => "v"%string) ex27_fit ex25_forecast (fun v => v) (Some 4%Z) (Fin 7) (fun _ => Ok (2, 0, 1)%Z) (fun _ _ => ex36_ran)
    (ex36_world ex36_bad suite) (fun _ => None) _ r ex27_d None ex7_matrix _ _ _ _ _ [] [] c after (ex36_partition 2) (ex36_bad 2) 1 0 (0, 0)%Z (2, 0, 1)%Z ex36_orders "MSE" mse
    (fun _ => ex27_model) (fun _ => ex27_forecasts) (fun _ => ex27_error) AttributeError
    Hready Hx ltac:(rewrite Hs, Es; reflexivity) eq_refl eq_refl Ho1 ltac:(cbn; lia) ltac:(cbn; lia) eq_refl) as (w' & t' & file & pictures & members & E & _ & T & R & _ & Hp & _ & Hs' & _).
  - intros i ? ? ? A. destruct i; discriminate A.
  - intros i' j' med' order' Hi' Hj' Hlt. split; [ exact (Hm i' med' order' Hi') | ]. exists (2, 0, 1)%Z. cbn [length ex36_orders] in Hlt. assert (i' = 0) by lia. subst i'. cbn in Hi'. injection Hi' as <-. reflexivity.
  - reflexivity.
  - reflexivity.
  - exact (Hm 1 (0, 0)%Z (2, 0, 1)%Z eq_refl).
  - reflexivity.
  - exists w', t', file, pictures, members. split; [ exact Hready | ]. split; [ reflexivity | ]. split; [ exact Es | ]. split; [ exact Hck | ]. split; [ exact E | ]. split; [ exact T | ]. split; [ exact R | ]. split; [ exact Hp | exact Hs' ].
Qed.
(** C136: one would expect --plots to add pictures and nothing else.  This is false: when the model of a medoid could not be fitted, the table is
    complete without --plots (the failed models are counted in it), and with --plots the program ends before the rest of the table is written. *)
Theorem C136_same_tables_refuted : ~ (forall M choice env create_instance format_coverage fit forecast sqrt workers junk order_of plain ran (w : world M) t region r d sc D dist experiment oid ty sid suite
    results orders et func (mo : pdq -> point -> option M) fo err,
  let kind := arima_kind fit forecast in
  ready env create_instance region r d sc D dist -> with_orders experiment oid ty sid -> get_suite ty sid = Ok suite -> arima_suite_by_name oid = Ok orders ->
  outcomes choice env (w_pickles w) r d sc D suite results ->
  8 <= a3t d -> workers_ok workers -> get_error_func et = Ok func ->
  (forall c i cluster med order file desc, plain c i cluster med order = (z <- ran c i cluster med order file desc ;; Ok (fst z))) ->
  each suite results (fun c p ms => forall i med order, nth_error ms i = Some med -> In order orders ->
    label_at p med (Z.of_nat i) /\
    (forall members, cluster_points p (a3x d) (a3y d) (Z.of_nat i) members -> forecasts kind (Some order) func d sc 8 members (mo order) (fo order) (err order)) /\
    (forall file desc, analyzed_and_drawn kind sqrt (full2 (a3x d) (a3y d) (Some (Some order))) workers junk env order_of (Some (dmeta_of r)) (DObj PlainDTW (Some D) false)
       (TCluster (qregion d sc) p (Z.of_nat i)) med et file desc (ran c (Z.of_nat i) (TCluster (qregion d sc) p (Z.of_nat i)) med order file desc))) ->
  forall q, snd (fst (arima_error_analysis_with_plots choice env create_instance format_coverage ran w t region experiment et)) q =
            snd (fst (arima_error_analysis choice env create_instance format_coverage plain w t region experiment et)) q).
Proof.
  intros H. destruct C136_stops_ex as (r & suite & c & after & w' & t' & file & pictures & members & Hready & Hs & Es & Hck & E & T & (rows & Ef & Lf & _) & _).
  destruct (ex36_outcomes ex36_bad r suite Hready Hs (or_intror eq_refl)) as [ Ho Hk ]. rewrite Forall_forall in Hk.
  assert (Hx : with_orders "arima_two_quick" "arima_two" "kmedoids" "quick") by (split; [ reflexivity | split; [ cbn; auto | split; reflexivity ] ]).
  assert (Hm : forall c0 j med (order : pdq), In c0 suite -> nth_error (ex36_bad (c_k c0)) j = Some med -> valid_partition (ex36_partition (c_k c0)) 7 10 /\ in_grid 7 10 med /\ label_at (ex36_partition (c_k c0)) med (Z.of_nat j)).
  { intros c0 j med order Hin Hj. split; [ apply ex36_valid, Hk, Hin | ]. apply (ex36_labels ex36_bad _ _ _ (Hk c0 Hin) (or_intror eq_refl) Hj). }
  destruct (C128_written fnum ex7_choice ex7_env (fun _ => Ok (qregion ex27_d None)) (fun _ => "v"%string) ex27_fit ex25_forecast (fun v => v) (Some 4%Z) (Fin 7) (fun _ _ cluster med _ => ex27_ran cluster med)
    (ex36_world ex36_bad suite) (fun _ => None) _ r ex27_d None ex7_matrix _ _ _ _ _ suite _ ex36_orders "MSE" mse (fun _ => ex27_model) (fun _ => ex27_forecasts) (fun _ => ex27_error)
    Hready Hx Hs eq_refl Ho ltac:(cbn; lia) ltac:(cbn; lia) eq_refl) as (w2 & t2 & E2 & [ T2 _ ] & _).
  { intros i c0 p ms A B j med order Hj _. rewrite nth_error_map, A in B. cbn [option_map] in B. injection B as <- <-. destruct (Hm c0 j med order (nth_error_In _ _ A) Hj) as (V & Hg & Hl).
    apply (ex27_made (arima_kind ex27_fit ex25_forecast) (Some order) _ j med V Hg Hl); try reflexivity.
    intros v s. destruct v as [ | | | [ [ | ? | ? ] [ ? | ? | ] ] ]; reflexivity. }
  destruct (T2 0 c (ex36_partition 2) (ex36_bad 2)) as (file2 & F2 & (rows2 & Ef2 & Lf2 & _)).
  { rewrite Es. reflexivity. } { rewrite Es. cbn [map nth_error]. rewrite Hck. reflexivity. }
  specialize (H fnum ex7_choice ex7_env (fun _ => Ok (qregion ex27_d None)) (fun _ => "v"%string) ex27_fit ex25_forecast (fun v => v) (Some 4%Z) (Fin 7) (fun _ => Ok (2, 0, 1)%Z)
    (fun _ _ cluster med _ => ex27_ran cluster med) (fun _ _ => ex36_ran)
    (ex36_world ex36_bad suite) (fun _ => None) _ r ex27_d None ex7_matrix _ _ _ _ _ suite _ ex36_orders "MSE"%string mse (fun _ => ex27_model) (fun _ => ex27_forecasts) (fun _ => ex27_error)
    Hready Hx Hs eq_refl Ho ltac:(cbn; lia) ltac:(cbn; lia) eq_refl).
  assert (Q : Some file = Some file2).
  { rewrite <- T, <- F2. change t' with (snd (fst (w', t', Some AttributeError))). rewrite <- E. change t2 with (snd (fst (w2, t2, @None exn))). rewrite <- E2. apply H.
    - intros c0 i cluster med order f desc. destruct cluster as [ | | spt p k ]; reflexivity.
    - intros i c0 p ms A B j med order Hj _. rewrite nth_error_map, A in B. cbn [option_map] in B. injection B as <- <-. destruct (Hm c0 j med order (nth_error_In _ _ A) Hj) as (V & Hg & Hl).
      apply (ex36_made r order _ j med Hready V Hg Hl). }
  injection Q as Q. rewrite Q, Ef2 in Ef. injection Ef as ->. rewrite Lf in Lf2. cbn in Lf2. discriminate Lf2.
Qed.
Print Assumptions C136_same_tables_refuted.
