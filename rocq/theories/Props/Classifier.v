(** Predictions with the help of a classifier (C90-C92). *)
From Coq Require Import String Lia.
From Verif Require Import Base.Py Base.PyFacts Base.Arr Base.ArrFacts Base.Str Base.StrFacts Base.Dict Base.DictFacts Base.Float
  Model.Region Model.Scaling Model.Series Model.Errors Model.Models Model.Forecast Model.Clustering Model.Solver Model.SolverFiles Model.Results
  Model.Classifier Spec.Grid Spec.Rect Spec.Partition Spec.Regions Spec.Solver Spec.SolverFiles Spec.Results Spec.Classifier
  Proofs.RegionFacts Proofs.PartitionFacts Proofs.SolverFacts Proofs.ResultsFacts Proofs.ClassifierFacts.
From Coq Require Import ZifyBool ZifyNat.
Local Notation length := List.length.

(** C90: any history of queries to the object, of which each may have failed; then a query that returns.  At each point
    of the prediction region, the label is the answer of the classifier to the last [tp] samples of the series of the
    target region (the out-of-sample region of the first query, or the region itself); the model is the one trained on
    the start of the series of the medoid that the label names; forecast, test series and error belong to that model
    and to the series of the point.  The result meets the conditions of the theorems about query results (C59). *)
Theorem C90_predictions : forall {P M} (kind : model_kind P M) junk cfg classify impl mp d sc dt sct fs history g tp o q,
  let tl := cc_test_len cfg in
  forecasts_fit kind -> qwf d sc -> tl <= a3t d -> rm_scaled (cc_region cfg) = (match sc with None => false | Some _ => true end) ->
  target_region (qregion d sc) history o = Ok (qregion dt sct) -> qwf dt sct ->
  rect_in g (a3x d) (a3y d) -> rect_in g (a3x dt) (a3y dt) -> (0 <= tp <= Z.of_nat (a3t dt))%Z ->
  (forall s l, classify s = Ok l ->
     exists k seed i sol, (0 <= k)%Z /\ (0 <= seed)%Z /\ (0 <= i)%Z /\ l = classifier_label k seed i /\
       stored fs (key_of cfg k seed) sol /\ trained_on kind mp d sc tl (cc_error cfg) sol) ->
  let st := after kind junk cfg classify (Ok (qregion d sc)) impl history (new_classifier_solver fs) in
  snd (classifier_predict kind junk cfg classify (Ok (qregion d sc)) impl g tp o st) = Ok q ->
  fits q d sc tl /\
  exists f test e func labels, get_error_func (cc_error cfg) = Ok func /\
    q = FromClassifier (InSample (RBase (suite_meta cfg) 0 f e g (qregion d sc)) test) (cc_suite_repr cfg) labels /\
    t_len f = tl /\ t_len test = tl /\ t_x test = width g /\ t_y test = height g /\
    map fst labels = grid (width g) (height g) /\
    forall pt own seen, in_grid (width g) (height g) pt ->
      series3 d (fst (in_domain g pt)) (snd (in_domain g pt)) = Ok own ->
      series3 dt (fst (in_domain g pt)) (snd (in_domain g pt)) = Ok seen ->
      exists k seed i sol medoid ms m forecast f' o' t v,
        In (pt, classifier_label k seed i) labels /\
        classify (skipn (length seen - Z.to_nat tp) seen) = Ok (classifier_label k seed i) /\
        stored fs (key_of cfg k seed) sol /\ (0 <= i)%Z /\ nth_error (so_medoids sol) (Z.to_nat i) = Some medoid /\
        series3 d (fst medoid) (snd medoid) = Ok ms /\
        training_function kind mp (firstn (length ms - tl) ms) = Ok m /\
        forecast_by kind m tl = Ok forecast /\
        shown sc (in_domain g pt) forecast f' /\ series_at f pt = Ok f' /\
        shown sc (in_domain g pt) (skipn (length own - tl) own) o' /\ series_at test pt = Ok o' /\
        shown sc (in_domain g pt) (firstn (length own - tl) own) t /\
        func f' o' (Some t) = Ok v /\ value_at e pt = Ok v.
Proof.
  intros P M kind junk cfg classify impl mp d sc dt sct fs history g tp o q tl Hfit Hq Htl Hsc Ht Hqt Hg Hgt Htp Hcl st H.
  assert (Hk : forall s l, classify s = Ok l -> known cfg fs l).
  { intros s l E. destruct (Hcl s l E) as (k & seed & i & sol & A & B & C & D & S & _). exists k, seed, i, sol. auto. }
  destruct (after_state kind junk cfg classify (qregion d sc) impl fs history Hk) as [ Hs Hst ]. fold st in Hs, Hst.
  destruct (classifier_predict kind junk cfg classify (Ok (qregion d sc)) impl g tp o st) as [ st9 r9 ] eqn:EP. cbn [snd] in H. subst r9.
  unfold classifier_predict in EP.
  assert (Hp : exists st1, (if cs_classifier st then (st, Ok tt) else prepare (Ok (qregion d sc)) o st) = (st1, Ok tt) /\
                sound cfg fs st1 /\ cs_target st1 = Some (qregion dt sct) /\ cs_region st1 = Some (qregion d sc)).
  { unfold target_region in Ht. destruct history as [ | [ [ g0 tp0 ] o0 ] history ].
    - destruct Hst as [ -> _ ]. unfold prepare. destruct o as [ [ t | e ] | ]; [ | discriminate | ]; injection Ht as Ht;
        (eexists; split; [ reflexivity | ]); (split; [ exact Hs | ]); cbn [cs_target cs_region]; rewrite ?Ht; auto.
    - destruct Hst as (-> & Hreg & Hst). exists st. split; [ reflexivity | ]. split; [ exact Hs | ]. split; [ | exact Hreg ].
      rewrite Hst. destruct o0 as [ [ t | e ] | ]; [ | discriminate | ]; cbn [chosen]; congruence. }
  destruct Hp as (st1 & E1 & S1 & T1 & R1). rewrite E1, T1, R1 in EP.
  destruct (get_labels_from_classifier classify (qregion dt sct) g tp) as [ labels | ] eqn:El; [ | discriminate ].
  destruct (labels_spec classify dt sct g tp labels Hqt Hgt Htp El) as [ Lg Ls ].
  destruct (models_known cfg impl fs labels st1) as (st2 & r2 & E2 & S2 & R2 & Sm); [ | exact S1 | ].
  { intros pt l Hin. destruct (Ls pt l Hin) as (w & _ & Ew). eapply Hk; eauto. }
  rewrite E2 in EP. destruct r2 as [ models | ]; [ | discriminate ]. injection EP as <- EP. specialize (Sm models eq_refl).
  assert (Mg : map fst models = grid (width g) (height g)).
  { rewrite <- Lg. clear - Sm. induction Sm as [ | ? ? ? ? [ A _ ] _ IH ]; [ reflexivity | ]. cbn [map]. congruence. }
  destruct (build_spec g _ _ models Hg Mg) as (b & Eb & Wb & Xb & Yb & Sb). rewrite Eb in EP. cbn [bind] in EP.
  (* the model of each point *)
  assert (K : forall pt, in_grid (width g) (height g) pt -> exists l cellm, In (pt, l) labels /\ get2 b (fst pt) (snd pt) = Ok cellm /\
               forall k seed i s, (0 <= k)%Z -> (0 <= seed)%Z -> (0 <= i)%Z -> l = classifier_label k seed i -> stored fs (key_of cfg k seed) s ->
                 exists medoid, nth_error (so_medoids s) (Z.to_nat i) = Some medoid /\ get2 (so_training s) (fst medoid) (snd medoid) = Ok cellm).
  { intros pt Hp. apply in_grid_iff in Hp. rewrite <- Lg in Hp. apply in_map_iff in Hp. destruct Hp as ([ pt' l ] & <- & Hin). cbn [fst].
    assert (F : exists y, In y models /\ fst y = pt' /\ forall k seed i s, (0 <= k)%Z -> (0 <= seed)%Z -> (0 <= i)%Z -> l = classifier_label k seed i -> stored fs (key_of cfg k seed) s ->
                 exists medoid, nth_error (so_medoids s) (Z.to_nat i) = Some medoid /\ get2 (so_training s) (fst medoid) (snd medoid) = Ok (snd y)).
    { clear - Sm Hin. induction Sm as [ | a y ls ys [ A B ] _ IH ]; [ destruct Hin | ]. destruct Hin as [ -> | Hin ].
      - exists y. split; [ left; reflexivity | ]. split; [ exact A | exact B ].
      - destruct (IH Hin) as (z & Hz & Hz'). exists z. split; [ right; exact Hz | exact Hz' ]. }
    destruct F as ([ pt1 m ] & Hm & <- & F). cbn [fst snd] in *. exists l, m. split; [ exact Hin | ]. split; [ apply Sb, Hm | exact F ]. }
  assert (T : forall pt, in_grid (width g) (height g) pt -> exists k seed i sol medoid ms,
               (0 <= k)%Z /\ (0 <= seed)%Z /\ (0 <= i)%Z /\ In (pt, classifier_label k seed i) labels /\ stored fs (key_of cfg k seed) sol /\
               nth_error (so_medoids sol) (Z.to_nat i) = Some medoid /\ series3 d (fst medoid) (snd medoid) = Ok ms /\
               get2 b (fst pt) (snd pt) = Ok (cell_of (model_at b pt)) /\ training_function kind mp (firstn (length ms - tl) ms) = Ok (model_at b pt)).
  { intros pt Hp. destruct (K pt Hp) as (l & cm & Hin & Ec & F). destruct (Ls pt l Hin) as (w & _ & Ew).
    destruct (Hcl _ _ Ew) as (k & seed & i & sol & N1 & N2 & N3 & -> & Hst1 & Htr).
    destruct (F k seed i sol N1 N2 N3 eq_refl Hst1) as (medoid & Em & Et).
    destruct Htr as (refit & cluster & p & medoids & Ecl & Hv & Hmed & Etr).
    destruct (solver_training_models kind mp refit cluster d sc tl _ sol p medoids Hq Htl Ecl Hv Hmed Etr) as (_ & Emed & Hh & Htm). rewrite <- Emed in Hmed, Htm.
    destruct (proj2 Hmed _ _ Em) as [ Gm Lm ]. destruct (ser_ok d medoid (proj1 Hq) Gm) as (ms & Ems & _).
    exists k, seed, i, sol, medoid, ms. assert (Hrep : represents p (so_medoids sol) medoid medoid).
    { exists (Z.of_nat (Z.to_nat i)). split; [ exact Lm | ]. split; [ lia | ]. rewrite Nat2Z.id. exact Em. }
    assert (Eq : cm = cell_of (model_at (so_training sol) medoid)).
    { destruct Hh as (_ & _ & _ & Hh). rewrite (Hh _ Gm) in Et. congruence. }
    assert (Eq' : model_at b pt = model_at (so_training sol) medoid).
    { unfold model_at at 1. rewrite Ec, Eq. destruct (model_at (so_training sol) medoid); reflexivity. }
    rewrite Eq'. do 7 (split; [ assumption | ]). split; [ congruence | ]. apply (Htm medoid medoid); auto. }
  assert (Hb : holds_models b (width g) (height g) (model_at b)).
  { split; [ exact Wb | ]. split; [ exact Xb | ]. split; [ exact Yb | ]. intros pt Hp. destruct (T pt Hp) as (? & ? & ? & ? & ? & ? & ? & ? & ? & ? & ? & ? & ? & Hc & _). exact Hc. }
  destruct (result_spec kind junk cfg d sc g b (model_at b) labels q Hfit Hq Htl Hg Hsc Hb EP)
    as (f & test & e & func & Ef & -> & Xf & Yf & Tf & Xt & Yt & Tt & Hser).
  split.
  - cbn [fits base_of rb_region]. unfold base_fits. cbn [rb_region rb_spt_region rb_meta rb_forecast rb_errors suite_meta sm_test_len].
    assert (W : forall pt, in_grid (width g) (height g) pt -> exists own, series3 d (fst (in_domain g pt)) (snd (in_domain g pt)) = Ok own).
    { intros pt Hp. destruct (ser_ok d (in_domain g pt) (proj1 Hq)) as (own & Eo & _); [ eapply in_domain_grid; eauto | eauto ]. }
    split; [ split | ].
    + split; [ exact Hq | ]. split; [ reflexivity | ]. split; [ reflexivity | ]. split; [ exact Htl | ]. split; [ exact Hg | ].
      split; [ exact Xf | ]. split; [ exact Yf | ]. intros pt Hp. destruct (W pt Hp) as [ own Eo ].
      destruct (Hser pt own Hp Eo) as (? & f' & ? & ? & v & ? & ? & ? & ? & ? & ? & ? & ?). eauto.
    + intros pt Hp. destruct (W pt Hp) as [ own Eo ]. destruct (Hser pt own Hp Eo) as (? & f' & ? & ? & v & ? & ? & ? & ? & ? & ? & ? & ?). eauto.
    + split; [ rewrite Lg; apply grid_nodup | ]. intros pt Hp. destruct (K pt Hp) as (l & _ & Hin & _). eauto.
  - exists f, test, e, func, labels. do 7 (split; [ assumption || reflexivity | ]).
    intros pt own seen Hp Eo Es. destruct (T pt Hp) as (k & seed & i & sol & medoid & ms & N1 & N2 & N3 & Hin & Hst1 & Em & Ems & _ & Etf).
    destruct (Hser pt own Hp Eo) as (fc & f' & o' & t & v & A1 & A2 & A3 & A4 & A5 & A6 & A7 & A8).
    exists k, seed, i, sol, medoid, ms, (model_at b pt), fc, f', o', t, v. split; [ exact Hin | ].
    destruct (Ls pt _ Hin) as (w & Ew & Ew'). split; [ congruence | ]. split; [ exact Hst1 | ]. repeat (split; [ assumption | ]). assumption.
Qed.
Print Assumptions C90_predictions.

(* ---------------------------------------------------------------- C91 *)
(** A query that returned once returns the same result again, whatever other queries come in between, whatever happens
    to the files, and whatever out-of-sample region is given the second time. *)
Theorem C91_repeated_query : forall {P M} (kind : model_kind P M) junk cfg classify create_instance impl events g tp o o' st st' q,
  classifier_predict kind junk cfg classify create_instance impl g tp o st = (st', Ok q) ->
  snd (classifier_predict kind junk cfg classify create_instance impl g tp o' (happen kind junk cfg classify create_instance impl events st')) = Ok q.
Proof.
  intros P M kind junk cfg classify create_instance impl events g tp o o' st st' q H.
  destruct (predict_caches _ _ _ _ _ _ _ _ _ _ _ _ H) as (A & _).
  destruct (happen_caches kind junk cfg classify create_instance impl events st' A) as (A' & B' & C').
  erewrite predict_again; eauto. reflexivity.
Qed.
Print Assumptions C91_repeated_query.

(** After the first query, the out-of-sample region of a query is not looked at (also when the first query failed). *)
Theorem C91_first_query_decides : forall {P M} (kind : model_kind P M) junk cfg classify create_instance impl first events g tp o o' st,
  let st' := happen kind junk cfg classify create_instance impl (Queried first :: events) st in
  classifier_predict kind junk cfg classify create_instance impl g tp o st' = classifier_predict kind junk cfg classify create_instance impl g tp o' st'.
Proof.
  intros P M kind junk cfg classify create_instance impl [ [ g0 tp0 ] o0 ] events g tp o o' st st'.
  assert (H : cs_classifier st' = true).
  { subst st'. unfold happen. cbn [fold_left].
    destruct (classifier_predict kind junk cfg classify create_instance impl g0 tp0 o0 st) as [ st1 r ] eqn:E. apply predict_caches in E. cbn [fst].
    apply (happen_caches kind junk cfg classify create_instance impl events st1). apply E. }
  unfold classifier_predict. rewrite H. reflexivity.
Qed.
Print Assumptions C91_first_query_decides.

(** When the regions cannot be created in the first query, every later query of the object fails with AttributeError,
    even when they could be created by then. *)
Theorem C91_failed_first_query : forall {P M} (kind : model_kind P M) junk cfg classify impl create_instance create_later fs g tp o e events g' tp' o',
  (create_instance = Raise e \/ (exists r, create_instance = Ok r) /\ o = Some (Raise e)) ->
  let '(st, r) := classifier_predict kind junk cfg classify create_instance impl g tp o (new_classifier_solver fs) in
  r = Raise e /\
  snd (classifier_predict kind junk cfg classify create_later impl g' tp' o' (happen kind junk cfg classify create_later impl events st)) = Raise AttributeError.
Proof.
  intros P M kind junk cfg classify impl create_instance create_later fs g tp o e events g' tp' o' Hf.
  destruct (classifier_predict kind junk cfg classify create_instance impl g tp o (new_classifier_solver fs)) as [ st r ] eqn:E.
  assert (H : r = Raise e /\ cs_classifier st = true /\ cs_target st = None).
  { unfold classifier_predict in E. cbn [new_classifier_solver cs_classifier] in E. unfold prepare in E.
    destruct Hf as [ -> | [ [ r' -> ] -> ] ]; cbn in E; injection E as <- <-; auto. }
  destruct H as (Hr & Hc & Ht). split; [ exact Hr | ]. destruct (happen_caches kind junk cfg classify create_later impl events st Hc) as (A & (_ & B & C) & _).
  unfold classifier_predict. rewrite A, C, Ht. reflexivity.
Qed.
Print Assumptions C91_failed_first_query.

(* ---------------------------------------------------------------- examples *)
Definition ex_dc : arr3 fnum := mk3 4 1 2 (map (fun z => Fin (inject_Z z)) [1; 10; 3; 20; 5; 30; 7; 40]%Z).
Definition ex_dt : arr3 fnum := mk3 3 1 2 (map (fun z => Fin (inject_Z z)) [20; 1; 30; 2; 40; 3]%Z).
Definition ex_pc : crisp := Crisp (mk2 1 2 [0; 1]%Z) 2.
Definition ex_medoids : list point := [(0, 0); (0, 1)]%Z.
Definition ex_cfg : cconfig :=
  CConfig (RMeta "nordeste" (Rect 40 41 80 82) 2015 2015 1 false "raw") "dtw" "suite" (fun _ _ => "dir"%string) (PMean 2) 2 "MSE".
Definition ex_params : arr2 (option Z) := full2 1 2 (Some 2%Z).
Definition ex_train : res (solver fnum) :=
  solver_train mean_kind ex_params (default_refitter mean_kind ex_params) (fun _ => Ok (ex_pc, ex_medoids)) (qregion ex_dc None) 2 "MSE".
Definition ex_solver : solver fnum := match ex_train with Ok s => s | Raise _ => Solver ex_pc [] (mk2 0 0 []) (mk2 0 0 []) (SPlain (mk2 0 0 [])) end.
Definition ex_files : fsys fnum :=
  let k := key_of ex_cfg 2 0 in
  fs_put (fs_put (fs_put (fs_put (fun _ => None) (partition_pickle_path k) (FPartition (so_partition ex_solver, Some (so_medoids ex_solver))))
    (model_training_pickle_path k) (FModels (so_training ex_solver)))
    (model_whole_pickle_path k) (FModels (so_whole ex_solver)))
    (generalization_errors_pickle_path k) (FErrors (so_errors ex_solver)).
(** small series are said to be of the second cluster, large ones of the first *)
Definition ex_classify (s : list fnum) : res string :=
  match s with x :: _ => Ok (classifier_label 2 0 (if flt x (Fin 10) then 1 else 0)) | [] => Raise ValueError end.
Definition ex_impl (k : skey) (b : bool) : res part := Raise ValueError.
Notation ex_predict o st := (classifier_predict mean_kind (Fin 0) ex_cfg ex_classify (Ok (qregion ex_dc None)) ex_impl (Rect 0 1 0 2) 2 o st).
Definition show (r : res presult) : res (list (point * string) * list fnum) :=
  q <- r ;;
  match q with
  | FromClassifier (InSample b _) _ labels => f <- series_at (rb_forecast b) (0, 0)%Z ;; Ok (labels, f)
  | _ => Raise TypeError
  end.

Example C90_example_hypotheses :
  forecasts_fit mean_kind /\ qwf ex_dc None /\ qwf ex_dt None /\ cc_test_len ex_cfg <= a3t ex_dc /\
  rm_scaled (cc_region ex_cfg) = false /\ target_region (qregion ex_dc None) [] None = Ok (qregion ex_dc None) /\
  rect_in (Rect 0 1 0 2) (a3x ex_dc) (a3y ex_dc) /\ rect_in (Rect 0 1 0 2) (a3x ex_dt) (a3y ex_dt) /\
  (forall s l, ex_classify s = Ok l ->
     exists k seed i sol, (0 <= k)%Z /\ (0 <= seed)%Z /\ (0 <= i)%Z /\ l = classifier_label k seed i /\
       stored ex_files (key_of ex_cfg k seed) sol /\ trained_on mean_kind 2%Z ex_dc None (cc_test_len ex_cfg) (cc_error ex_cfg) sol).
Proof.
  split; [ intros m len f [= <-]; apply repeat_length | ]. do 2 (split; [ split; reflexivity | ]). split; [ cbn; lia | ]. split; [ reflexivity | ].
  split; [ reflexivity | ]. do 2 (split; [ unfold rect_in; cbn; lia | ]).
  intros [ | x s ] l H; [ discriminate | ]. cbn [ex_classify] in H. injection H as <-.
  exists 2%Z, 0%Z, (if flt x (Fin 10) then 1 else 0)%Z, ex_solver. split; [ lia | ]. split; [ lia | ]. split; [ destruct (flt x (Fin 10)); lia | ].
  split; [ reflexivity | ]. split; [ repeat split; vm_compute; reflexivity | ].
  exists (default_refitter mean_kind ex_params), (fun _ => Ok (ex_pc, ex_medoids)), ex_pc, ex_medoids. split; [ reflexivity | ].
  split; [ | split; [ split; [ reflexivity | ] | vm_compute; reflexivity ] ].
  - unfold valid_partition, ex_pc. cbn. split; [ reflexivity | split; [ reflexivity | split; [ reflexivity | split ] ] ].
    + intros [ a b ] l [ H1 H2 ] H. cbn [fst snd] in *. assert (a = 0%Z) by lia. assert (b = 0 \/ b = 1)%Z as D by lia.
      unfold label_at in H. subst a. destruct D as [ -> | -> ]; cbn in H; injection H as <-; lia.
    + exists (0, 1)%Z. split; [ split; cbn; lia | reflexivity ].
  - intros [ | [ | [ | i ] ] ] m E; cbn in E; try discriminate; injection E as <-; (split; [ split; cbn; lia | reflexivity ]).
Qed.
(** the point with small samples gets the forecast of the other one, the mean of 10 and 20 *)
Example C90_example :
  show (snd (ex_predict None (new_classifier_solver ex_files))) = Ok ([((0, 0)%Z, "2-0-1"%string); ((0, 1)%Z, "2-0-0"%string)], [Fin (30 # 2); Fin (30 # 2)]).
Proof. vm_compute. reflexivity. Qed.
Example C91_example_repeated : exists st' q,
  ex_predict (Some (Ok (qregion ex_dt None))) (new_classifier_solver ex_files) = (st', Ok q) /\
  snd (ex_predict None (happen mean_kind (Fin 0) ex_cfg ex_classify (Ok (qregion ex_dc None)) ex_impl
         [FilesChanged (fun _ => None); Queried (Rect 0 2 0 9, 3%Z, None)] st')) = Ok q.
Proof. do 2 eexists. split; [ vm_compute; reflexivity | vm_compute; reflexivity ]. Qed.
Example C91_example_failed :
  snd (ex_predict (Some (Raise IOError)) (new_classifier_solver ex_files)) = Raise IOError /\
  snd (ex_predict None (fst (ex_predict (Some (Raise IOError)) (new_classifier_solver ex_files)))) = Raise AttributeError.
Proof. split; reflexivity. Qed.

(** One would expect a query to use the out-of-sample region that it is given.  It does not in general: after a query
    without such a region, the same object gives other labels and forecasts than an object that is asked for the first time. *)
Theorem C91_own_out_of_sample_region_refuted : ~ forall {P M} (kind : model_kind P M) junk cfg classify create_instance impl history g tp o fs q q',
  snd (classifier_predict kind junk cfg classify create_instance impl g tp o (new_classifier_solver fs)) = Ok q ->
  snd (classifier_predict kind junk cfg classify create_instance impl g tp o
         (after kind junk cfg classify create_instance impl history (new_classifier_solver fs))) = Ok q' -> q' = q.
Proof.
  intros H.
  assert (E1 : exists q, snd (ex_predict (Some (Ok (qregion ex_dt None))) (new_classifier_solver ex_files)) = Ok q /\
                show (Ok q) = Ok ([((0, 0)%Z, "2-0-0"%string); ((0, 1)%Z, "2-0-1"%string)], [Fin (4 # 2); Fin (4 # 2)]))
    by (eexists; split; vm_compute; reflexivity).
  assert (E2 : exists q, snd (ex_predict (Some (Ok (qregion ex_dt None)))
                  (after mean_kind (Fin 0) ex_cfg ex_classify (Ok (qregion ex_dc None)) ex_impl [(Rect 0 1 0 2, 2%Z, None)] (new_classifier_solver ex_files))) = Ok q /\
                show (Ok q) = Ok ([((0, 0)%Z, "2-0-1"%string); ((0, 1)%Z, "2-0-0"%string)], [Fin (30 # 2); Fin (30 # 2)]))
    by (eexists; split; vm_compute; reflexivity).
  destruct E1 as (q & E1 & S1). destruct E2 as (q' & E2 & S2). specialize (H _ _ _ _ _ _ _ _ _ _ _ _ _ _ _ E1 E2). subst q'. congruence.
Qed.
Print Assumptions C91_own_out_of_sample_region_refuted.

(** One would also expect the classifier to see all samples, or an error, when more samples are asked for than the
    series have.  With one sample too many it sees only the last sample. *)
Theorem C90_too_many_samples_refuted : ~ forall (d : arr3 fnum) g tp classify labels pt l s,
  qwf d None -> rect_in g (a3x d) (a3y d) -> (Z.of_nat (a3t d) < tp)%Z ->
  get_labels_from_classifier classify (qregion d None) g tp = Ok labels -> In (pt, l) labels ->
  series3 d (fst (in_domain g pt)) (snd (in_domain g pt)) = Ok s -> classify s = Ok l.
Proof.
  intros H.
  specialize (H ex_dc (Rect 0 1 0 2) 5%Z (fun s => Ok (str_int (Z.of_nat (length s)))) [((0, 0)%Z, "1"%string); ((0, 1)%Z, "1"%string)] (0, 0)%Z "1"%string
                [Fin 1; Fin 3; Fin 5; Fin 7]).
  assert (E : Ok "4"%string = Ok "1"%string); [ | discriminate ].
  apply H; [ split; reflexivity | unfold rect_in; cbn; lia | cbn; lia | vm_compute; reflexivity | left; reflexivity | reflexivity ].
Qed.
Print Assumptions C90_too_many_samples_refuted.

(* ---------------------------------------------------------------- C92 *)
From Coq Require Import QArith Qfield Lqa.
From Verif Require Import Base.FloatFacts.
Local Close Scope Q_scope.

(** The neural network is asked about the series divided by the sum of its absolute values (a series of zeros is left as
    it is), and the label is the row of the table of labels with the number of the largest answer, the first one in
    case of ties. *)
Theorem C92_label : forall window labels (model : list fnum -> list fnum) s l,
  (forall s' v, In v (model s') -> is_nan v = false) ->
  label_for_series window labels model s = Ok l ->
  length s = window /\ 0 < window /\
  exists q, s = map Fin q /\
  exists row m, let total := qsum (map Qabs.Qabs q) in
    exists input, Forall2 feqv input (map Fin (if Qeq_bool total 0 then q else map (fun v => v / total)%Q q)) /\
    nth_error labels row = Some l /\ nth_error (model input) row = Some m /\
    forall n v, nth_error (model input) n = Some v -> fle v m = true /\ (n < row -> flt v m = true).
Proof.
  intros window labels model s l Hn H. unfold label_for_series in H.
  destruct (negb (length s =? window)%nat || (window =? 0)%nat) eqn:Ew; [ discriminate | ].
  split; [ lia | ]. split; [ lia | ].
  unfold normalize_l1 in H. destruct (forallb is_fin s) eqn:Ef; [ | discriminate ]. cbn [bind] in H.
  destruct (fin_list s) as [ q -> ]; [ intros x Hx; eapply forallb_forall in Ef; eauto | ]. exists q. split; [ reflexivity | ].
  set (input := if feqb _ _ then _ else _) in H. destruct (np_argmax (model input)) as [ row | ] eqn:Er; [ | discriminate ]. cbn [bind] in H.
  destruct (np_argmax_spec _ _ (fun x => Hn input x) Er) as (m & Em & Sm). exists row, m. cbv zeta. exists input. split.
  - assert (Et : feqv (fsum (map fabs (map Fin q))) (Fin (qsum (map Qabs.Qabs q)))).
    { rewrite map_map. cbn [fabs]. rewrite <- (map_map Qabs.Qabs Fin). apply fsum_fin. }
    subst input. set (n := fsum (map fabs (map Fin q))) in *. destruct n as [ | | | n ]; cbn [feqv] in Et; try contradiction.
    change (feqb (Fin n) (Fin 0)) with (Qeq_bool n 0). rewrite (Qeq_bool_mor _ _ 0 Et). set (t := qsum (map Qabs.Qabs q)) in *.
    destruct (Qeq_bool t 0) eqn:E0.
    + clear. induction (map Fin q); constructor; [ apply feqv_refl | assumption ].
    + rewrite !map_map. clearbody t. clear - Et E0. induction q as [ | v q IH ]; cbn [map]; constructor; [ | exact IH ].
      unfold fdiv. rewrite (Qeq_bool_mor _ _ 0 Et), E0. cbn [feqv]. rewrite Et. reflexivity.
  - split; [ | split; [ exact Em | exact Sm ] ].
    destruct (nth_error labels row) as [ l' | ] eqn:El.
    + assert (Hlt : row < length labels) by (apply nth_error_Some; congruence).
      unfold getitem, norm_index in H. replace ((0 <=? Z.of_nat row) && (Z.of_nat row <? Z.of_nat (length labels)))%Z with true in H by lia.
      rewrite Nat2Z.id, El in H. congruence.
    + apply nth_error_None in El. unfold getitem, norm_index in H.
      replace ((0 <=? Z.of_nat row) && (Z.of_nat row <? Z.of_nat (length labels)))%Z with false in H by lia.
      replace ((- Z.of_nat (length labels) <=? Z.of_nat row) && (Z.of_nat row <? 0))%Z with false in H by lia. discriminate.
Qed.
Print Assumptions C92_label.

(** A series of another length, or with a sample that is not finite, is refused. *)
Theorem C92_refused : forall window labels model s,
  length s <> window \/ (exists v, In v s /\ is_fin v = false) -> label_for_series window labels model s = Raise ValueError.
Proof.
  intros window labels model s H. unfold label_for_series.
  destruct (negb (length s =? window)%nat || (window =? 0)%nat) eqn:Ew; [ reflexivity | ].
  destruct H as [ H | (v & Hv & Hf) ]; [ lia | ]. unfold normalize_l1.
  replace (forallb is_fin s) with false; [ reflexivity | ]. symmetry. apply not_true_is_false. intros Ht.
  rewrite forallb_forall in Ht. specialize (Ht v Hv). congruence.
Qed.
Print Assumptions C92_refused.

(** Units do not matter: a series multiplied by a positive number gets the same label.  The network gives equal answers
    for equal numbers. *)
Theorem C92_units : forall window labels (model : list fnum -> list fnum) q c,
  (forall a b, Forall2 feqv a b -> model a = model b) -> (0 < c)%Q ->
  label_for_series window labels model (map Fin (map (Qmult c) q)) = label_for_series window labels model (map Fin q).
Proof.
  intros window labels model q c Hm Hc. unfold label_for_series. rewrite !map_length.
  destruct (negb (length q =? window)%nat || (window =? 0)%nat); [ reflexivity | ].
  assert (F : forall q, forallb is_fin (map Fin q) = true) by (clear; induction q; auto).
  unfold normalize_l1. rewrite !F. cbn [bind].
  assert (Et : forall q, exists t, fsum (map fabs (map Fin q)) = Fin t /\ (t == qsum (map Qabs.Qabs q))%Q).
  { clear. intros q. assert (Et : feqv (fsum (map fabs (map Fin q))) (Fin (qsum (map Qabs.Qabs q)))).
    { rewrite map_map. cbn [fabs]. rewrite <- (map_map Qabs.Qabs Fin). apply fsum_fin. }
    destruct (fsum (map fabs (map Fin q))) as [ | | | t ]; cbn [feqv] in Et; try contradiction. exists t. split; [ reflexivity | exact Et ]. }
  destruct (Et q) as (t & -> & E1). destruct (Et (map (Qmult c) q)) as (t' & -> & E2).
  assert (E3 : (t' == c * t)%Q).
  { rewrite E1, E2. clear - Hc. induction q as [ | v q IH ]; cbn [map qsum]; [ ring | ]. rewrite IH.
    rewrite Qabs.Qabs_Qmult, (Qabs.Qabs_pos c) by lra. ring. }
  change (feqb (Fin t) (Fin 0)) with (Qeq_bool t 0). change (feqb (Fin t') (Fin 0)) with (Qeq_bool t' 0).
  destruct (Qeq_bool t 0) eqn:E0.
  - apply Qeq_bool_iff in E0. replace (Qeq_bool t' 0) with true by (symmetry; apply Qeq_bool_iff; rewrite E3, E0; ring).
    assert (Z : forall v, In v q -> (v == 0)%Q).
    { rewrite E0 in E1. clear - E1. assert (P : forall q, (0 <= qsum (map Qabs.Qabs q))%Q).
      { clear. induction q as [ | v q IH ]; cbn [map qsum]; [ lra | ]. pose proof (Qabs.Qabs_nonneg v). lra. }
      induction q as [ | w q IH ]; intros v []; cbn [map qsum] in E1; pose proof (P q); pose proof (Qabs.Qabs_nonneg w).
      - subst v. assert (A : (Qabs.Qabs w == 0)%Q) by lra. pose proof (Qabs.Qle_Qabs w). pose proof (Qabs.Qle_Qabs (- w)). rewrite Qabs.Qabs_opp in *. lra.
      - apply IH; [ lra | assumption ]. }
    rewrite (Hm (map Fin (map (Qmult c) q)) (map Fin q)); [ reflexivity | ].
    clear - Z. induction q as [ | v q IH ]; cbn [map]; constructor; [ cbn [feqv]; rewrite (Z v) by (left; reflexivity); ring | ].
    apply IH. intros w Hw. apply Z. right. exact Hw.
  - assert (N0 : ~ (t == 0)%Q) by (apply Qeq_bool_neq; exact E0).
    assert (N1 : ~ (t' == 0)%Q). { rewrite E3. intros Z. apply Qmult_integral in Z. destruct Z; [ lra | contradiction ]. }
    assert (E0' : Qeq_bool t' 0 = false). { apply not_true_is_false. intros Z. apply N1. apply Qeq_bool_iff. exact Z. }
    rewrite E0'. rewrite !map_map.
    rewrite (Hm (map (fun x => fdiv (Fin (c * x)) (Fin t')) q) (map (fun x => fdiv (Fin x) (Fin t)) q)); [ reflexivity | ].
    clear - N0 N1 E3 E0 E0' Hc. induction q as [ | v q IH ]; cbn [map]; constructor; [ | exact IH ].
    unfold fdiv. rewrite E0, E0'. cbn [feqv]. rewrite E3. field. split; [ exact N0 | lra ].
Qed.
Print Assumptions C92_units.
(** a network that answers with its input: the largest sample decides *)
Example C92_example :
  label_for_series 3 ["2-0-0"; "2-0-1"; "3-0-1"]%string (fun s => s) [Fin 1; Fin (-2); Fin 2] = Ok "3-0-1"%string /\
  label_for_series 3 ["2-0-0"; "2-0-1"; "3-0-1"]%string (fun s => s) [Fin 0; Fin 0; Fin 0] = Ok "2-0-0"%string /\
  label_for_series 3 ["2-0-0"; "2-0-1"]%string (fun s => s) [Fin 1; Fin 2] = Raise ValueError /\
  let net (s : list fnum) := [if existsb (flt (Fin (1 # 2))) s then Fin 1 else Fin 0; Fin (1 # 2)] in
  (forall a b, Forall2 feqv a b -> net a = net b) /\ (forall s v, In v (net s) -> is_nan v = false) /\
  label_for_series 2 ["2-0-0"; "2-0-1"]%string net [Fin 1; Fin 9] = Ok "2-0-0"%string /\
  label_for_series 2 ["2-0-0"; "2-0-1"]%string net [Fin 4; Fin 4] = Ok "2-0-1"%string.
Proof.
  do 3 (split; [ vm_compute; reflexivity | ]). cbv zeta. split; [ | split; [ | split; vm_compute; reflexivity ] ].
  - intros a b H. replace (existsb (flt (Fin (1 # 2))) b) with (existsb (flt (Fin (1 # 2))) a); [ reflexivity | ].
    induction H as [ | x y l l' Hxy _ IH ]; [ reflexivity | ]. cbn [existsb]. rewrite IH, (flt_mor _ _ _ _ (feqv_refl _) Hxy). reflexivity.
  - intros s v [ <- | [ <- | [] ] ]; [ destruct (existsb _ _) | ]; reflexivity.
Qed.
