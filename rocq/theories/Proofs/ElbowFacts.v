(** Proofs about the medoid CSV, the elbow, the silhouette analysis and cache paths of Model.Clustering. *)
From Coq Require Import ZifyBool ZifyNat QArith Lqa Field Qfield.
From Verif Require Import Base.Py Base.PyFacts Base.Str Base.StrFacts Base.Dict Base.DictFacts Base.Float Base.FloatFacts
  Model.Region Model.Clustering Spec.Clustering Proofs.ClusteringFacts.
Local Close Scope Q_scope.
Local Open Scope nat_scope.
Local Notation length := List.length.

(* ---------- medoid strings ---------- *)
Definition pair_str (pt : point) : string := ("(" ++ str_int (fst pt) ++ "," ++ str_int (snd pt) ++ ")")%string.
Lemma medoid_str_pair pt : medoid_str pt = (pair_str pt ++ " ")%string.
Proof. unfold medoid_str, pair_str. rewrite !sapp_assoc. reflexivity. Qed.

Lemma parse_pair pt : parse_medoid (pair_str pt) = Ok pt.
Proof.
  destruct pt as [x y]. unfold parse_medoid, pair_str. cbn [fst snd].
  replace ("(" ++ str_int x ++ "," ++ str_int y ++ ")")%string with (String "(" ((str_int x ++ "," ++ str_int y) ++ String ")" "")).
  - rewrite str_inner_wrap. change ("," ++ str_int y)%string with (String "," (str_int y)).
    rewrite split_app by (apply str_int_no_char; auto; discriminate).
    rewrite split_no_sep by (apply str_int_no_char; auto; discriminate).
    change 0%Z with (Z.of_nat 0). change 1%Z with (Z.of_nat 1). rewrite !getitem_cons_nat. cbn [nth_error bind].
    rewrite !py_int_str. reflexivity.
  - cbn. f_equal. rewrite sapp_assoc. reflexivity.
Qed.
Lemma pair_no_blank pt : has_char " " (pair_str pt) = false.
Proof.
  unfold pair_str. rewrite !has_char_app. rewrite !str_int_no_char by (auto; discriminate). reflexivity.
Qed.
Definition medoids_string (l : list point) : string := fold_left (fun s pt => s ++ medoid_str pt)%string l ""%string.
Lemma medoids_string_acc l acc : fold_left (fun s pt => s ++ medoid_str pt)%string l acc = (acc ++ medoids_string l)%string.
Proof.
  unfold medoids_string. revert acc. induction l as [|pt l IH]; intros acc; cbn [fold_left].
  - rewrite sapp_nil_r. auto.
  - rewrite IH. rewrite (IH ("" ++ medoid_str pt)%string). rewrite sapp_assoc. reflexivity.
Qed.
Lemma medoids_string_cons pt l : medoids_string (pt :: l) = (pair_str pt ++ String " " (medoids_string l))%string.
Proof.
  unfold medoids_string at 1. cbn [fold_left]. rewrite medoids_string_acc, medoid_str_pair. cbn [String.append]. rewrite sapp_assoc. reflexivity.
Qed.
Lemma medoids_split l : split " " (medoids_string l) = map pair_str l ++ [""%string].
Proof.
  induction l as [|pt l IH]; auto. rewrite medoids_string_cons, split_app by apply pair_no_blank. rewrite IH. reflexivity.
Qed.
Lemma parse_medoids_string l : parse_medoids (medoids_string l) = Ok l.
Proof.
  unfold parse_medoids. rewrite medoids_split, removelast_last. rewrite mapM_map. rewrite (mapM_ok _ (fun x => x)).
  - rewrite map_id. auto.
  - intros; apply parse_pair.
Qed.

Lemma medoids_abs_string g indices pts : mapM (index_to_absolute_point g) indices = Ok pts ->
  medoids_to_absolute_coordinates (Some g) indices = Ok (medoids_string pts).
Proof.
  unfold medoids_to_absolute_coordinates.
  enough (G : forall acc, mapM (index_to_absolute_point g) indices = Ok pts ->
    foldM (fun coordinates index => pt <- index_to_absolute_point g index ;; Ok (coordinates ++ medoid_str pt)%string) indices acc =
    Ok (acc ++ medoids_string pts)%string) by (intros; apply (G ""%string); auto).
  revert pts. induction indices as [|i l IH]; intros pts acc H; cbn [mapM foldM] in *.
  - injection H as <-. cbn. rewrite sapp_nil_r. auto.
  - destruct (index_to_absolute_point g i) as [pt|]; [|discriminate]. cbn [bind] in *.
    destruct (mapM _ l) as [ps|]; [|discriminate]. cbn [bind] in H. injection H as <-.
    rewrite (IH ps) by auto. rewrite medoids_string_cons, medoid_str_pair, !sapp_assoc. reflexivity.
Qed.

(* ---------- the CSV ---------- *)
Definition csv_step (result : list (string * list point)) (line : string) : res (list (string * list point)) :=
  let row := csv_parse line in
  clustering_repr <- getitem row 0 ;;
  medoids_str <- getitem row 2 ;;
  medoids <- parse_medoids medoids_str ;;
  Ok (dict_set String.eqb clustering_repr medoids result).

Lemma csv_step_row acc r cost medoids : csv_step acc (csv_line [r; cost; medoids_string medoids]) = Ok (dict_set String.eqb r medoids acc).
Proof.
  unfold csv_step. rewrite csv_roundtrip by discriminate.
  change 0%Z with (Z.of_nat 0). change 2%Z with (Z.of_nat 2). rewrite !getitem_cons_nat. cbn [nth_error bind].
  rewrite parse_medoids_string. reflexivity.
Qed.
Lemma retrieve_spec rows : retrieve_suite_result (Some (suite_csv rows)) =
  Ok (fold_left (fun d '(r, _, medoids) => dict_set String.eqb r medoids d) rows []).
Proof.
  unfold retrieve_suite_result, suite_csv. change (foldM _ ?l []) with (foldM csv_step l []).
  generalize (@nil (string * list point)). induction rows as [|[[r cost] medoids] rows IH]; intros acc; cbn [map foldM fold_left]; auto.
  fold (medoids_string medoids). rewrite csv_step_row. cbn [bind]. apply IH.
Qed.
Lemma retrieve_lookup (rows : list (string * string * list point)) r : dict_get String.eqb r (fold_left (fun d '(r, _, medoids) => dict_set String.eqb r medoids d) rows []) =
  match find (fun '(r', _, _) => (r' =? r)%string) (rev rows) with Some (_, _, medoids) => Ok medoids | None => Raise KeyError end.
Proof.
  induction rows as [|[[r1 c1] m1] rows IH] using rev_ind; auto.
  rewrite fold_left_app, rev_app_distr. cbn [fold_left rev app find]. rewrite dict_get_set by apply string_key.
  destruct (r1 =? r)%string; auto.
Qed.
Lemma retrieve_distinct (rows : list (string * string * list point)) : NoDup (map (fun '(r, _, _) => r) rows) ->
  fold_left (fun d '(r, _, medoids) => dict_set String.eqb r medoids d) rows [] = map (fun '(r, _, medoids) => (r, medoids)) rows.
Proof.
  induction rows as [|[[r1 c1] m1] rows IH] using rev_ind; auto. rewrite map_app, fold_left_app. cbn [map fold_left]. intros H.
  pose proof (NoDup_remove_1 _ _ _ H) as H1. rewrite app_nil_r in H1. pose proof (NoDup_remove_2 _ _ _ H) as H2. rewrite app_nil_r in H2.
  rewrite IH by auto. rewrite map_app. apply dict_set_fresh.
  destruct (dict_in _ _ _) eqn:E; auto. exfalso. apply H2. unfold dict_in in E. apply existsb_exists in E.
  destruct E as ([r m] & Hin & Eq). cbn in Eq. apply String.eqb_eq in Eq. subst r.
  apply in_map_iff in Hin. destruct Hin as ([[r c] m'] & Er & Hr). injection Er as -> ->.
  apply in_map_iff. exists (r1, c, m). auto.
Qed.

(* ---------- second derivative ---------- *)
Lemma inject_neq a b : a <> b -> ~ (inject_Z a - inject_Z b == 0)%Q.
Proof. intros H E. apply H. apply inject_Z_injective. lra. Qed.

Lemma second_derivative_fin x1 x2 x3 y1 y2 y3 : x1 <> x2 -> x2 <> x3 -> x1 <> x3 ->
  exists d, second_derivative x1 x2 x3 (Fin y1) (Fin y2) (Fin y3) = Ok (Fin d) /\
            (d == curvature (inject_Z x1) (inject_Z x2) (inject_Z x3) y1 y2 y3)%Q.
Proof.
  intros H12 H23 H13. unfold second_derivative, div2.
  destruct (Z.eqb_spec ((x2 - x1) * (x3 - x1)) 0) as [e|_]; [apply Z.mul_eq_0 in e; lia|].
  destruct (Z.eqb_spec ((x3 - x2) * (x2 - x1)) 0) as [e|_]; [apply Z.mul_eq_0 in e; lia|].
  destruct (Z.eqb_spec ((x3 - x2) * (x3 - x1)) 0) as [e|_]; [apply Z.mul_eq_0 in e; lia|].
  cbn [bind fmul fadd]. eexists. split; [reflexivity|].
  unfold curvature. rewrite !inject_Z_mult. unfold Z.sub. rewrite !inject_Z_plus, !inject_Z_opp.
  field. repeat split; apply inject_neq; auto.
Qed.
Lemma second_derivative_zero x1 x2 x3 y1 y2 y3 : x1 = x2 \/ x2 = x3 \/ x1 = x3 ->
  second_derivative x1 x2 x3 y1 y2 y3 = Raise ZeroDivisionError.
Proof.
  intros H. unfold second_derivative, div2.
  destruct (Z.eqb_spec ((x2 - x1) * (x3 - x1)) 0); auto. cbn [bind].
  destruct (Z.eqb_spec ((x3 - x2) * (x2 - x1)) 0); auto. cbn [bind].
  destruct (Z.eqb_spec ((x3 - x2) * (x3 - x1)) 0); auto. exfalso.
  destruct H as [ -> | [ -> | -> ] ]; [apply n|apply n0|apply n]; rewrite Z.sub_diag; lia.
Qed.
Lemma second_derivative_nan x1 x2 x3 y1 y2 y3 : x1 <> x2 -> x2 <> x3 -> x1 <> x3 ->
  is_nan y1 = true \/ is_nan y2 = true \/ is_nan y3 = true ->
  second_derivative x1 x2 x3 y1 y2 y3 = Ok NaN.
Proof.
  intros H12 H23 H13 HN. unfold second_derivative, div2.
  destruct (Z.eqb_spec ((x2 - x1) * (x3 - x1)) 0) as [e|_]; [apply Z.mul_eq_0 in e; lia|].
  destruct (Z.eqb_spec ((x3 - x2) * (x2 - x1)) 0) as [e|_]; [apply Z.mul_eq_0 in e; lia|].
  destruct (Z.eqb_spec ((x3 - x2) * (x3 - x1)) 0) as [e|_]; [apply Z.mul_eq_0 in e; lia|]. cbn [bind]. f_equal.
  assert (A : forall q, fmul (Fin q) NaN = NaN) by (intros; reflexivity).
  assert (B : forall f, fadd NaN f = NaN) by (intros []; reflexivity).
  assert (C : forall f, fadd f NaN = NaN) by (intros []; reflexivity).
  destruct HN as [HN|[HN|HN]].
  - destruct y1; try discriminate. rewrite A, !B. auto.
  - destruct y2; try discriminate. rewrite A, C, B. auto.
  - destruct y3; try discriminate. rewrite A, C. auto.
Qed.

(* ---------- elbow ---------- *)
Lemma zrange_snoc a b : (a <= b)%Z -> zrange a (b + 1) = zrange a b ++ [b].
Proof.
  intros H. unfold zrange. replace (Z.to_nat (b + 1 - a)) with (S (Z.to_nat (b - a))) by lia.
  rewrite seq_S, map_app. cbn [map]. repeat f_equal. lia.
Qed.

Lemma getitem_nth {A} (l : list A) n d : n < length l -> getitem l (Z.of_nat n) = Ok (nth n l d).
Proof. intros H. apply getitem_in. apply nth_error_nth'. auto. Qed.

Lemma elbow_step_fin ks ys best i : length ys = length ks -> (forall a b, a < b < length ks -> nth a ks 0%Z <> nth b ks 0%Z) ->
  1 <= i -> i + 1 < length ks ->
  exists d, (d == curvature_at ks ys i)%Q /\
    elbow_step ks (map Fin ys) best (Z.of_nat i) = Ok (if flt (fst best) (Fin d) then (Fin d, Z.of_nat i) else best).
Proof.
  intros Hl Hd H1 H2. unfold elbow_step.
  replace (Z.of_nat i - 1)%Z with (Z.of_nat (i - 1)) by lia. replace (Z.of_nat i + 1)%Z with (Z.of_nat (i + 1)) by lia.
  rewrite !(getitem_nth ks _ 0%Z) by lia. rewrite !(getitem_nth (map Fin ys) _ (Fin 0)) by (rewrite map_length; lia).
  rewrite !map_nth. cbn [bind].
  destruct (second_derivative_fin (nth (i - 1) ks 0%Z) (nth i ks 0%Z) (nth (i + 1) ks 0%Z) (nth (i - 1) ys 0%Q) (nth i ys 0%Q) (nth (i + 1) ys 0%Q))
    as (d & E & Ed); try (apply Hd; lia).
  rewrite E. exists d. split; auto.
Qed.

Lemma elbow_fold ks ys m : length ys = length ks -> (forall a b, a < b < length ks -> nth a ks 0%Z <> nth b ks 0%Z) ->
  m + 2 <= length ks ->
  exists best, foldM (elbow_step ks (map Fin ys)) (zrange 1 (Z.of_nat m + 1)) (NInf, (-1)%Z) = Ok best /\
    (m = 0 -> best = (NInf, (-1)%Z)) /\
    (1 <= m -> exists i d, best = (Fin d, Z.of_nat i) /\ (d == curvature_at ks ys i)%Q /\ 1 <= i <= m /\
       (forall j, 1 <= j <= m -> (curvature_at ks ys j <= curvature_at ks ys i)%Q) /\
       (forall j, 1 <= j < i -> (curvature_at ks ys j < curvature_at ks ys i)%Q)).
Proof.
  intros Hl Hd. induction m as [|m IH]; intros Hm.
  - exists (NInf, (-1)%Z). split; [reflexivity|]. split; auto. lia.
  - destruct IH as (best & E & H0 & H1); [lia|].
    replace (Z.of_nat (S m) + 1)%Z with ((Z.of_nat m + 1) + 1)%Z by lia. rewrite zrange_snoc by lia.
    rewrite foldM_app, E. cbn [bind foldM]. replace (Z.of_nat m + 1)%Z with (Z.of_nat (S m)) by lia.
    destruct (elbow_step_fin ks ys best (S m) Hl Hd) as (d & Ed & Es); [lia|lia|]. rewrite Es. cbn [bind].
    eexists. split; [reflexivity|]. split; [discriminate|]. intros _.
    destruct m as [|m].
    + rewrite H0 by auto. cbn [fst flt]. exists 1, d. split; [reflexivity|]. split; auto. split; [lia|]. split.
      * intros j Hj. replace j with 1 by lia. lra.
      * intros j Hj. lia.
    + destruct H1 as (i & e & -> & Ee & Hi & Hmax & Hfst); [lia|]. cbn [fst].
      destruct (flt (Fin e) (Fin d)) eqn:F.
      * apply flt_Fin in F. exists (S (S m)), d. split; auto. split; auto. split; [lia|].
        split; intros j Hj.
        -- destruct (Nat.eq_dec j (S (S m))) as [->|]; [lra|]. assert (Q := Hmax j ltac:(lia)). lra.
        -- assert (Q := Hmax j ltac:(lia)). lra.
      * assert (F' : (d <= e)%Q). { apply Qnot_lt_le. intros F'. apply flt_Fin in F'. congruence. }
        exists i, e. split; auto. split; auto. split; [lia|]. split; auto.
        intros j Hj. destruct (Nat.eq_dec j (S (S m))) as [->|]; [lra|]. apply Hmax. lia.
Qed.

Definition key_costs (costs : list (cmeta * fnum)) (ordered : list cmeta) (ys : list fnum) : Prop :=
  Forall2 (fun m y => dict_get c_eqb m costs = Ok y) ordered ys.

Lemma elbow_find costs ordered ys : length costs = length ordered -> 3 <= length ordered ->
  key_costs costs ordered (map Fin ys) ->
  (forall a b, a < b < length ordered -> nth a (map c_k ordered) 0%Z <> nth b (map c_k ordered) 0%Z) ->
  exists i m, elbow_index (map c_k ordered) ys i /\ nth_error ordered i = Some m /\
              find_cost_elbow_given_order costs ordered = Ok m.
Proof.
  intros Hl H3 HC Hd. unfold find_cost_elbow_given_order.
  rewrite Hl, Nat.eqb_refl. cbn [py_assert bind]. replace (3 <=? length ordered) with true by lia. cbn [py_assert bind].
  apply mapM_Forall2 in HC. rewrite HC. cbn [bind].
  assert (Hy : length ys = length (map c_k ordered)).
  { apply mapM_length in HC. rewrite map_length in HC. rewrite map_length. auto. }
  destruct (elbow_fold (map c_k ordered) ys (length ordered - 2) Hy) as (best & E & _ & H).
  { rewrite map_length. auto. } { rewrite map_length. lia. }
  replace (Z.of_nat (length ordered - 2) + 1)%Z with (Z.of_nat (length ordered) - 1)%Z in E by lia.
  rewrite E. cbn [bind]. destruct H as (i & d & -> & _ & Hi & Hmax & Hfst); [lia|].
  destruct (nth_error_lt_some ordered i) as (m & Hm); [lia|]. exists i, m. split; [|split]; auto.
  - split; [lia|]. split; [rewrite map_length; lia|]. split.
    + intros j ? Hj. rewrite map_length in Hj. apply Hmax. lia.
    + intros j ? ?. apply Hfst. lia.
  - cbn [snd]. apply getitem_in. auto.
Qed.

Lemma elbow_step_nan ks ys best i : length ys = length ks ->
  (forall a b, a < b < length ks -> nth a ks 0%Z <> nth b ks 0%Z) ->
  1 <= i -> i + 1 < length ks ->
  is_nan (nth (i - 1) ys NaN) || is_nan (nth i ys NaN) || is_nan (nth (i + 1) ys NaN) = true ->
  elbow_step ks ys best (Z.of_nat i) = Ok best.
Proof.
  intros Hl Hd H1 H2 HN. unfold elbow_step.
  replace (Z.of_nat i - 1)%Z with (Z.of_nat (i - 1)) by lia. replace (Z.of_nat i + 1)%Z with (Z.of_nat (i + 1)) by lia.
  rewrite !(getitem_nth ks _ 0%Z) by lia. rewrite !(getitem_nth ys _ NaN) by lia. cbn [bind].
  rewrite second_derivative_nan; try (apply Hd; lia).
  - cbn [bind]. destruct (fst best); reflexivity.
  - apply orb_true_iff in HN. destruct HN as [HN|]; auto. apply orb_true_iff in HN. destruct HN; auto.
Qed.

Lemma elbow_nan costs ordered ys m : length costs = length ordered -> 3 <= length ordered ->
  key_costs costs ordered ys ->
  (forall a b, a < b < length ordered -> nth a (map c_k ordered) 0%Z <> nth b (map c_k ordered) 0%Z) ->
  (forall i, 1 <= i -> i + 1 < length ordered ->
     is_nan (nth (i - 1) ys NaN) || is_nan (nth i ys NaN) || is_nan (nth (i + 1) ys NaN) = true) ->
  nth_error ordered (length ordered - 1) = Some m ->
  find_cost_elbow_given_order costs ordered = Ok m.
Proof.
  intros Hl H3 HC Hd HN Hm. unfold find_cost_elbow_given_order.
  rewrite Hl, Nat.eqb_refl. cbn [py_assert bind]. replace (3 <=? length ordered) with true by lia. cbn [py_assert bind].
  apply mapM_Forall2 in HC. rewrite HC. cbn [bind].
  pose proof (mapM_length _ _ _ HC) as Hy.
  assert (E : foldM (elbow_step (map c_k ordered) ys) (zrange 1 (Z.of_nat (length ordered) - 1)) (NInf, (-1)%Z) = Ok (NInf, (-1)%Z)).
  { assert (G : forall l, (forall z, In z l -> (1 <= z < Z.of_nat (length ordered) - 1)%Z) ->
       foldM (elbow_step (map c_k ordered) ys) l (NInf, (-1)%Z) = Ok (NInf, (-1)%Z)).
    { induction l as [|z l IH]; intros Hz; auto. cbn [foldM].
      assert (B := Hz z (or_introl eq_refl)). replace z with (Z.of_nat (Z.to_nat z)) by lia.
      rewrite elbow_step_nan; rewrite ?map_length; auto; try lia.
      - cbn [bind]. apply IH. intros; apply Hz; right; auto.
      - apply HN; lia. }
    apply G. intros z Hz. apply in_zrange in Hz. auto. }
  rewrite E. cbn [bind snd].
  unfold getitem, norm_index. replace ((0 <=? -1) && (-1 <? Z.of_nat (length ordered)))%Z with false by lia.
  replace ((- Z.of_nat (length ordered) <=? -1) && (-1 <? 0))%Z with true by lia.
  replace (Z.to_nat (-1 + Z.of_nat (length ordered))) with (length ordered - 1) by lia. rewrite Hm. auto.
Qed.

(** first adjacent repetition of k *)
Lemma elbow_repeated costs ordered ys i : length costs = length ordered -> 3 <= length ordered ->
  key_costs costs ordered ys -> nondecreasing (map c_k ordered) ->
  i + 1 < length ordered -> nth i (map c_k ordered) 0%Z = nth (i + 1) (map c_k ordered) 0%Z ->
  find_cost_elbow_given_order costs ordered = Raise ZeroDivisionError.
Proof.
  intros Hl H3 HC Hs Hi He. unfold find_cost_elbow_given_order.
  rewrite Hl, Nat.eqb_refl. cbn [py_assert bind]. replace (3 <=? length ordered) with true by lia. cbn [py_assert bind].
  apply mapM_Forall2 in HC. rewrite HC. cbn [bind]. pose proof (mapM_length _ _ _ HC) as Hy.
  set (ks := map c_k ordered) in *. assert (Hk : length ks = length ordered) by apply map_length.
  assert (D : forall best z, (1 <= z < Z.of_nat (length ordered) - 1)%Z ->
     elbow_step ks ys best z = Raise ZeroDivisionError \/ exists b, elbow_step ks ys best z = Ok b).
  { intros best z Hz. unfold elbow_step.
    replace (z - 1)%Z with (Z.of_nat (Z.to_nat z - 1)) by lia. replace (z + 1)%Z with (Z.of_nat (Z.to_nat z + 1)) by lia.
    replace z with (Z.of_nat (Z.to_nat z)) by lia. rewrite !Nat2Z.id.
    rewrite !(getitem_nth ks _ 0%Z) by lia. rewrite !(getitem_nth ys _ NaN) by lia. cbn [bind].
    unfold second_derivative, div2. destruct (_ =? _)%Z; auto. cbn [bind]. destruct (_ =? _)%Z; auto. cbn [bind].
    destruct (_ =? _)%Z; auto. cbn [bind]. right. eauto. }
  set (t := if (i =? 0)%nat then 1 else i).
  assert (Ht : 1 <= t /\ t + 1 < length ordered) by (unfold t; destruct (Nat.eqb_spec i 0); lia).
  assert (R : forall best, elbow_step ks ys best (Z.of_nat t) = Raise ZeroDivisionError).
  { intros best. unfold elbow_step.
    replace (Z.of_nat t - 1)%Z with (Z.of_nat (t - 1)) by lia. replace (Z.of_nat t + 1)%Z with (Z.of_nat (t + 1)) by lia.
    rewrite !(getitem_nth ks _ 0%Z) by lia. rewrite !(getitem_nth ys _ NaN) by lia. cbn [bind].
    rewrite second_derivative_zero; auto. unfold t. destruct (Nat.eqb_spec i 0) as [->|].
    - left. auto.
    - right. left. auto. }
  assert (G : forall l best, (forall z, In z l -> (1 <= z < Z.of_nat (length ordered) - 1)%Z) -> In (Z.of_nat t) l ->
       foldM (elbow_step ks ys) l best = Raise ZeroDivisionError).
  { induction l as [|z l IH]; intros best Hz Hin; [destruct Hin|]. cbn [foldM].
    destruct (D best z (Hz z (or_introl eq_refl))) as [E|(b & E)]; [rewrite E; auto|].
    destruct Hin as [->|Hin]; [rewrite R; auto|]. rewrite E. cbn [bind]. apply IH; auto. intros; apply Hz; right; auto. }
  rewrite G; auto.
  - intros z Hz. apply in_zrange in Hz. auto.
  - apply in_zrange. lia.
Qed.

(* ---------- elbows of a suite ---------- *)
Lemma increasing_nodup l : increasing l -> NoDup l.
Proof.
  induction l as [|a l IH]; cbn; intros H; constructor; [|tauto]. intros Hin. destruct H as [H _]. specialize (H a Hin). lia.
Qed.
Lemma increasing_nondecreasing l : increasing l -> nondecreasing l.
Proof. induction l as [|a l IH]; cbn; auto. intros [H1 H2]. split; auto. intros b Hb. specialize (H1 b Hb). lia. Qed.
Lemma nodup_nth_neq l a b : NoDup l -> a < b < length l -> nth a l 0%Z <> nth b l 0%Z.
Proof.
  intros H Hab E. rewrite NoDup_nth in H. specialize (H a b ltac:(lia) ltac:(lia) E). lia.
Qed.

Lemma last_default {A} (a : A) l d d' : last (a :: l) d = last (a :: l) d'.
Proof. revert a. induction l as [|b l IH]; intros a; auto. apply (IH b). Qed.

Section Suite.
Context (ps : kparams) (ks seeds : list Z).
Context (Hks : NoDup ks) (Hseeds : NoDup seeds) (Hne : seeds <> []).
Let suite := flat_map (fun k => map (kmk ps k) seeds) ks.

Lemma kmk_eqb k s k' s' : c_eqb (kmk ps k s) (kmk ps k' s') = (k =? k')%Z.
Proof using. reflexivity. Qed.

Lemma partitions_inner k d : (forall kv, In kv d -> c_eqb (fst kv) (kmk ps k 0) = false) ->
  forall l key v, fold_left (fun d m => dict_set c_eqb m m d) (map (kmk ps k) l) (d ++ [(kmk ps k key, v)]) =
    d ++ [(kmk ps k key, last (map (kmk ps k) l) v)].
Proof using.
  intros Hd. induction l as [|s l IH]; intros key v; auto. cbn [map fold_left].
  rewrite dict_set_app_r.
  - cbn [dict_set]. rewrite kmk_eqb, Z.eqb_refl. rewrite IH. destruct l as [|s2 l]; auto.
    change (last (kmk ps k s :: map (kmk ps k) (s2 :: l)) v) with (last (map (kmk ps k) (s2 :: l)) v).
    do 3 f_equal. cbn [map]. apply last_default.
  - unfold dict_in. destruct (existsb _ d) eqn:E; auto. apply existsb_exists in E. destruct E as (kv & Hin & E).
    specialize (Hd kv Hin). unfold c_eqb in E, Hd. cbn in E, Hd. congruence.
Qed.

Lemma last_map {A B} (f : A -> B) l d : last (map f l) (f d) = f (last l d).
Proof using. induction l as [|a l IH]; auto. destruct l; auto. Qed.

Lemma partitions_spec : fold_left (fun d m => dict_set c_eqb m m d) suite [] =
  map (fun k => (kmk ps k (hd 0%Z seeds), kmk ps k (last seeds 0%Z))) ks.
Proof using Hks Hne.
  clear Hseeds. unfold suite. clear suite. revert Hks. induction ks as [|k ks' IH] using rev_ind; auto. intros Hk.
  pose proof (NoDup_remove_1 _ _ _ Hk) as H1. rewrite app_nil_r in H1. pose proof (NoDup_remove_2 _ _ _ Hk) as H2. rewrite app_nil_r in H2.
  rewrite flat_map_app, fold_left_app, IH by auto. cbn [flat_map]. rewrite app_nil_r, map_app. cbn [map].
  destruct seeds as [|s0 l] eqn:Es; [congruence|]. cbn [map fold_left hd].
  set (d := map (fun k => (kmk ps k s0, kmk ps k (last (s0 :: l) 0%Z))) ks').
  assert (Hd : forall kv, In kv d -> c_eqb (fst kv) (kmk ps k 0) = false).
  { intros kv H. apply in_map_iff in H. destruct H as (k' & <- & Hk'). cbn [fst]. rewrite kmk_eqb. apply Z.eqb_neq. congruence. }
  rewrite dict_set_fresh.
  - rewrite partitions_inner by auto. rewrite last_map. do 3 f_equal.
    destruct l as [|s1 l]; auto. change (last (s0 :: s1 :: l) 0%Z) with (last (s1 :: l) 0%Z). f_equal. apply last_default.
  - unfold dict_in. destruct (existsb _ d) eqn:E; auto. apply existsb_exists in E. destruct E as (kv & Hin & E).
    specialize (Hd kv Hin). unfold c_eqb in E, Hd. cbn in E, Hd. congruence.
Qed.

Lemma all_costs_spec cost (y : Z -> fnum) : (forall k, In k ks -> cost (kmk ps k (last seeds 0%Z)) = Ok (y k)) ->
  all_costs cost suite = Ok (map (fun k => (kmk ps k (hd 0%Z seeds), y k)) ks).
Proof using Hks Hne.
  intros Hc. unfold all_costs. rewrite partitions_spec.
  set (s0 := hd 0%Z seeds). set (s1 := last seeds 0%Z) in *.
  clearbody s0 s1. clear suite. revert Hks Hc.  induction ks as [|k ks' IH] using rev_ind; auto. intros Hk Hc.
  pose proof (NoDup_remove_1 _ _ _ Hk) as H1. rewrite app_nil_r in H1. pose proof (NoDup_remove_2 _ _ _ Hk) as H2. rewrite app_nil_r in H2.
  rewrite !map_app, foldM_app, IH; auto.
  - cbn [bind map foldM]. rewrite Hc by (apply in_app_iff; right; left; auto). cbn [bind]. f_equal. apply dict_set_fresh.
    unfold dict_in. destruct (existsb _ _) eqn:E; auto. apply existsb_exists in E. destruct E as (kv & Hin & E).
    apply in_map_iff in Hin. destruct Hin as (k' & <- & Hk'). cbn [fst] in E. rewrite kmk_eqb in E. apply Z.eqb_eq in E. congruence.
  - intros; apply Hc. apply in_app_iff. auto.
Qed.

Lemma costs_lookup (y : Z -> fnum) s k s0 : In k ks -> dict_get c_eqb (kmk ps k s) (map (fun k => (kmk ps k s0, y k)) ks) = Ok (y k).
Proof using.
  clear. induction ks as [|a l IH]; cbn [map dict_get]; [intros []|]. rewrite kmk_eqb. destruct (Z.eqb_spec a k) as [->|]; auto.
  intros [?|?]; [congruence|auto].
Qed.

Lemma suite_seed s : In s seeds -> filter (has_seed s) suite = map (fun k => kmk ps k s) ks.
Proof using Hseeds.
  intros Hs. unfold suite. clear suite Hks. induction ks as [|k l IH]; auto. cbn [flat_map map].
  rewrite filter_app, IH.
  enough (E : filter (has_seed s) (map (kmk ps k) seeds) = [kmk ps k s]) by (rewrite E; auto).
  clear - Hs Hseeds. induction seeds as [|a l IH]; [destruct Hs|]. inversion Hseeds as [|? ? Hn HN]; subst. cbn [map filter].
  cbn [has_seed kmk km_seed]. destruct (Z.eqb_spec a s) as [->|].
  - f_equal. clear - Hn. induction l as [|b l IH]; auto. cbn [map filter has_seed kmk km_seed].
    destruct (Z.eqb_spec b s) as [->|]; [exfalso; apply Hn; left; auto|]. apply IH. intros ?; apply Hn; right; auto.
  - destruct Hs as [?|Hs]; [congruence|]. auto.
Qed.

Lemma suite_seeds : ks <> [] -> distinct (map seed_of suite) = seeds.
Proof using Hseeds.
  intros Hk. unfold suite. clear suite Hks. destruct ks as [|k l]; [congruence|]. clear Hk.
  assert (G : forall l, distinct (seeds ++ map seed_of (flat_map (fun k => map (kmk ps k) seeds) l)) = seeds).
  { intros l0. set (r := map seed_of _).
    assert (Hr : forall x, In x r -> In x seeds).
    { intros x Hx. unfold r in Hx. apply in_map_iff in Hx. destruct Hx as (c & <- & Hc). apply in_flat_map in Hc. destruct Hc as (k0 & _ & Hc).
      apply in_map_iff in Hc. destruct Hc as (s & <- & Hs). auto. }
    clearbody r. induction r as [|a r IH] using rev_ind.
    - rewrite app_nil_r. apply distinct_id. auto.
    - rewrite app_assoc, distinct_snoc. rewrite IH by (intros; apply Hr; apply in_app_iff; auto).
      replace (existsb (Z.eqb a) (seeds ++ r)) with true; [apply app_nil_r|].
      symmetry. apply existsb_In. apply in_app_iff. left. apply Hr. apply in_app_iff. right; left; auto. }
  cbn [flat_map]. rewrite map_app. rewrite map_map. cbn [seed_of kmk km_seed]. rewrite map_id. apply G.
Qed.
End Suite.

Lemma elbow_index_unique ks ys i j : elbow_index ks ys i -> elbow_index ks ys j -> i = j.
Proof.
  intros (H1 & H2 & H3 & H4) (G1 & G2 & G3 & G4).
  destruct (Nat.lt_trichotomy i j) as [L|[E|L]]; auto.
  - assert (Q1 := G4 i H1 L). assert (Q2 := H3 j G1 G2). exfalso. lra.
  - assert (Q1 := H4 j G1 L). assert (Q2 := G3 i H1 H2). exfalso. lra.
Qed.

Lemma calculate_elbows_spec ps ks seeds cost (y : Z -> Q) :
  increasing ks -> 3 <= length ks -> NoDup seeds -> seeds <> [] ->
  (forall k, In k ks -> cost (kmk ps k (last seeds 0%Z)) = Ok (Fin (y k))) ->
  exists i k, elbow_index ks (map y ks) i /\ nth_error ks i = Some k /\
    calculate_elbows cost (flat_map (fun k => map (kmk ps k) seeds) ks) = Ok (map (fun s => (s, kmk ps k s)) seeds).
Proof.
  intros Hinc H3 Hs Hne Hc. pose proof (increasing_nodup _ Hinc) as Hk.
  unfold calculate_elbows.
  rewrite (all_costs_spec ps ks seeds Hk Hne cost (fun k => Fin (y k))) by auto. cbn [bind].
  unfold elbows_for_each_seed. rewrite organize_spec.
  2:{ clear. induction ks as [|k l IH]; auto. cbn [flat_map]. rewrite forallb_app, IH, andb_true_r. clear. induction seeds; auto. }
  cbn [bind]. rewrite suite_seeds; auto; [|destruct ks; cbn in *; [lia|congruence]].
  set (costs := map (fun k => (kmk ps k (hd 0%Z seeds), Fin (y k))) ks).
  assert (EL : exists i k, elbow_index ks (map y ks) i /\ nth_error ks i = Some k /\
     forall s, find_cost_elbow_given_order costs (map (fun k => kmk ps k s) ks) = Ok (kmk ps k s)).
  { assert (Hck : forall s, map c_k (map (fun k => kmk ps k s) ks) = ks) by (intros; rewrite map_map; cbn; apply map_id).
    assert (P : forall s, exists i m, elbow_index ks (map y ks) i /\ nth_error (map (fun k => kmk ps k s) ks) i = Some m /\
       find_cost_elbow_given_order costs (map (fun k => kmk ps k s) ks) = Ok m).
    { intros s. destruct (elbow_find costs (map (fun k => kmk ps k s) ks) (map y ks)) as (i & m & E1 & E2 & E3).
      - unfold costs. rewrite !map_length. auto.
      - rewrite map_length. auto.
      - unfold key_costs. apply mapM_Forall2. rewrite mapM_map. rewrite map_map. apply mapM_ok. intros k Hin.
        apply (costs_lookup ps ks (fun k => Fin (y k))). auto.
      - rewrite Hck, map_length. intros a b Hab. apply nodup_nth_neq; auto.
      - rewrite Hck in E1. eauto. }
    destruct (P 0%Z) as (i & m & E1 & E2 & _).
    destruct (nth_error_lt_some ks i) as (k & Ek); [destruct E1 as (_ & ? & _); lia|].
    exists i, k. split; auto. split; auto. intros s. destruct (P s) as (j & m' & F1 & F2 & F3).
    rewrite (elbow_index_unique _ _ _ _ F1 E1) in F2. rewrite nth_error_map, Ek in F2. cbn in F2. injection F2 as <-. auto. }
  destruct EL as (i & k & E1 & E2 & E3). exists i, k. split; auto. split; auto.
  set (all := flat_map (fun k => map (kmk ps k) seeds) ks).
  assert (G : forall l acc, NoDup l -> (forall s, In s l -> In s seeds) -> (forall s, In s l -> dict_in Z.eqb s acc = false) ->
    foldM (fun d '(seed, ordered) =>
           _ <- mapM (fun m => dict_get c_eqb m costs) ordered ;;
           e <- find_cost_elbow_given_order costs ordered ;;
           Ok (dict_set Z.eqb seed e d))
        (map (fun s => (s, sorted_by_k (filter (has_seed s) all))) l) acc = Ok (acc ++ map (fun s => (s, kmk ps k s)) l)).
  { induction l as [|s l IH]; intros acc HN Hin Hacc; cbn [map foldM].
    - rewrite app_nil_r. auto.
    - inversion HN as [|? ? Hn HN']; subst.
      unfold all. rewrite suite_seed by (auto; apply Hin; left; auto). rewrite sorted_by_k_id.
      2:{ rewrite map_map. cbn. rewrite map_id. apply increasing_nondecreasing. auto. }
      rewrite mapM_map. rewrite (mapM_ok _ (fun k => Fin (y k))) by (intros; apply (costs_lookup ps ks (fun k => Fin (y k))); auto).
      cbn [bind]. rewrite E3. cbn [bind]. fold all. rewrite IH; auto.
      + rewrite dict_set_fresh by (apply Hacc; left; auto). rewrite <- app_assoc. reflexivity.
      + intros; apply Hin; right; auto.
      + intros s' Hs'. rewrite dict_in_set by apply Z_key. rewrite Hacc by (right; auto). rewrite orb_false_r. apply Z.eqb_neq. congruence. }
  rewrite G; auto.
Qed.

(* ---------- silhouette ---------- *)
Lemma perform_analysis_spec suite (score : cmeta -> res fnum) (v : cmeta -> fnum) :
  (forall c, In c suite -> score c = Ok (v c)) ->
  exists b o, perform_analysis score suite = Ok (b, o) /\
    match o with
    | None => b = Fin (-1) /\ (forall c, In c suite -> flt (Fin (-1)) (v c) = false)
    | Some c => exists l1 l2, suite = l1 ++ c :: l2 /\ b = v c /\ flt (Fin (-1)) b = true /\
        (forall c', In c' suite -> flt b (v c') = false) /\
        (forall c', In c' l1 -> flt (v c') b = true \/ is_nan (v c') = true)
    end.
Proof.
  unfold perform_analysis. induction suite as [|c l IH] using rev_ind; intros Hs.
  - cbn. exists (Fin (-1)), None. split; auto. split; auto. intros ? [].
  - destruct IH as (b & o & E & H); [intros; apply Hs; apply in_app_iff; auto|].
    rewrite foldM_app, E. cbn [bind foldM]. rewrite Hs by (apply in_app_iff; right; left; auto). cbn [bind fst].
    destruct (flt b (v c)) eqn:F.
    + exists (v c), (Some c). split; auto. exists l, []. split; auto. split; auto.
      assert (NB : is_nan b = false) by (apply flt_not_nan in F; tauto).
      assert (G : flt (Fin (-1)) (v c) = true /\ forall c', In c' l -> flt b (v c') = false).
      { destruct o as [c0|].
        - destruct H as (l1 & l2 & -> & -> & Hb & Hm & _). split; auto. eapply flt_trans; eauto.
        - destruct H as [-> Hm]. auto. }
      destruct G as [G1 G2]. split; auto. split.
      * intros c' Hc'. apply in_app_iff in Hc'. destruct Hc' as [Hc'|[<-|[]]]; [|apply flt_irrefl].
        specialize (G2 c' Hc'). destruct (flt (v c) (v c')) eqn:F2; auto. rewrite (flt_trans _ _ _ F F2) in G2. discriminate.
      * intros c' Hc'. specialize (G2 c' Hc'). destruct (is_nan (v c')) eqn:N; auto. left.
        apply fle_lt_trans with b; auto. apply fle_iff; auto.
    + exists b, o. split; auto. destruct o as [c0|].
      * destruct H as (l1 & l2 & -> & -> & Hb & Hm & Hf). exists l1, (l2 ++ [c]). split; [rewrite <- app_assoc; auto|].
        split; auto. split; auto. split; auto.
        intros c' Hc'. apply in_app_iff in Hc'. destruct Hc' as [Hc'|[<-|[]]]; auto.
      * destruct H as [-> Hm]. split; auto. intros c' Hc'. apply in_app_iff in Hc'. destruct Hc' as [Hc'|[<-|[]]]; auto.
Qed.
