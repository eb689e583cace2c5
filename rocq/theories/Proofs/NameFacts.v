(** The file names of solvers can be read back. *)
From Coq Require Import ZifyBool ZifyNat.
From Verif Require Import Base.Py Base.PyFacts Base.Str Base.StrFacts Base.Float Model.Region Model.Clustering Model.Models Model.Solver
  Model.SolverFiles Spec.SolverFiles Proofs.ClusteringFacts Props.Clustering.
Local Notation length := List.length.
Local Open Scope string_scope.

Definition nodigit (s : string) : Prop := match s with "" => True | String c _ => digit c = false end.

Lemma digits_prefix a : forall b s t, all_digits a = true -> all_digits b = true -> nodigit s -> nodigit t ->
  a ++ s = b ++ t -> a = b /\ s = t.
Proof.
  induction a as [|c a IH]; intros [|c' b] s t Ha Hb Hs Ht E; cbn in *; auto.
  - subst s. cbn in Hs. apply andb_true_iff in Hb. destruct Hb. congruence.
  - subst t. cbn in Ht. apply andb_true_iff in Ha. destruct Ha. congruence.
  - injection E as -> E. apply andb_true_iff in Ha, Hb. destruct Ha as [_ Ha], Hb as [_ Hb].
    destruct (IH b s t Ha Hb Hs Ht E) as [-> ->]. auto.
Qed.
Lemma digit_dash : digit "-" = false. Proof. reflexivity. Qed.
Lemma str_int_prefix a b s t : nodigit s -> nodigit t -> str_int a ++ s = str_int b ++ t -> a = b /\ s = t.
Proof.
  intros Hs Ht E.
  destruct (str_int_cases a) as [[_ (u & Eu & Du & Nu)]|[_ (u & Eu & Du & Nu)]];
  destruct (str_int_cases b) as [[_ (v & Ev & Dv & Nv)]|[_ (v & Ev & Dv & Nv)]]; rewrite Eu, Ev in E.
  - destruct (digits_prefix u v s t Du Dv Hs Ht E) as [-> ->]. split; auto. apply str_int_inj. congruence.
  - exfalso. destruct u as [|c u]; [congruence|]. cbn in E. injection E as -> _. cbn in Du. discriminate.
  - exfalso. destruct v as [|c v]; [congruence|]. cbn in E. injection E as <- _. cbn in Dv. discriminate.
  - cbn in E. injection E as E. destruct (digits_prefix u v s t Du Dv Hs Ht E) as [-> ->]. split; auto.
    apply str_int_inj. congruence.
Qed.
Lemma str_int_dash a b s t : str_int a ++ "-" ++ s = str_int b ++ "-" ++ t -> a = b /\ s = t.
Proof. intros E. apply str_int_prefix in E; try reflexivity. destruct E as [-> E]. injection E as ->. auto. Qed.

Lemma str_opt_dash a b s t : str_opt a ++ "-" ++ s = str_opt b ++ "-" ++ t -> a = b /\ s = t.
Proof.
  assert (N : forall n u v, str_int n ++ u <> "None" ++ v).
  { intros n u v E. destruct (str_int_cases n) as [[_ (w & Ew & Dw & Nw)]|[_ (w & Ew & Dw & Nw)]]; rewrite Ew in E.
    - destruct w as [|c w]; [congruence|]. cbn in E. injection E as -> _. cbn in Dw. discriminate.
    - discriminate. }
  destruct a as [a|], b as [b|]; cbn [str_opt]; intros E.
  - apply str_int_dash in E. destruct E as [-> ->]. auto.
  - exfalso. eapply N; eauto.
  - exfalso. symmetry in E. eapply N; eauto.
  - apply sapp_inj_l in E. injection E as ->. auto.
Qed.

(** parameters followed by two underscores *)
Lemma params_prefix p p' s t : params_repr p ++ "__" ++ s = params_repr p' ++ "__" ++ t -> same_params p p' /\ s = t.
Proof.
  destruct p as [past|k d|sp sq mp mq d st], p' as [past'|k' d'|sp' sq' mp' mq' d' st']; cbn [params_repr same_params];
    rewrite ?sapp_assoc; intros E; try discriminate E.
  - apply (sapp_inj_l "mean-past") in E. apply str_int_prefix in E; try reflexivity. destruct E as [-> E].
    injection E as ->. auto.
  - apply (sapp_inj_l "knn-k") in E. apply str_int_prefix in E; try reflexivity. destruct E as [-> E].
    injection E as ->. auto.
  - apply (sapp_inj_l "auto-arima-start_p") in E.
    apply (str_int_dash sp sp') in E. destruct E as [-> E]. apply (sapp_inj_l "start_q") in E.
    apply (str_int_dash sq sq') in E. destruct E as [-> E]. apply (sapp_inj_l "max_p") in E.
    apply (str_int_dash mp mp') in E. destruct E as [-> E]. apply (sapp_inj_l "max_q") in E.
    apply (str_int_dash mq mq') in E. destruct E as [-> E]. apply (sapp_inj_l "d") in E.
    apply (str_opt_dash d d') in E. destruct E as [-> E]. apply (sapp_inj_l "stepwise") in E.
    destruct st, st'; cbn in E; try discriminate; injection E as ->; auto.
Qed.
Lemma same_params_repr p p' : same_params p p' -> params_repr p = params_repr p'.
Proof. destruct p, p'; cbn [same_params]; intros E; try discriminate; try (rewrite E; reflexivity); cbn [params_repr]; congruence. Qed.
Lemma params_repr_inj p p' : params_repr p = params_repr p' -> same_params p p'.
Proof. intros E. apply (params_prefix p p' "" ""). rewrite E. reflexivity. Qed.
Lemma params_no_slash p : has_char "/" (params_repr p) = false.
Proof.
  assert (N : forall n, has_char "/" (str_int n) = false) by (intros; apply str_int_no_char; auto; discriminate).
  destruct p as [past|k d|sp sq mp mq [d|] [|]]; cbn [params_repr str_opt str_bool]; rewrite ?has_char_app, ?N; reflexivity.
Qed.
Lemma params_nonempty p : params_repr p <> "".
Proof. destruct p; discriminate. Qed.

(** a list of ints joined by '-' *)
Lemma join_ints_inj l : forall l', join "-" (map str_int l) = join "-" (map str_int l') -> l = l'.
Proof.
  assert (C : forall a l, join "-" (map str_int (a :: l)) = str_int a ++ match l with [] => "" | _ => "-" ++ join "-" (map str_int l) end).
  { intros a m. destruct m; cbn [map join]; rewrite ?sapp_nil_r; reflexivity. }
  induction l as [|a l IH]; intros [|b l'] E; auto.
  - rewrite C in E. symmetry in E. exfalso. destruct (str_int b) eqn:F; [eapply str_int_nonempty; eauto|discriminate].
  - rewrite C in E. exfalso. destruct (str_int a) eqn:F; [eapply str_int_nonempty; eauto|discriminate].
  - rewrite !C in E. apply str_int_prefix in E; [|destruct l; easy|destruct l'; easy]. destruct E as [-> E].
    destruct l as [|x l], l' as [|y l']; auto; try discriminate. apply (sapp_inj_l "-") in E. f_equal. apply IH. auto.
Qed.
Lemma join_ints_no_char c l : digit c = false -> c <> "-"%char -> has_char c (join "-" (map str_int l)) = false.
Proof.
  intros Hd Hc. apply join_no_char.
  - cbn [has_char]. rewrite (proj2 (Ascii.eqb_neq "-" c)); auto.
  - intros s Hs. apply in_map_iff in Hs. destruct Hs as (z & <- & _). apply str_int_no_char; auto.
Qed.

(** the metadata of a clustering followed by two underscores *)
Lemma c_repr_prefix c c' s t : has_char "_" (mode_name c) = false -> has_char "_" (mode_name c') = false ->
  c_repr c ++ "__" ++ s = c_repr c' ++ "__" ++ t -> same_clustering c c' /\ s = t.
Proof.
  destruct c as [k|m], c' as [k'|m']; cbn [mode_name c_repr same_clustering]; intros Hm Hm' E.
  - rewrite !sapp_assoc in E. apply (sapp_inj_l "regular") in E. apply (sapp_inj_l "_k") in E.
    apply str_int_prefix in E; try reflexivity. destruct E as [-> E]. injection E as ->. auto.
  - exfalso. unfold kmeta_repr in E. destruct (km_init m'); discriminate E.
  - exfalso. unfold kmeta_repr in E. destruct (km_init m); discriminate E.
  - assert (K : forall m s, kmeta_repr m ++ "__" ++ s =
      "kmedoids_k" ++ str_int (km_k m) ++ "_seed" ++ str_int (km_seed m) ++ "_" ++ km_mode m ++
      String "_" (match km_init m with None => "_" ++ s | Some l => "im" ++ join "-" (map str_int l) ++ "__" ++ s end)).
    { intros n u. unfold kmeta_repr. destruct (km_init n); rewrite !sapp_assoc; reflexivity. }
    rewrite !K in E. apply (sapp_inj_l "kmedoids_k") in E. apply str_int_prefix in E; try reflexivity. destruct E as [Ek E].
    apply (sapp_inj_l "_seed") in E. apply str_int_prefix in E; try reflexivity. destruct E as [Es E].
    apply (sapp_inj_l "_") in E. apply cut_first in E; auto. destruct E as [Emode E].
    destruct (km_init m) as [l|], (km_init m') as [l'|]; try discriminate E.
    + apply (sapp_inj_l "im") in E. apply (cut_first "_" (join "-" (map str_int l)) (String "_" s) (join "-" (map str_int l')) (String "_" t)) in E;
        try (apply join_ints_no_char; [reflexivity|discriminate]).
      destruct E as [E1 E2]. injection E2 as ->. apply join_ints_inj in E1. subst. auto.
    + injection E as ->. auto.
Qed.
Lemma same_clustering_repr c c' : same_clustering c c' -> c_repr c = c_repr c'.
Proof.
  destruct c, c'; cbn [same_clustering]; try tauto.
  - intros ->. auto.
  - intros (E1 & E2 & E3 & E4). cbn [c_repr]. unfold kmeta_repr. rewrite E1, E2, E3, E4. auto.
Qed.
Lemma c_repr_same c c' : has_char "_" (mode_name c) = false -> has_char "_" (mode_name c') = false -> c_repr c = c_repr c' -> same_clustering c c'.
Proof. intros H H' E. apply (c_repr_prefix c c' "" "" H H'). rewrite E. auto. Qed.
Lemma same_region_repr r r' : same_region r r' -> rmeta_repr r = rmeta_repr r'.
Proof. intros (E1 & E2 & E3 & E4 & E5). unfold rmeta_repr. rewrite E1, E2, E3, E4, E5. auto. Qed.

(** the string of a prediction region followed by two underscores *)
Lemma region_prefix g g' s t : prediction_region_as_str g ++ "__" ++ s = prediction_region_as_str g' ++ "__" ++ t -> g = g' /\ s = t.
Proof.
  destruct g as [a b c d], g' as [a' b' c' d']. unfold prediction_region_as_str. cbn [x1 x2 y1 y2]. rewrite !sapp_assoc. intros E.
  apply (sapp_inj_l "region-") in E.
  apply (str_int_dash a a') in E. destruct E as [-> E]. apply (str_int_dash b b') in E. destruct E as [-> E].
  apply (str_int_dash c c') in E. destruct E as [-> E]. apply str_int_prefix in E; try reflexivity. destruct E as [-> E].
  injection E as ->. auto.
Qed.
Lemma region_str_no_slash g : has_char "/" (prediction_region_as_str g) = false.
Proof.
  assert (N : forall n, has_char "/" (str_int n) = false) by (intros; apply str_int_no_char; auto; discriminate).
  unfold prediction_region_as_str. rewrite !has_char_app, !N. reflexivity.
Qed.


Definition forecast_str (fl : Z) : string := if (0 <? fl)%Z then str_int fl else "_is".
Lemma forecast_prefix fl fl' s t : forecast_str fl ++ "__" ++ s = forecast_str fl' ++ "__" ++ t ->
  (fl = fl' \/ (fl <= 0 /\ fl' <= 0)%Z) /\ s = t.
Proof.
  assert (N : forall n u v, str_int n ++ u <> "_is" ++ v).
  { intros n u v E. destruct (str_int_cases n) as [[_ (w & Ew & Dw & Nw)]|[_ (w & Ew & Dw & Nw)]]; rewrite Ew in E.
    - destruct w as [|c w]; [congruence|]. cbn in E. injection E as -> _. cbn in Dw. discriminate.
    - discriminate. }
  unfold forecast_str. destruct (Z.ltb_spec 0 fl), (Z.ltb_spec 0 fl'); intros E.
  - apply str_int_prefix in E; try reflexivity. destruct E as [-> E]. injection E as ->. auto.
  - exfalso. eapply N; eauto.
  - exfalso. symmetry in E. eapply N; eauto.
  - apply sapp_inj_l in E. injection E as ->. split; auto.
Qed.


Lemma prefix_clustering p p' c c' s t : known_prefix p -> known_prefix p' ->
  p ++ "-" ++ c_repr c ++ s = p' ++ "-" ++ c_repr c' ++ t -> p = p' /\ c_repr c ++ s = c_repr c' ++ t.
Proof.
  assert (K : forall c s, (exists r, c_repr c ++ s = String "r" r) \/ (exists r, c_repr c ++ s = String "k" r)).
  { intros [k|m] u; [left; eexists; reflexivity|right]. cbn [c_repr]. unfold kmeta_repr. destruct (km_init m); eexists; reflexivity. }
  intros [<-|[<-|[<-|[]]]] [<-|[<-|[<-|[]]]] E; try discriminate E; cbn in E; (injection E as E; auto).
  - exfalso. destruct (K c s) as [[r K']|[r K']]; rewrite K' in E; discriminate.
  - exfalso. destruct (K c' t) as [[r K']|[r K']]; rewrite K' in E; discriminate.
Qed.
Lemma prefix_basic p p' s t : known_prefix p -> known_prefix p' -> p ++ "__" ++ s = p' ++ "__" ++ t -> p = p' /\ s = t.
Proof.
  intros [<-|[<-|[<-|[]]]] [<-|[<-|[<-|[]]]] E; try discriminate E; cbn in E; (injection E as E; auto).
Qed.

(* ---------------------------------------------------------------- paths *)
Lemma mode_names c : mode_name c = mode_of c. Proof. reflexivity. Qed.

(** os.path.join with the same directory *)
Lemma path_join_dir home : exists pre, forall b, b <> "" -> (forall r, b <> String "/" r) -> path_join home b = pre ++ b.
Proof.
  exists (if (home =? "") || ends_with_slash home then home else home ++ "/"). intros b Hb Hs. unfold path_join.
  destruct b as [|ch b]; [congruence|]. destruct (Ascii.eqb_spec ch "/"); [subst; exfalso; eapply Hs; eauto|].
  destruct ((home =? "") || ends_with_slash home); auto. rewrite sapp_assoc. auto.
Qed.

Lemma join_cons_app a b l : join "/" (a :: b :: l) = a ++ "/" ++ join "/" (b :: l).
Proof. reflexivity. Qed.
(** joining one more name to a path made of names *)
Lemma path_join_names pre l b : l <> [] -> (forall s, In s l -> has_char "/" s = false /\ s <> "") -> has_char "/" b = false -> b <> "" ->
  path_join (pre ++ join "/" l) b = pre ++ join "/" (l ++ [b])%list.
Proof.
  intros Hl Hn Hb Hne.
  assert (E : join "/" (l ++ [b])%list = join "/" l ++ "/" ++ b /\ join "/" l <> "" /\ ends_with_slash (join "/" l) = false).
  { induction l as [|x l IH]; [congruence|]. destruct l as [|y l].
    - cbn [app join]. destruct (Hn x (or_introl eq_refl)). repeat split; auto. apply no_slash_end. auto.
    - destruct IH as (E1 & E2 & E3); [discriminate|intros s Hs; apply Hn; right; auto|]. cbn [app]. rewrite !join_cons_app.
      change (y :: l ++ [b])%list with ((y :: l) ++ [b])%list. rewrite E1. repeat split.
      + rewrite !sapp_assoc. auto.
      + apply app_nonempty_r. discriminate.
      + rewrite ends_slash_app by discriminate. rewrite ends_slash_app by auto. auto. }
  destruct E as (E1 & E2 & E3). rewrite E1. rewrite path_join_plain.
  - rewrite sapp_assoc. auto.
  - apply app_nonempty_r. auto.
  - rewrite ends_slash_app; auto.
  - auto.
  - apply no_slash_start. auto.
Qed.
Lemma path_join_names2 pre l a b : l <> [] -> (forall s, In s l -> has_char "/" s = false /\ s <> "") ->
  has_char "/" a = false -> a <> "" -> has_char "/" b = false -> b <> "" ->
  path_join (pre ++ join "/" l) (path_join a b) = pre ++ join "/" (l ++ [a; b])%list.
Proof.
  intros Hl Hn Ha Hae Hb Hbe. rewrite (path_join_plain a b) by auto using no_slash_end, no_slash_start.
  rewrite path_join_plain.
  - pose proof (path_join_names pre l a Hl Hn Ha Hae) as P1. rewrite path_join_plain in P1.
    + pose proof (path_join_names pre (l ++ [a])%list b) as P2. rewrite <- P1 in P2. rewrite path_join_plain in P2.
      * rewrite <- app_assoc in P2. cbn [app] in P2. rewrite <- P2; auto.
        -- rewrite !sapp_assoc. auto.
        -- destruct l; discriminate.
        -- intros s Hs. apply in_app_iff in Hs. destruct Hs as [Hs|[<-|[]]]; auto.
      * apply app_nonempty_r. discriminate.
      * rewrite ends_slash_app by discriminate. rewrite ends_slash_app by auto. apply no_slash_end. auto.
      * auto.
      * apply no_slash_start. auto.
    + apply app_nonempty_r. destruct l as [|x l]; [congruence|]. destruct (Hn x (or_introl eq_refl)). destruct l; [auto|]. rewrite join_cons_app. apply app_nonempty_l. auto.
    + clear - Hl Hn. rewrite ends_slash_app.
      * induction l as [|x l IH]; [congruence|]. destruct l as [|y l]; [cbn; apply no_slash_end; apply Hn; left; auto|].
        rewrite join_cons_app. rewrite ends_slash_app by discriminate. rewrite ends_slash_app.
        -- apply IH; [discriminate|]. intros s Hs. apply Hn. right. auto.
        -- destruct (Hn y) as [_ Hy]; [right; left; auto|]. destruct l; [auto|]. rewrite join_cons_app. apply app_nonempty_l. auto.
      * destruct l as [|x l]; [congruence|]. destruct (Hn x (or_introl eq_refl)). destruct l; [auto|]. rewrite join_cons_app. apply app_nonempty_l. auto.
    + auto.
    + apply no_slash_start. auto.
  - apply app_nonempty_r. destruct l as [|x l]; [congruence|]. destruct (Hn x (or_introl eq_refl)). destruct l; [auto|]. rewrite join_cons_app. apply app_nonempty_l. auto.
  - clear - Hl Hn. rewrite ends_slash_app.
    + induction l as [|x l IH]; [congruence|]. destruct l as [|y l]; [cbn; apply no_slash_end; apply Hn; left; auto|].
      rewrite join_cons_app. rewrite ends_slash_app by discriminate. rewrite ends_slash_app.
      * apply IH; [discriminate|]. intros s Hs. apply Hn. right. auto.
      * destruct (Hn y) as [_ Hy]; [right; left; auto|]. destruct l; [auto|]. rewrite join_cons_app. apply app_nonempty_l. auto.
    + destruct l as [|x l]; [congruence|]. destruct (Hn x (or_introl eq_refl)). destruct l; [auto|]. rewrite join_cons_app. apply app_nonempty_l. auto.
  - apply app_nonempty_l. auto.
  - destruct a as [|ch a]; [congruence|]. intros r E. injection E as -> _. cbn in Ha. discriminate.
Qed.
(** equal paths below the same directory have equal names *)
Lemma names_inj pre l l' : l <> [] -> l' <> [] -> (forall s, In s l -> has_char "/" s = false) -> (forall s, In s l' -> has_char "/" s = false) ->
  pre ++ join "/" l = pre ++ join "/" l' -> l = l'.
Proof.
  intros Hl Hl' Hn Hn' E. apply sapp_inj_l in E. rewrite <- (split_join "/" l), <- (split_join "/" l') by auto. rewrite E. auto.
Qed.
