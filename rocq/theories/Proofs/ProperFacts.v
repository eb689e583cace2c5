(** Proper regions: how they are iterated. *)
From Verif Require Import Base.Py Base.PyFacts Base.Arr Base.ArrFacts Model.Region Spec.Grid Spec.Regions Proofs.RegionFacts Proofs.PartitionFacts.

Lemma proper_s_swf : forall {A} (r : sregion A), proper_s r -> swf r.
Proof. intros A r [ d H | d p c H (W & X & Y) ]; cbn; auto. Qed.
Lemma proper_s_consistent : forall {A} (r : sregion A), proper_s r -> s_consistent r.
Proof. intros A r [ d H | d p c H (W & X & Y) ]; [ apply s_plain_consistent | apply s_cluster_consistent ]. Qed.

Lemma proper_twf : forall {A} (r : stregion A), proper_st r -> twf r.
Proof.
  intros A r H. induction H as [ d H | r mn mx H IH Hn Hm | r p c H IH U (W & X & Y) ]; cbn; auto.
  pose proof (proper_s_swf _ Hn). pose proof (proper_s_swf _ Hm). repeat split; auto.
Qed.
Lemma unclustered_readable : forall {A} (r : stregion A) pt, unclustered r = true -> t_readable r pt = true.
Proof. induction r as [ d | r IH p c | r IH mn mx ]; cbn; intros pt H; auto; discriminate. Qed.
Lemma proper_consistent : forall {A} (r : stregion A), proper_st r -> t_consistent r.
Proof.
  intros A r H. induction H as [ d H | r mn mx H IH Hn Hm | r p c H IH U (W & X & Y) ]; intros pt Hg Hm'; cbn in *; auto.
  rewrite Hm'. cbn. apply unclustered_readable. assumption.
Qed.

Lemma proper_items : forall {A} (r : stregion A), proper_st r ->
  t_items r = Ok (map (fun p => (p, t_ser r p)) (filter (t_memb r) (grid (t_x r) (t_y r)))).
Proof. intros A r H. unfold t_items. rewrite t_for_spec by (apply proper_twf || apply proper_consistent; assumption). reflexivity. Qed.

Lemma proper_s_items : forall {A} (dflt : A) (r : sregion A), proper_s r ->
  s_items r = Ok (map (fun p => (p, s_val r dflt p)) (filter (s_memb r) (grid (s_x r) (s_y r)))).
Proof. intros A dflt r H. unfold s_items. rewrite (s_for_spec dflt) by (apply proper_s_swf || apply proper_s_consistent; assumption). reflexivity. Qed.

Lemma in_items : forall {A} (r : stregion A) items pt s, proper_st r -> t_items r = Ok items ->
  (In (pt, s) items <-> in_grid (t_x r) (t_y r) pt /\ t_memb r pt = true /\ s = t_ser r pt).
Proof.
  intros A r items pt s H E. rewrite proper_items in E by assumption. injection E as <-. rewrite in_map_iff. split.
  - intros (q & [= <- <-] & Hq). apply filter_In in Hq. rewrite in_grid_iff in Hq. tauto.
  - intros (Hg & Hm & ->). exists pt. split; auto. apply filter_In. rewrite in_grid_iff. auto.
Qed.
Lemma in_item_points : forall {A} (r : stregion A) items pt, proper_st r -> t_items r = Ok items ->
  (In pt (map fst items) <-> in_grid (t_x r) (t_y r) pt /\ t_memb r pt = true).
Proof.
  intros A r items pt H E. rewrite in_map_iff. split.
  - intros ([ q s ] & <- & Hin). apply (in_items r) in Hin; auto. cbn. tauto.
  - intros (Hg & Hm). exists (pt, t_ser r pt). split; auto. apply (in_items r); auto.
Qed.
Lemma items_points : forall {A} (r : stregion A) items, proper_st r -> t_items r = Ok items ->
  map fst items = filter (t_memb r) (grid (t_x r) (t_y r)).
Proof. intros A r items H E. rewrite proper_items in E by assumption. injection E as <-. rewrite map_map. apply map_id. Qed.

Lemma in_s_items : forall {A} (dflt : A) (r : sregion A) items pt v, proper_s r -> s_items r = Ok items ->
  (In (pt, v) items <-> in_grid (s_x r) (s_y r) pt /\ s_memb r pt = true /\ v = s_val r dflt pt).
Proof.
  intros A dflt r items pt v H E. rewrite (proper_s_items dflt) in E by assumption. injection E as <-. rewrite in_map_iff. split.
  - intros (q & [= <- <-] & Hq). apply filter_In in Hq. rewrite in_grid_iff in Hq. tauto.
  - intros (Hg & Hm & ->). exists pt. split; auto. apply filter_In. rewrite in_grid_iff. auto.
Qed.

(* ---------- derived regions ---------- *)
Lemma unclustered_new_spatial : forall {A B} (r : stregion A) (m : arr2 B), unclustered r = true -> t_new_spatial r m = SPlain m.
Proof. induction r as [ d | r IH p c | r IH mn mx ]; cbn; intros m H; auto; discriminate. Qed.

Lemma proper_new_spatial : forall {A B} (r : stregion A) (m : arr2 B), proper_st r -> wf2 m -> a2x m = t_x r -> a2y m = t_y r ->
  proper_s (t_new_spatial r m) /\ s_data (t_new_spatial r m) = m /\ s_memb (t_new_spatial r m) = t_memb r.
Proof.
  intros A B r m H. induction H as [ d H | r mn mx H IH Hn Hm | r p c H IH U (W & X & Y) ]; intros Hw Ex Ey; cbn.
  - split; [ constructor | split ]; auto.
  - apply IH; assumption.
  - rewrite unclustered_new_spatial by assumption. split; [ | split; reflexivity ].
    constructor; auto. unfold t_x, t_y in *. cbn in *. repeat split; congruence.
Qed.

Lemma proper_new_st : forall {A B} (r : sregion A) (m : arr3 B), proper_s r -> wf3 m -> a3x m = s_x r -> a3y m = s_y r ->
  proper_st (s_new_st r m) /\ t_data (s_new_st r m) = m /\ t_memb (s_new_st r m) = s_memb r.
Proof.
  intros A B r m H. destruct H as [ d H | d p c H (W & X & Y) ]; intros Hw Ex Ey; cbn.
  - split; [ constructor | split ]; auto.
  - split; [ | split; reflexivity ]. constructor; [ constructor; assumption | reflexivity | ]. unfold t_x, t_y, s_x, s_y in *. cbn in *. repeat split; congruence.
Qed.

Lemma proper_t_new_st : forall {A} (r : stregion A) (m : arr3 A), proper_st r -> wf3 m -> a3x m = t_x r -> a3y m = t_y r ->
  proper_st (t_new_st r m) /\ t_data (t_new_st r m) = m /\ t_memb (t_new_st r m) = t_memb r /\ unclustered (t_new_st r m) = unclustered r.
Proof.
  intros A r m H. induction H as [ d H | r mn mx H IH Hn Hm | r p c H IH U (W & X & Y) ]; intros Hw Ex Ey; cbn.
  - split; [ constructor | ]; auto.
  - destruct IH as (I1 & I2 & I3 & I4); [ assumption .. | ]. split; [ | split; [ | split ] ]; auto.
    constructor; auto; unfold t_x, t_y in *; cbn in *; rewrite I2; congruence.
  - destruct IH as (I1 & I2 & I3 & I4); [ assumption .. | ]. split; [ | split; [ | split ] ]; auto.
    constructor; [ assumption | congruence | ]. unfold t_x, t_y in *. cbn in *. rewrite I2. repeat split; congruence.
Qed.

(* ---------- applying a function region ---------- *)
Lemma first_failure : forall {T V} (F : T -> res V) (l : list T),
  (forall t, In t l -> exists v, F t = Ok v) \/
  exists pre t post e, l = pre ++ t :: post /\ (forall u, In u pre -> exists v, F u = Ok v) /\ F t = Raise e.
Proof.
  intros T V F l. induction l as [ | a l IH ]; [ left; intros ? [] | ]. destruct (F a) as [ v | e ] eqn:E.
  - destruct IH as [ IH | (pre & t & post & e & -> & H & Ht) ].
    + left. intros t [ <- | Ht ]; eauto.
    + right. exists (a :: pre), t, post, e. split; [ reflexivity | split; [ | exact Ht ] ]. intros u [ <- | Hu ]; eauto.
  - right. exists [], a, l, e. split; [ reflexivity | split; [ intros ? [] | exact E ] ].
Qed.

Lemma apply_cases : forall {A B} (zero : B) (f : fregion (list A) B) (r : stregion A) items,
  proper_st r -> t_items r = Ok items -> f_x f = t_x r -> f_y f = t_y r ->
  (exists m, t_apply_scalar zero f r = Ok (t_new_spatial r m) /\ wf2 m /\ a2x m = t_x r /\ a2y m = t_y r /\
     (forall pt s, In (pt, s) items -> exists v, (fn <- f_at f pt ;; fn s) = Ok v /\ get2 m (fst pt) (snd pt) = Ok v) /\
     (forall pt, in_grid (t_x r) (t_y r) pt -> ~ In pt (map fst items) -> get2 m (fst pt) (snd pt) = Ok zero)) \/
  (exists pt s e, In (pt, s) items /\ (fn <- f_at f pt ;; fn s) = Raise e /\ t_apply_scalar zero f r = Raise e).
Proof.
  intros A B zero f r items Hr Ei Ex Ey. set (F := fun it : point * list A => fn <- f_at f (fst it) ;; fn (snd it)).
  destruct (first_failure F items) as [ Hall | (pre & [ pt s ] & post & e & El & Hpre & He) ].
  - left. set (g := fun (pt : point) (s : list A) => match F (pt, s) with Ok v => v | Raise _ => zero end).
    destruct (t_apply_scalar_spec zero f r g) as (m & E & W & X & Y & P).
    + apply proper_twf; assumption.
    + apply proper_consistent; assumption.
    + assumption.
    + assumption.
    + intros pt Hg Hm. destruct (Hall (pt, t_ser r pt)) as [ v Hv ]; [ apply (in_items r); auto | ].
      unfold g. rewrite Hv. unfold F in Hv. cbn [fst snd] in Hv. destruct (f_at f pt) as [ fn | ]; [ | discriminate ]. eauto.
    + exists m. repeat split; auto.
      * intros pt s Hin. destruct (Hall _ Hin) as [ v Hv ]. exists v. split; [ exact Hv | ].
        apply (in_items r) in Hin; auto. destruct Hin as (Hg & Hm & ->). rewrite P, Hm by assumption. unfold g. rewrite Hv. reflexivity.
      * intros pt Hg Hn. rewrite P by assumption. destruct (t_memb r pt) eqn:Em; [ | reflexivity ].
        exfalso. apply Hn. apply (in_item_points r); auto.
  - right. exists pt, s, e. split; [ rewrite El; apply in_or_app; right; left; reflexivity | ]. split; [ exact He | ].
    unfold t_apply_scalar. rewrite Ex, Ey, !Nat.eqb_refl. cbn [py_assert bind]. rewrite Ei. cbn [bind].
    assert (Hg : forall q u, In (q, u) pre -> in_grid (t_x r) (t_y r) q).
    { intros q u Hq. assert (In (q, u) items) as Hin by (rewrite El; apply in_or_app; auto). apply (in_items r) in Hin; tauto. }
    rewrite El, foldM_app.
    assert (G : forall (m : arr2 B), wf2 m -> a2x m = t_x r -> a2y m = t_y r ->
      exists m', foldM (apply_scalar_step f) pre m = Ok m').
    { clear El. induction pre as [ | [ q u ] pre IH ]; intros m W X Y; [ cbn; eauto | ]. cbn [foldM].
      destruct (Hpre (q, u)) as [ v Hv ]; [ left; reflexivity | ]. unfold F in Hv. cbn [fst snd] in Hv.
      unfold apply_scalar_step at 1. destruct (f_at f q) as [ fn | ]; [ | discriminate ]. cbn [bind] in *. rewrite Hv. cbn [bind].
      destruct (Hg q u) as [ G1 G2 ]; [ left; reflexivity | ].
      destruct (set2_spec m (fst q) (snd q) v) as (m' & E' & W' & X' & Y' & _); [ assumption | congruence | congruence | ].
      rewrite E'. cbn [bind]. apply IH; try congruence.
      - intros t Ht. apply Hpre. right. assumption.
      - intros q' u' Hq'. apply (Hg q' u'). right. assumption. }
    destruct (G (full2 (t_x r) (t_y r) zero)) as [ m' -> ]; [ apply wf2_full | reflexivity | reflexivity | ].
    cbn [bind foldM]. unfold apply_scalar_step at 1. unfold F in He. cbn [fst snd] in He.
    destruct (f_at f pt) as [ fn | ]; cbn [bind] in *; [ rewrite He; reflexivity | congruence ].
Qed.

Lemma apply_shape : forall {A B} (zero : B) (f : fregion (list A) B) (r : stregion A) R,
  t_apply_scalar zero f r = Ok R -> f_x f = t_x r /\ f_y f = t_y r.
Proof.
  intros A B zero f r R H. unfold t_apply_scalar in H. destruct (t_x r =? f_x f) eqn:E1; [ | discriminate ].
  cbn in H. destruct (t_y r =? f_y f) eqn:E2; [ | discriminate ]. apply Nat.eqb_eq in E1, E2. auto.
Qed.
