(** C131, C132: the k-medoids algorithm of iris_kmedoid.py and its count of matches. *)
From Coq Require Import Lia.
From Verif Require Import Base.Py Base.PyFacts Base.Float Base.FloatFacts Model.Iris Spec.Iris.
From Coq Require Import ZifyBool ZifyNat.
Local Notation length := List.length.
Local Open Scope nat_scope.

Lemma replace_length {A} i (x : A) l : length (replace i x l) = length l.
Proof.
  unfold replace. rewrite app_length, firstn_length. pose proof (skipn_length i l) as H. destruct (skipn i l); cbn [length] in *; lia.
Qed.
Lemma replace_nth {A} i (x : A) l j : nth_error (replace i x l) j = if (j =? i) then match nth_error l i with Some _ => Some x | None => None end else nth_error l j.
Proof.
  unfold replace. revert l j. induction i as [ | i IH ]; intros [ | a l ] [ | j ]; cbn; try reflexivity.
  - destruct (j =? i); [ destruct (i) | ]; reflexivity.
  - apply IH.
Qed.

Lemma nth_ext_error {A} (l l' : list A) : (forall i m, nth_error l' i = Some m -> nth_error l i = Some m) -> length l = length l' -> l = l'.
Proof.
  revert l'. induction l as [ | a l IH ]; intros [ | b l' ] H L; try discriminate; [ reflexivity | ]. pose proof (H 0 b eq_refl) as E. injection E as ->. f_equal.
  apply IH; [ intros i m Hm; apply (H (S i) m Hm) | cbn in L; lia ].
Qed.

Section Iris.
Context {A : Type} (d_p : A -> A -> fnum).
Notation far := (far d_p).

(** members *)
Lemma in_members (points : list A) labels i (x : A) : In x (members points labels i) <-> exists n, nth_error points n = Some x /\ nth_error labels n = Some i.
Proof.
  unfold members. rewrite in_map_iff. split.
  - intros ([ l y ] & E & H). cbn in E. subst y. apply filter_In in H. destruct H as [ H Hl ]. apply Nat.eqb_eq in Hl. subst l.
    apply In_nth_error in H. destruct H as [ n H ]. exists n. revert labels n H. induction points as [ | a points IH ]; intros [ | l labels ] [ | n ] H; cbn in *; try discriminate; try (injection H as <- <-; auto).
    apply IH. exact H.
  - intros (n & Hp & Hl). exists (i, x). split; [ reflexivity | ]. apply filter_In. split; [ | apply Nat.eqb_refl ].
    revert labels n Hp Hl. induction points as [ | a points IH ]; intros [ | l labels ] [ | n ] Hp Hl; cbn in *; try discriminate.
    + injection Hp as ->. injection Hl as ->. left. reflexivity.
    + right. eapply IH; eauto.
Qed.

(** trying the members *)
Lemma try_members points l m : let r := fold_left (try_member d_p points) l (far points m, m) in
  fst r = far points (snd r) /\ (snd r = m \/ (In (snd r) l /\ flt (far points (snd r)) (far points m) = true)) /\ forall y, In y l -> flt (far points y) (far points (snd r)) = false.
Proof.
  cbv zeta. induction l as [ | a l IH ] using rev_ind; [ cbn; split; [ reflexivity | ]; split; [ left; reflexivity | intros y [] ] | ].
  rewrite fold_left_app. cbn [fold_left]. destruct IH as (E & C & B). set (st := fold_left (try_member d_p points) l (far points m, m)) in *.
  assert (Et : try_member d_p points st a = if flt (far points a) (far points (snd st)) then (far points a, a) else st) by (rewrite <- E; reflexivity).
  rewrite Et. destruct (flt (far points a) (far points (snd st))) eqn:Hlt; cbn [fst snd].
  - split; [ reflexivity | ]. split.
    + right. split; [ apply in_or_app; right; left; reflexivity | ]. destruct C as [ C | [ _ C ] ]; [ rewrite C in Hlt; exact Hlt | eapply flt_trans; eauto ].
    + intros y Hy. apply in_app_or in Hy. destruct Hy as [ Hy | [ <- | [] ] ]; [ | apply flt_irrefl ].
      destruct (flt (far points y) (far points a)) eqn:F; [ | reflexivity ]. rewrite <- (B y Hy). symmetry. eapply flt_trans; eauto.
  - split; [ exact E | ]. split.
    + destruct C as [ C | [ Ci C ] ]; [ left; exact C | right; split; [ apply in_or_app; left; exact Ci | exact C ] ].
    + intros y Hy. apply in_app_or in Hy. destruct Hy as [ Hy | [ <- | [] ] ]; [ apply B, Hy | exact Hlt ].
Qed.

(** what one update does to one medoid *)
Definition improved (points : list A) (labels : list nat) (i : nat) (m m' : A) : Prop :=
  (m' = m \/ ((exists n, nth_error points n = Some m' /\ nth_error labels n = Some i) /\ flt (far points m') (far points m) = true)) /\
  forall n y, nth_error points n = Some y -> nth_error labels n = Some i -> flt (far points y) (far points m') = false.
Lemma update_one_nth points labels ms i m : nth_error ms i = Some m -> exists m', improved points labels i m m' /\ update_one d_p points labels ms i = replace i m' ms.
Proof.
  intros H. unfold update_one. rewrite H. change (dissimilarity d_p points m) with (far points m). destruct (try_members points (members points labels i) m) as (_ & C & B).
  eexists. split; [ | reflexivity ]. split.
  - destruct C as [ C | [ Ci C ] ]; [ left; exact C | right; split; [ apply in_members, Ci | exact C ] ].
  - intros n y Hn Hl. apply B. apply in_members. eauto.
Qed.
Lemma update_fold points labels order : NoDup order -> forall ms, (forall i, In i order -> i < length ms) ->
  let ms' := fold_left (update_one d_p points labels) order ms in
  length ms' = length ms /\ forall i m, nth_error ms i = Some m -> exists m', nth_error ms' i = Some m' /\ (if in_dec Nat.eq_dec i order then improved points labels i m m' else m' = m).
Proof.
  cbv zeta. induction order as [ | a order IH ]; intros Hnd ms Hr.
  - split; [ reflexivity | ]. intros i m H. exists m. split; [ exact H | ]. destruct (in_dec Nat.eq_dec i []) as [ [] | _ ]. reflexivity.
  - apply NoDup_cons_iff in Hnd. destruct Hnd as [ Hna Hnd ]. cbn [fold_left].
    destruct (nth_error ms a) as [ ma | ] eqn:Ea; [ | apply nth_error_None in Ea; specialize (Hr a (or_introl eq_refl)); lia ].
    destruct (update_one_nth points labels ms a ma Ea) as (ma' & Him & Eu). rewrite Eu.
    destruct (IH Hnd (replace a ma' ms)) as [ L H ]; [ intros i Hi; rewrite replace_length; apply Hr; right; exact Hi | ].
    split; [ rewrite L; apply replace_length | ]. intros i m Hm. destruct (Nat.eq_dec i a) as [ -> | Hne ].
    + rewrite Ea in Hm. injection Hm as <-. destruct (H a ma') as (m' & E' & D); [ rewrite replace_nth, Nat.eqb_refl, Ea; reflexivity | ].
      exists m'. split; [ exact E' | ]. destruct (in_dec Nat.eq_dec a order) as [ Hin | _ ]; [ contradiction | ]. subst m'.
      destruct (in_dec Nat.eq_dec a (a :: order)) as [ _ | Hn ]; [ exact Him | exfalso; apply Hn; left; reflexivity ].
    + destruct (H i m) as (m' & E' & D); [ rewrite replace_nth; replace (i =? a) with false by lia; exact Hm | ].
      exists m'. split; [ exact E' | ]. destruct (in_dec Nat.eq_dec i order) as [ Hin | Hn ], (in_dec Nat.eq_dec i (a :: order)) as [ Hin' | Hn' ]; auto.
      * exfalso. apply Hn'. right. exact Hin.
      * destruct Hin' as [ -> | Hin' ]; contradiction.
Qed.
Lemma assigned k S labels : assign_labels k S = Ok labels -> length labels = length S /\ forall n row, nth_error S n = Some row -> exists i, nth_error labels n = Some i /\ np_argmin row = Ok i.
Proof.
  unfold assign_labels. destruct (k =? 0); [ discriminate | ]. revert labels. induction S as [ | row S IH ]; intros labels; cbn.
  - intros [= <-]. split; [ reflexivity | ]. intros [ | n ]; discriminate.
  - destruct (np_argmin row) as [ i | ] eqn:E; cbn; [ | discriminate ]. destruct (mapM np_argmin S) as [ l | ]; cbn; [ | discriminate ]. intros [= <-].
    destruct (IH l eq_refl) as [ L H ]. split; [ cbn; lia | ]. intros [ | n ] r Hr; cbn in *; [ injection Hr as <-; eauto | apply H, Hr ].
Qed.
Lemma assign_ok k S : 0 < k -> (forall row, In row S -> length row = k) -> exists labels, assign_labels k S = Ok labels.
Proof.
  intros Hk. unfold assign_labels. replace (k =? 0) with false by lia. induction S as [ | row S IH ]; intros H; cbn; [ eauto | ].
  destruct (np_argmin_ok row) as [ i E ]; [ intros ->; specialize (H [] (or_introl eq_refl)); cbn in H; lia | ]. rewrite E. cbn.
  destruct IH as [ l El ]; [ intros r Hr; apply H; right; exact Hr | ]. rewrite El. cbn. eauto.
Qed.
Lemma rows_d_p X ms : forall row, In row (compute_d_p d_p X ms) -> length row = length ms.
Proof. intros row H. unfold compute_d_p in H. apply in_map_iff in H. destruct H as (x & <- & _). apply map_length. Qed.

(** one pass over the global data set *)
Lemma update_spec points order ms : enumerates order -> 0 < length ms -> exists labels ms',
  assign_labels (length ms) (compute_d_p d_p points ms) = Ok labels /\ update_medoids d_p points order ms = Ok ms' /\ length ms' = length ms /\
  forall i m, nth_error ms i = Some m -> exists m', nth_error ms' i = Some m' /\ improved points labels i m m'.
Proof.
  intros Ho Hk. destruct (assign_ok (length ms) (compute_d_p d_p points ms) Hk (rows_d_p points ms)) as [ labels El ].
  destruct (Ho labels) as [ Hnd Hin ]. destruct (assigned _ _ _ El) as [ Ll Hl ].
  assert (Hlt : forall i, In i (order labels) -> i < length ms).
  { intros i Hi. apply Hin in Hi. apply In_nth_error in Hi. destruct Hi as [ n Hn ]. destruct (nth_error (compute_d_p d_p points ms) n) as [ row | ] eqn:Er.
    - destruct (Hl n row Er) as (i' & E' & Em). rewrite Hn in E'. injection E' as <-. apply np_argmin_lt in Em. rewrite (rows_d_p points ms row) in Em; [ exact Em | eapply nth_error_In; exact Er ].
    - apply nth_error_None in Er. assert (n < length labels) by (apply nth_error_Some; congruence). lia. }
  destruct (update_fold points labels (order labels) Hnd ms Hlt) as [ L H ]. exists labels. eexists. split; [ exact El | ]. unfold update_medoids. rewrite El. cbn [bind].
  split; [ reflexivity | ]. split; [ exact L | ]. intros i m Hm. destruct (H i m Hm) as (m' & E' & D). exists m'. split; [ exact E' | ].
  destruct (in_dec Nat.eq_dec i (order labels)) as [ _ | Hn ]; [ exact D | ]. subst m'. split; [ left; reflexivity | ].
  intros n y _ Hy. exfalso. apply Hn. apply Hin. eapply nth_error_In; exact Hy.
Qed.

(* ---------- the loop ends ---------- *)
Definition rank (points : list A) (x : A) : nat := length (filter (fun y => flt (far points y) (far points x)) points).
Definition ranks (points ms : list A) : nat := list_sum (map (rank points) ms).
Lemma filter_le (f g : A -> bool) l : (forall x, f x = true -> g x = true) -> length (filter f l) <= length (filter g l).
Proof. intros H. induction l as [ | a l IH ]; cbn; [ lia | ]. destruct (f a) eqn:E; [ rewrite (H a E); cbn; lia | destruct (g a); cbn; lia ]. Qed.
Lemma filter_lt (f g : A -> bool) l x : (forall x, f x = true -> g x = true) -> In x l -> f x = false -> g x = true -> length (filter f l) < length (filter g l).
Proof.
  intros H Hin Hf Hg. induction l as [ | a l IH ]; [ destruct Hin | ]. cbn. destruct Hin as [ -> | Hin ].
  - rewrite Hf, Hg. cbn. pose proof (filter_le f g l H). lia.
  - specialize (IH Hin). destruct (f a) eqn:E; [ rewrite (H a E); cbn; lia | destruct (g a); cbn; lia ].
Qed.
Lemma rank_improved points labels i m m' : improved points labels i m m' -> m' = m \/ (In m' points /\ rank points m' < rank points m).
Proof.
  intros [ [ E | [ (n & Hn & _) Hlt ] ] _ ]; [ left; exact E | right ]. split; [ eapply nth_error_In; exact Hn | ]. unfold rank. apply filter_lt with (x := m').
  - intros x Hx. eapply flt_trans; eauto.
  - eapply nth_error_In; exact Hn.
  - apply flt_irrefl.
  - exact Hlt.
Qed.
Context (eqb : A -> A -> bool).
Hypothesis eqb_eq : forall x y, eqb x y = true <-> x = y.
Lemma converged_refl ms : has_converged eqb ms ms = true.
Proof.
  assert (H : forallb (fun x => existsb (eqb x) ms) ms = true); [ | unfold has_converged; rewrite H; reflexivity ].
  apply forallb_forall. intros x Hx. apply existsb_exists. exists x. split; [ exact Hx | apply eqb_eq; reflexivity ].
Qed.
Lemma ranks_decrease points ms : forall ms', length ms' = length ms -> (forall i m, nth_error ms i = Some m -> exists m', nth_error ms' i = Some m' /\ (m' = m \/ rank points m' < rank points m)) ->
  ms' = ms \/ ranks points ms' < ranks points ms.
Proof.
  unfold ranks. induction ms as [ | m ms IH ]; intros [ | m' ms' ] L H; try discriminate; [ left; reflexivity | ]. cbn [map list_sum fold_right].
  destruct (H 0 m eq_refl) as (m0 & E0 & D). injection E0 as <-. destruct (IH ms') as [ -> | Hlt ].
  - cbn in L. lia.
  - intros i m1 Hm. apply (H (S i) m1 Hm).
  - destruct D as [ -> | D ]; [ left; reflexivity | right; cbn; lia ].
  - right. cbn. unfold list_sum in Hlt. destruct D as [ -> | D ]; lia.
Qed.
Lemma ranks_bound points ms : ranks points ms <= length ms * length points.
Proof.
  unfold ranks. induction ms as [ | m ms IH ]; cbn; [ lia | ]. assert (rank points m <= length points); [ | unfold list_sum in IH; lia ].
  unfold rank. generalize (fun y => flt (far points y) (far points m)). intros f. clear. induction points as [ | a l IHl ]; cbn; [ lia | ]. destruct (f a); cbn; lia.
Qed.
Lemma loop_ends points order X max_steps : enumerates order -> forall n i ms labels, 0 < length ms -> ranks points ms <= n ->
  exists r, forall fuel, n + 2 <= fuel -> iris_loop eqb d_p fuel points order X max_steps i false ms labels = Ok r.
Proof.
  intros Ho. induction n as [ n IH ] using lt_wf_ind. intros i ms labels Hk Hn.
  destruct (match max_steps with None => true | Some b => (i <=? b)%Z end) eqn:Emax.
  2: { exists (ms, labels). intros [ | fuel ] Hf; [ lia | ]. cbn [iris_loop negb andb]. rewrite Emax. reflexivity. }
  destruct (update_spec points order ms Ho Hk) as (lp & ms' & _ & Eu & L & Him). destruct (assign_ok (length ms) (compute_d_p d_p X ms) Hk (rows_d_p X ms)) as [ labels' El ].
  destruct (has_converged eqb ms ms') eqn:Ec.
  - exists (ms', labels'). intros [ | [ | fuel ] ] Hf; try lia. cbn [iris_loop negb andb]. rewrite Emax, El. cbn [bind]. rewrite Eu. cbn [bind]. rewrite Ec. reflexivity.
  - assert (Hlt : ranks points ms' < ranks points ms).
    { destruct (ranks_decrease points ms ms' L) as [ -> | H ]; [ | rewrite converged_refl in Ec; discriminate | exact H ].
      intros j m Hm. destruct (Him j m Hm) as (m' & E' & D). exists m'. split; [ exact E' | ]. destruct (rank_improved _ _ _ _ _ D) as [ -> | [ _ H ] ]; auto. }
    destruct (IH (ranks points ms')) with (i := (i + 1)%Z) (ms := ms') (labels := labels') as [ r Hr ]; [ lia | lia | lia | ].
    exists r. intros [ | fuel ] Hf; [ lia | ]. cbn [iris_loop negb andb]. rewrite Emax, El. cbn [bind]. rewrite Eu. cbn [bind]. rewrite Ec. apply Hr. lia.
Qed.

(* ---------- the result ---------- *)
Definition last_pass (points X : list A) (start ms : list A) (labels : list nat) : Prop :=
  exists old lp, length old = length start /\ assign_labels (length old) (compute_d_p d_p points old) = Ok lp /\ assign_labels (length old) (compute_d_p d_p X old) = Ok labels /\
    length ms = length old /\ (forall i m, nth_error old i = Some m -> exists m', nth_error ms i = Some m' /\ improved points lp i m m') /\ has_converged eqb old ms = true /\
    (forall i m0, nth_error start i = Some m0 -> exists m, nth_error old i = Some m /\ (m = m0 \/ (In m points /\ flt (far points m) (far points m0) = true))).
Lemma loop_result points order X : enumerates order -> forall fuel i ms labels ms1 labels1 start, 0 < length ms -> length ms = length start ->
  (forall i m0, nth_error start i = Some m0 -> exists m, nth_error ms i = Some m /\ (m = m0 \/ (In m points /\ flt (far points m) (far points m0) = true))) ->
  iris_loop eqb d_p fuel points order X None i false ms labels = Ok (ms1, labels1) -> last_pass points X start ms1 labels1.
Proof.
  intros Ho. induction fuel as [ | fuel IH ]; intros i ms labels ms1 labels1 start Hk Hl Hs E; [ discriminate | ]. cbn [iris_loop negb andb] in E.
  destruct (update_spec points order ms Ho Hk) as (lp & ms' & Elp & Eu & L & Him). destruct (assign_ok (length ms) (compute_d_p d_p X ms) Hk (rows_d_p X ms)) as [ labels' El ].
  rewrite El in E. cbn [bind] in E. rewrite Eu in E. cbn [bind] in E. destruct (has_converged eqb ms ms') eqn:Ec.
  - destruct fuel as [ | fuel ]; [ discriminate | ]. cbn [iris_loop negb andb] in E. injection E as <- <-. exists ms, lp. repeat (split; [ first [ exact Hl | exact Elp | exact El | exact L | exact Him | exact Ec ] | ]). exact Hs.
  - eapply (IH _ ms' labels' _ _ start); [ lia | lia | | exact E ]. intros j m0 Hj. destruct (Hs j m0 Hj) as (m & Em & D). destruct (Him j m Em) as (m' & Em' & [ D' _ ]). exists m'. split; [ exact Em' | ].
    destruct D' as [ -> | [ (n & Hn & _) Hlt ] ]; [ exact D | ]. right. split; [ eapply nth_error_In; exact Hn | ]. destruct D as [ -> | [ _ D ] ]; [ exact Hlt | eapply flt_trans; eauto ].
Qed.
Lemma labels_nearest X ms labels : (forall x m, In x X -> In m ms -> is_nan (d_p x m) = false) -> assign_labels (length ms) (compute_d_p d_p X ms) = Ok labels ->
  length labels = length X /\ forall n x i, nth_error X n = Some x -> nth_error labels n = Some i -> nearest d_p ms x i.
Proof.
  intros Hnan El. destruct (assigned _ _ _ El) as [ L H ]. split; [ rewrite L; apply map_length | ]. intros n x i Hx Hi.
  destruct (H n (map (d_p x) ms)) as (i' & Ei & Em); [ unfold compute_d_p; rewrite nth_error_map, Hx; reflexivity | ]. rewrite Hi in Ei. injection Ei as <-.
  edestruct np_argmin_spec with (2 := Em) as (v & Hv & B); [ intros v Hv; apply in_map_iff in Hv; destruct Hv as (m & <- & Hm); apply Hnan; [ eapply nth_error_In; exact Hx | exact Hm ] | ].
  rewrite nth_error_map in Hv. destruct (nth_error ms i) as [ m | ] eqn:Em0; [ | discriminate ]. injection Hv as <-. exists m. split; [ exact Em0 | ].
  intros j m' Hj. apply (B j (d_p x m')). rewrite nth_error_map, Hj. reflexivity.
Qed.
End Iris.

(** C131: the algorithm ends for every data set, distances, starting medoids and number of steps, also an unlimited one, if rows equal themselves
    (there is no NaN): the loop is passed at most k*n+1 times. *)
Theorem C131_ends : forall (A : Type) eqb (d_p : A -> A -> fnum) points order choice X k start starting max_steps, (forall x y, eqb x y = true <-> x = y) -> enumerates order ->
  match starting with Some l => start = l | None => init_medoids choice X k = Ok start end -> start <> [] ->
  exists r, forall fuel, length start * length points + 2 <= fuel -> iris_kmedoids eqb d_p fuel points order choice X k starting max_steps = Ok r.
Proof.
  intros A eqb d_p points order choice X k start starting max_steps He Ho Hst Hne.
  destruct (loop_ends d_p eqb He points order X max_steps Ho (length start * length points) 1%Z start (repeat 0 (length X))) as [ r Hr ].
  - destruct start; [ congruence | cbn; lia ].
  - eapply ranks_bound; eassumption.
  - exists r. intros fuel Hf. unfold iris_kmedoids. destruct starting as [ l | ]; [ subst l; cbn [bind] | rewrite Hst; cbn [bind] ]; apply Hr, Hf.
Qed.
Print Assumptions C131_ends.

(** C131: what the script finds (the data is the global data set, no limit of steps, starting with rows of the data): k medoids that are rows of the
    data; every row has the label of its nearest medoid, and no row of a cluster has a smaller sum of distances from all rows of the data
    than the medoid of the cluster.  The medoids have no greater sums than the starting ones.  It does not matter in which order a set is
    traversed. *)
Theorem C131_result : forall (A : Type) eqb (d_p : A -> A -> fnum) order choice X k start starting fuel ms labels, (forall x y, eqb x y = true <-> x = y) -> enumerates order ->
  distance_on d_p X -> match starting with Some l => start = l | None => init_medoids choice X k = Ok start end -> start <> [] -> (forall m, In m start -> In m X) ->
  iris_kmedoids eqb d_p fuel X order choice X k starting None = Ok (ms, labels) ->
  length ms = length start /\ (forall m, In m ms -> In m X) /\ length labels = length X /\
  (forall n x i, nth_error X n = Some x -> nth_error labels n = Some i -> nearest d_p ms x i) /\
  (forall n x i m, nth_error X n = Some x -> nth_error labels n = Some i -> nth_error ms i = Some m -> flt (far d_p X x) (far d_p X m) = false) /\
  (forall i m0 m, nth_error start i = Some m0 -> nth_error ms i = Some m -> m = m0 \/ flt (far d_p X m) (far d_p X m0) = true).
Proof.
  intros A eqb d_p order choice X k start starting fuel ms labels He Ho Hd Hst Hne Hin E. assert (Hk : 0 < length start) by (destruct start; [ congruence | cbn; lia ]).
  assert (E' : iris_loop eqb d_p fuel X order X None 1 false start (repeat 0 (length X)) = Ok (ms, labels)).
  { unfold iris_kmedoids in E. destruct starting as [ l | ]; [ subst l; exact E | rewrite Hst in E; exact E ]. }
  destruct (loop_result d_p eqb X order X Ho fuel 1%Z start (repeat 0 (length X)) ms labels start Hk eq_refl) with (2 := E') as (old & lp & Lo & Elp & El & L & Him & Hc & Hs).
  { intros i m0 H. exists m0. auto. }
  rewrite El in Elp. injection Elp as <-.
  assert (Hold : forall m, In m old -> In m X).
  { intros m Hm. apply In_nth_error in Hm. destruct Hm as [ i Hm ]. destruct (nth_error start i) as [ m0 | ] eqn:E0.
    - destruct (Hs i m0 E0) as (m1 & E1 & D). rewrite Hm in E1. injection E1 as <-. destruct D as [ -> | [ D _ ] ]; [ apply Hin; eapply nth_error_In; exact E0 | exact D ].
    - apply nth_error_None in E0. assert (i < length old) by (apply nth_error_Some; congruence). lia. }
  destruct (labels_nearest d_p X old labels) as [ Ll Hnear ]; [ intros x m Hx Hm; apply (Hd x m Hx (Hold m Hm)) | exact El | ].
  assert (Heq : ms = old).
  { assert (Hpt : forall i m, nth_error old i = Some m -> nth_error ms i = Some m).
    { intros i m Hm. destruct (Him i m Hm) as (m' & E1 & [ [ -> | [ (n & Hx & Hl) Hlt ] ] _ ]); [ exact E1 | ]. exfalso.
      destruct (Hnear n m' i Hx Hl) as (m1 & E2 & B). rewrite Hm in E2. injection E2 as <-.
      unfold has_converged in Hc. apply andb_prop in Hc. destruct Hc as [ _ Hc ]. rewrite forallb_forall in Hc. specialize (Hc m' (nth_error_In _ _ E1)). apply existsb_exists in Hc.
      destruct Hc as (o & Ho' & Eo). apply He in Eo. subst o. apply In_nth_error in Ho'. destruct Ho' as [ j Hj ]. destruct (B j m' Hj) as [ Hle _ ].
      assert (Hm' : In m' X) by (eapply nth_error_In; exact Hx). assert (HmX : In m X) by (apply Hold; eapply nth_error_In; exact Hm).
      destruct (Hd m' m Hm' HmX) as (_ & H0 & Hpos). assert (Hne' : m' <> m) by (intros ->; rewrite flt_irrefl in Hlt; discriminate). specialize (Hpos Hne').
      pose proof (flt_le_trans _ _ _ Hpos Hle) as F. rewrite feqb_sym in H0. rewrite (feqb_nlt _ _ H0) in F. discriminate. }
    apply (nth_ext_error ms old Hpt L). }
  subst old. split; [ lia | ]. split; [ exact Hold | ]. split; [ exact Ll | ]. split; [ exact Hnear | ]. split.
  - intros n x i m Hx Hl Hm. destruct (Him i m Hm) as (m' & E1 & [ _ B ]). rewrite Hm in E1. injection E1 as <-. apply (B n x Hx Hl).
  - intros i m0 m H0 Hm. destruct (Hs i m0 H0) as (m1 & E1 & D). rewrite Hm in E1. injection E1 as <-. destruct D as [ D | [ _ D ] ]; auto.
Qed.
Print Assumptions C131_result.

Lemma update_fold_nth {A} (d_p : A -> A -> fnum) points labels order : NoDup order -> forall ms i,
  nth_error (fold_left (update_one d_p points labels) order ms) i = if in_dec Nat.eq_dec i order then nth_error (update_one d_p points labels ms i) i else nth_error ms i.
Proof.
  induction order as [ | a order IH ]; intros Hnd ms i; [ destruct (in_dec Nat.eq_dec i []) as [ [] | _ ]; reflexivity | ].
  apply NoDup_cons_iff in Hnd. destruct Hnd as [ Hna Hnd ]. cbn [fold_left]. rewrite (IH Hnd).
  assert (Hother : forall l, a <> i -> nth_error (update_one d_p points labels l a) i = nth_error l i).
  { intros l Hne. unfold update_one. destruct (nth_error l a); [ | reflexivity ]. rewrite replace_nth. replace (i =? a) with false by lia. reflexivity. }
  destruct (Nat.eq_dec a i) as [ -> | Hne ].
  - destruct (in_dec Nat.eq_dec i order) as [ Hin | _ ]; [ contradiction | ]. destruct (in_dec Nat.eq_dec i (i :: order)) as [ _ | Hn ]; [ reflexivity | exfalso; apply Hn; left; reflexivity ].
  - destruct (in_dec Nat.eq_dec i order) as [ Hin | Hn ], (in_dec Nat.eq_dec i (a :: order)) as [ Hin' | Hn' ].
    + unfold update_one at 1 3. rewrite (Hother ms Hne). destruct (nth_error ms i) as [ m | ] eqn:Em; [ | rewrite (Hother ms Hne), Em; reflexivity ].
      rewrite !replace_nth, Nat.eqb_refl, (Hother ms Hne), Em. reflexivity.
    + exfalso. apply Hn'. right. exact Hin.
    + destruct Hin' as [ E | Hin' ]; contradiction.
    + apply Hother, Hne.
Qed.
Lemma nth_error_all {A} (l l' : list A) : (forall i, nth_error l i = nth_error l' i) -> l = l'.
Proof.
  revert l'. induction l as [ | a l IH ]; intros [ | b l' ] H; [ reflexivity | specialize (H 0); discriminate | specialize (H 0); discriminate | ].
  pose proof (H 0) as E. injection E as ->. f_equal. apply IH. intros i. apply (H (S i)).
Qed.

(** C131: the order in which Python traverses the set of the labels makes no difference. *)
Theorem C131_order : forall (A : Type) eqb (d_p : A -> A -> fnum) fuel points order order' choice X k starting max_steps, enumerates order -> enumerates order' ->
  iris_kmedoids eqb d_p fuel points order choice X k starting max_steps = iris_kmedoids eqb d_p fuel points order' choice X k starting max_steps.
Proof.
  intros A eqb d_p fuel points order order' choice X k starting max_steps Ho Ho'. unfold iris_kmedoids. destruct (match starting with None => _ | Some _ => _ end) as [ ms | ]; [ cbn [bind] | reflexivity ].
  assert (Hu : forall ms, update_medoids d_p points order ms = update_medoids d_p points order' ms).
  { clear ms. intros ms. unfold update_medoids. destruct (assign_labels _ _) as [ labels | ]; [ cbn [bind] | reflexivity ]. f_equal. apply nth_error_all. intros i.
    destruct (Ho labels) as [ N I ], (Ho' labels) as [ N' I' ]. rewrite (update_fold_nth d_p points labels _ N), (update_fold_nth d_p points labels _ N').
    destruct (in_dec Nat.eq_dec i (order labels)) as [ H | H ], (in_dec Nat.eq_dec i (order' labels)) as [ H' | H' ]; try reflexivity; exfalso; rewrite ?I, ?I' in *; contradiction. }
  generalize (repeat 0 (length X)), false, 1%Z. revert ms. induction fuel as [ | fuel IH ]; intros ms l c i; [ reflexivity | ]. cbn [iris_loop].
  destruct (_ && _)%bool; [ | reflexivity ]. destruct (assign_labels _ _); [ cbn [bind] | reflexivity ]. rewrite Hu. destruct (update_medoids _ _ _ _); [ cbn [bind]; apply IH | reflexivity ].
Qed.
Print Assumptions C131_order.

(** C131: without starting medoids, those drawn by numpy's choice are rows of the data, one for each index drawn. *)
Theorem C131_start : forall (A : Type) choice (X : list A) k l, choice (length X) k = Ok l -> (forall i, In i l -> (0 <= i < Z.of_nat (length X))%Z) ->
  exists start, init_medoids choice X k = Ok start /\ length start = length l /\ forall m, In m start -> In m X.
Proof.
  intros A choice X k l E H. unfold init_medoids. rewrite E. cbn [bind]. clear E. induction l as [ | i l IH ]; cbn [mapM].
  - exists []. split; [ reflexivity | ]. split; [ reflexivity | intros m [] ].
  - destruct IH as (st & Es & L & Hin); [ intros j Hj; apply H; right; exact Hj | ]. specialize (H i (or_introl eq_refl)).
    destruct (nth_error X (Z.to_nat i)) as [ x | ] eqn:Ex; [ | apply nth_error_None in Ex; lia ].
    replace (getitem X i) with (Ok x) by (symmetry; rewrite <- (Z2Nat.id i) by lia; apply getitem_in, Ex).
    rewrite Es. cbn. exists (x :: st). split; [ reflexivity | ]. split; [ cbn; lia | ]. intros m [ <- | Hm ]; [ eapply nth_error_In; exact Ex | apply Hin, Hm ].
Qed.
Print Assumptions C131_start.

(** C131: a number of steps is never exceeded, whatever the data and the equality of rows. *)
Theorem C131_steps : forall (A : Type) eqb (d_p : A -> A -> fnum) points order choice X k start n, enumerates order -> start <> [] ->
  exists r, forall fuel, Z.to_nat n < fuel -> iris_kmedoids eqb d_p fuel points order choice X k (Some start) (Some n) = Ok r.
Proof.
  intros A eqb d_p points order choice X k start n Ho Hne. assert (Hk : 0 < length start) by (destruct start; [ congruence | cbn; lia ]). clear Hne. unfold iris_kmedoids. cbn [bind].
  assert (H : forall s i c ms labels, 0 < length ms -> Z.to_nat (n + 1 - i) <= s -> exists r, forall fuel, s < fuel -> iris_loop eqb d_p fuel points order X (Some n) i c ms labels = Ok r).
  { induction s as [ | s IH ]; intros i c ms labels Hm Hs.
    - exists (ms, labels). intros [ | fuel ] Hf; [ lia | ]. cbn [iris_loop]. replace (i <=? n)%Z with false by lia. rewrite Bool.andb_false_r. reflexivity.
    - destruct (negb c && (i <=? n)%Z)%bool eqn:B; [ | exists (ms, labels); intros [ | fuel ] Hf; [ lia | cbn [iris_loop]; rewrite B; reflexivity ] ].
      destruct (update_spec d_p points order ms Ho Hm) as (lp & ms' & _ & Eu & L & _). destruct (assign_ok (length ms) (compute_d_p d_p X ms) Hm (rows_d_p d_p X ms)) as [ labels' El ].
      destruct (IH (i + 1)%Z (has_converged eqb ms ms') ms' labels') as [ r Hr ]; [ lia | lia | ]. exists r. intros [ | fuel ] Hf; [ lia | ]. cbn [iris_loop]. rewrite B, El. cbn [bind]. rewrite Eu. cbn [bind]. apply Hr. lia. }
  destruct (H (Z.to_nat n) 1%Z false start (repeat 0 (length X)) Hk) as [ r Hr ]; [ lia | ]. exists r. exact Hr.
Qed.
Print Assumptions C131_steps.

(** C131: without a number of steps, a medoid with a NaN (no row equals it, and its distances are NaN) keeps the algorithm from ever ending: this is
    why [C131_ends] needs an equality that holds between a row and itself. *)
Theorem C131_nan_never_ends : forall (A : Type) eqb (d_p : A -> A -> fnum) fuel points order choice X k start r, enumerates order -> points <> [] ->
  In r start -> (forall y, eqb r y = false) -> (forall x, d_p x r = NaN) -> iris_kmedoids eqb d_p fuel points order choice X k (Some start) None = Raise Diverges.
Proof.
  intros A eqb d_p fuel points order choice X k start r Ho Hp Hin He Hd. unfold iris_kmedoids. cbn [bind]. generalize 1%Z, (repeat 0 (length X)). revert start Hin. induction fuel as [ | fuel IH ]; intros ms Hin i labels; [ reflexivity | ].
  assert (Hm : 0 < length ms) by (destruct ms; [ destruct Hin | cbn; lia ]). cbn [iris_loop negb andb].
  destruct (update_spec d_p points order ms Ho Hm) as (lp & ms' & _ & Eu & L & Him). destruct (assign_ok (length ms) (compute_d_p d_p X ms) Hm (rows_d_p d_p X ms)) as [ labels' El ].
  rewrite El. cbn [bind]. rewrite Eu. cbn [bind]. assert (Hin' : In r ms').
  { apply In_nth_error in Hin. destruct Hin as [ j Hj ]. destruct (Him j r Hj) as (m' & E' & [ [ -> | [ _ Hlt ] ] _ ]); [ eapply nth_error_In; exact E' | exfalso ].
    assert (F : far d_p points r = NaN); [ | rewrite F in Hlt; destruct (far d_p points m'); discriminate ]. unfold far, fsum. destruct points as [ | p points ]; [ congruence | ]. cbn [map fold_left]. rewrite Hd.
    change (fadd (Fin 0) NaN) with NaN. clear. induction points as [ | q points IH ]; [ reflexivity | ]. cbn [map fold_left]. exact IH. }
  replace (has_converged eqb ms ms') with false; [ apply IH, Hin' | ]. symmetry. unfold has_converged. apply Bool.andb_false_iff. left.
  destruct (forallb (fun x => existsb (eqb x) ms') ms) eqn:F; [ | reflexivity ]. rewrite forallb_forall in F. specialize (F r Hin). apply existsb_exists in F. destruct F as (y & _ & F). rewrite He in F. discriminate.
Qed.
Print Assumptions C131_nan_never_ends.

(* ---------- cases ---------- *)
(** points on a line and squares of distances *)
Definition sq (x y : Z) : fnum := Fin (inject_Z ((x - y) * (x - y))).
Definition a_set (l : list nat) : list nat := nodup Nat.eq_dec l.
Definition draw (l : list Z) : nat -> Z -> res (list Z) := fun _ _ => Ok l.
Definition line : list Z := [0; 1; 2; 100; 101; 102]%Z.
Lemma enumerates_set : enumerates a_set.
Proof. intros l. split; [ apply NoDup_nodup | intros i; apply nodup_In ]. Qed.
Lemma distance_sq X : distance_on sq X.
Proof.
  intros x y _ _. split; [ reflexivity | ]. split.
  - unfold sq. rewrite Z.sub_diag. reflexivity.
  - intros Hne. unfold sq. apply flt_Fin. change 0%Q with (inject_Z 0). rewrite <- Zlt_Qlt. nia.
Qed.
Example C131_ex : iris_kmedoids Z.eqb sq 20 line a_set (draw [0; 5]%Z) line 2 None None = Ok ([2; 100]%Z, [0; 0; 0; 1; 1; 1]) /\ enumerates a_set /\ distance_on sq line /\
  init_medoids (draw [0; 5]%Z) line 2 = Ok [0; 102]%Z.
Proof. split; [ vm_compute; reflexivity | ]. split; [ apply enumerates_set | ]. split; [ apply distance_sq | reflexivity ]. Qed.

(** C131: the medoid is not the row with the least sum of distances from the rows of its own cluster: the sums are taken over all rows
    of the data, so that medoids move towards the middle of the data. *)
Theorem C131_central_refuted : exists (X : list Z) start ms labels i m x, iris_kmedoids Z.eqb sq 20 X a_set (draw []) X 2 (Some start) None = Ok (ms, labels) /\
  nth_error ms i = Some m /\ In x (members X labels i) /\ flt (far sq (members X labels i) x) (far sq (members X labels i) m) = true.
Proof. exists line, [0; 102]%Z, [2; 100]%Z, [0; 0; 0; 1; 1; 1], 0, 2%Z, 1%Z. repeat split; vm_compute; auto. Qed.
Print Assumptions C131_central_refuted.

(** C131: with other data than the global data set, the medoids returned need not be rows of the data. *)
Theorem C131_other_data_refuted : exists (points X start ms : list Z) labels m, iris_kmedoids Z.eqb sq 20 points a_set (draw []) X 1 (Some start) None = Ok (ms, labels) /\
  (forall x, In x start -> In x X) /\ In m ms /\ ~ In m X.
Proof.
  exists [10; 11; 12]%Z, [0; 1; 2]%Z, [1]%Z, [11]%Z, [0; 0; 0], 11%Z. split; [ vm_compute; reflexivity | ]. split; [ intros x [ <- | [] ]; right; left; reflexivity | ].
  split; [ left; reflexivity | ]. intros H. cbn in H. lia.
Qed.
Print Assumptions C131_other_data_refuted.

(** C131: when the number of steps ends the algorithm, the labels returned are those of the medoids before the last update: a row may have the
    label of a medoid that is not the nearest of those returned. *)
Theorem C131_stopped_refuted : exists (X start ms : list Z) labels n x i, iris_kmedoids Z.eqb sq 20 X a_set (draw []) X 2 (Some start) (Some 1%Z) = Ok (ms, labels) /\
  nth_error X n = Some x /\ nth_error labels n = Some i /\ ~ nearest sq ms x i.
Proof.
  exists [0; 1; 10; 11; 12]%Z, [0; 1]%Z, [0; 10]%Z, [0; 1; 1; 1; 1], 1, 1%Z, 1. repeat (split; [ vm_compute; reflexivity | ]).
  intros (m & Hm & H). injection Hm as <-. destruct (H 0 0%Z eq_refl) as [ F _ ]. vm_compute in F. discriminate.
Qed.
Print Assumptions C131_stopped_refuted.

(* ---------- matches ---------- *)
Lemma agree_filter a b : length (filter (fun m => m) (map (fun '(x, y) => (x =? y)%Z) (combine a b))) = agreement a b.
Proof. unfold agreement. induction (combine a b) as [ | [ x y ] l IH ]; cbn; [ reflexivity | ]. destruct (x =? y)%Z; cbn; lia. Qed.
Lemma negb_filter l : length (filter (fun m : bool => m) (map negb l)) = length l - length (filter (fun m => m) l).
Proof.
  assert (H : length (filter (fun m : bool => m) (map negb l)) + length (filter (fun m => m) l) = length l); [ | lia ].
  induction l as [ | [ ] l IH ]; cbn; lia.
Qed.

(** C132: counting matches fails unless the two lists are equally long and have no labels but 0, 1 and 2.  Otherwise the exact count is the number of
    places in which they agree; the inexact count is that of the agreements or of the disagreements, whichever is greater, so at least half the length. *)
Theorem C132_counts : forall a b, if ((length a =? length b) && forallb (fun v => (0 <=? v) && (v <=? 2))%Z (a ++ b))%bool
  then count_matches a b true = Ok (agreement a b) /\ count_matches a b false = Ok (Nat.max (agreement a b) (length a - agreement a b))
  else forall exact, count_matches a b exact = Raise AssertionError.
Proof.
  intros a b. rewrite forallb_app. assert (Hl : forall l, forallb (fun v => (0 <=? v) && (v <=? 2))%Z l = forallb is_label l).
  { intros l. induction l as [ | v l IH ]; cbn; [ reflexivity | ]. rewrite IH. f_equal. unfold is_label. lia. }
  rewrite !Hl. unfold count_matches, mark_matches. destruct (length a =? length b) eqn:El; cbn [andb py_assert bind]; [ | reflexivity ].
  destruct (forallb is_label a); cbn [andb py_assert bind]; [ | reflexivity ]. destruct (forallb is_label b); cbn [py_assert bind]; [ | reflexivity ].
  rewrite agree_filter. split; [ reflexivity | ]. destruct (length a <=? 2 * agreement a b) eqn:B; cbn [bind]; f_equal.
  - rewrite agree_filter. lia.
  - rewrite negb_filter, agree_filter, map_length, combine_length. lia.
Qed.
Print Assumptions C132_counts.

Lemma filter_length_bound {A} (f : A -> bool) l : length (filter f l) <= length l.
Proof. induction l as [ | a l IH ]; cbn; [ lia | ]. destruct (f a); cbn; lia. Qed.

(** C132: with the two labels 0 and 1 the inexact count is the best agreement under either naming of the labels. *)
Theorem C132_two_labels : forall a b, length a = length b -> (forall v, In v (a ++ b) -> v = 0%Z \/ v = 1%Z) ->
  count_matches a b false = Ok (Nat.max (agreement a b) (agreement (map (fun v => 1 - v)%Z a) b)).
Proof.
  intros a b Hl Hv. pose proof (C132_counts a b) as H. replace ((length a =? length b) && _)%bool with true in H.
  - destruct H as [ _ H ]. rewrite H. f_equal. f_equal. clear H. unfold agreement. revert b Hl Hv. induction a as [ | x a IH ]; intros [ | y b ] Hl Hv; try discriminate; [ reflexivity | ].
    assert (Hx : x = 0%Z \/ x = 1%Z) by (apply Hv; left; reflexivity). assert (Hy : y = 0%Z \/ y = 1%Z) by (apply Hv; apply in_or_app; right; left; reflexivity).
    assert (IH' := IH b). cbn [map combine filter length] in *. specialize (IH' ltac:(lia)).
    assert (Hrest : forall v, In v (a ++ b) -> v = 0%Z \/ v = 1%Z) by (intros v H; apply Hv; apply in_app_or in H; right; apply in_or_app; destruct H; [ left | right; right ]; assumption).
    specialize (IH' Hrest). pose proof (filter_length_bound (fun '(x, y) => (x =? y)%Z) (combine a b)) as Hle. rewrite combine_length in Hle.
    destruct Hx as [ -> | -> ], Hy as [ -> | -> ]; cbn -[Nat.sub Nat.min] in *; lia.
  - symmetry. apply andb_true_intro. split; [ lia | ]. apply forallb_forall. intros v Hin. destruct (Hv v Hin); subst v; reflexivity.
Qed.
Print Assumptions C132_two_labels.

(** C132: with three labels, as the script uses it, the inexact count can be greater than the agreement under any renaming of the labels. *)
Theorem C132_three_refuted : exists a b n, count_matches a b false = Ok n /\ forall f, agreement (map f a) b < n.
Proof.
  exists [0; 0; 0]%Z, [0; 1; 2]%Z, 2. split; [ reflexivity | ]. intros f. unfold agreement. cbn [map combine filter]. destruct (f 0 =? 0)%Z eqn:E0, (f 0 =? 1)%Z eqn:E1, (f 0 =? 2)%Z eqn:E2; cbn; lia.
Qed.
Print Assumptions C132_three_refuted.

(** C132: the number that the script prints is not that of the matches of its clusters with the species: data whose clusters are the species in every
    row, and fewer matches are printed. *)
Theorem C132_species_refuted : exists (datapoints : list Z) species choice ms labels n,
  iris_kmedoids Z.eqb sq 50 datapoints a_set choice datapoints 3 None None = Ok (ms, labels) /\ map Z.of_nat labels = species /\
  iris_script Z.eqb sq 50 a_set choice datapoints species = Ok n /\ n < length datapoints.
Proof.
  exists [1; 3; 5; 10; 14]%Z. eexists. exists (draw [0; 1; 3]%Z). do 3 eexists. split; [ vm_compute; reflexivity | ]. split; [ reflexivity | ]. split; [ vm_compute; reflexivity | vm_compute; lia ].
Qed.
Print Assumptions C132_species_refuted.
Example C132_ex : count_matches [0; 0; 1; 1; 0; 1; 1]%Z [1; 1; 0; 0; 1; 0; 0]%Z false = Ok 7 /\ count_matches [0; 1; 2]%Z [0; 1; 1]%Z true = Ok 2 /\ count_matches [0; 3]%Z [0; 1]%Z true = Raise AssertionError.
Proof. repeat split; reflexivity. Qed.
