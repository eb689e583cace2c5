(** Proofs about reading a suite CSV that was cut at any character. *)
From Coq Require Import ZifyBool ZifyNat.
From Verif Require Import Base.Py Base.PyFacts Base.Str Base.StrFacts Base.Dict Base.DictFacts
  Model.Region Model.Clustering Model.CutFile Spec.CutFile Proofs.ClusteringFacts Proofs.ElbowFacts.
Local Notation length := List.length.
Local Open Scope string_scope.

Lemma app_cut a : forall b u v, a ++ b = u ++ v ->
  (exists q, u = a ++ q /\ b = q ++ v) \/ (exists q, q <> "" /\ a = u ++ q /\ v = q ++ b).
Proof.
  induction a as [|c a IH]; intros b u v H.
  - left. exists u. auto.
  - destruct u as [|d u].
    + right. exists (String c a). split; [discriminate|]. auto.
    + injection H as -> H. destruct (IH b u v H) as [(q & -> & ->)|(q & Hq & -> & ->)]; [left|right]; exists q; auto.
Qed.

(* ---------- the reader on part of a field ---------- *)
Lemma read_quoted_part f : forall p q acc done, p ++ q = double_bars f ++ String bar "" ->
  exists g g', f = g ++ g' /\ csv_read InQuoted acc done p = rev ((acc ++ g) :: done).
Proof.
  induction f as [|c f IH]; intros p q acc done H.
  - exists "", "". split; auto. rewrite sapp_nil_r. destruct p as [|d p]; [reflexivity|]. injection H as -> H.
    destruct p; [reflexivity|discriminate].
  - cbn [double_bars] in H. destruct (Ascii.eqb_spec c bar) as [->|Hc].
    + destruct p as [|d p]; [exists "", (String bar f); rewrite sapp_nil_r; auto|]. injection H as -> H.
      destruct p as [|d p]; [exists "", (String bar f); rewrite sapp_nil_r; auto|]. injection H as -> H.
      destruct (IH p q (acc ++ String bar "") done H) as (g & g' & -> & E). exists (String bar g), g'. split; auto.
      cbn. rewrite E, sapp_assoc. reflexivity.
    + destruct p as [|d p]; [exists "", (String c f); rewrite sapp_nil_r; auto|]. injection H as -> H.
      destruct (IH p q (acc ++ String c "") done H) as (g & g' & -> & E). exists (String c g), g'. split; auto.
      cbn [csv_read]. rewrite (proj2 (Ascii.eqb_neq c bar) Hc), E, sapp_assoc. reflexivity.
Qed.
Lemma needs_quotes_part p q : needs_quotes (p ++ q) = false -> needs_quotes p = false.
Proof.
  unfold needs_quotes. rewrite !has_char_app. repeat rewrite orb_false_iff. tauto.
Qed.
(** part of the text of a field is read as one field, which is part of the field *)
Lemma read_field_part f p q done : p ++ q = csv_field f ->
  exists g g', f = g ++ g' /\ csv_read StartField "" done p = rev (g :: done).
Proof.
  unfold csv_field. destruct (needs_quotes f) eqn:E; intros H.
  - destruct p as [|c p]; [exists "", f; auto|]. injection H as -> H. cbn [csv_read]. rewrite Ascii.eqb_refl.
    destruct (read_quoted_part f p q "" done H) as (g & g' & -> & R). exists g, g'. auto.
  - subst f. exists p, q. split; auto. apply needs_quotes_part in E. pose proof (csv_read_last p done) as R.
    unfold csv_field in R. rewrite E in R. exact R.
Qed.

(* ---------- part of the medoids ---------- *)
Lemma parse_medoids_cons pt s : parse_medoids (pair_str pt ++ String " " s) = (l <- parse_medoids s ;; Ok (pt :: l)).
Proof.
  unfold parse_medoids. rewrite split_app by apply pair_no_blank.
  assert (E : removelast (pair_str pt :: split " " s) = pair_str pt :: removelast (split " " s)).
  { pose proof (split_nonempty " " s). cbn [removelast]. destruct (split " " s); [congruence|reflexivity]. }
  rewrite E. cbn [mapM]. rewrite parse_pair. cbn [bind]. reflexivity.
Qed.
Lemma parse_part l : forall g q, g ++ q = medoids_string l -> exists j, j <= length l /\ parse_medoids g = Ok (firstn j l).
Proof.
  induction l as [|pt l IH]; intros g q H.
  - exists 0. split; [cbn; lia|]. destruct g; [reflexivity|discriminate].
  - rewrite medoids_string_cons in H. destruct (app_cut _ _ _ _ H) as [(q1 & Ep & _)|(q1 & Hq & -> & Es)].
    + exists 0. split; [lia|]. unfold parse_medoids. rewrite split_no_sep; [reflexivity|].
      pose proof (pair_no_blank pt) as B. rewrite Ep, has_char_app in B. apply orb_false_iff in B. tauto.
    + destruct q1 as [|c q1]; [congruence|]. injection Es as <- Es. destruct (IH q1 q (eq_sym Es)) as (j & Hj & E).
      exists (S j). split; [cbn; lia|]. rewrite parse_medoids_cons, E. reflexivity.
Qed.

(* ---------- lines ---------- *)
Lemma file_lines_end l : one_line l -> forall rest, file_lines (l ++ String cr (String lf rest)) = l :: file_lines rest.
Proof.
  intros [Hc Hl] rest. induction l as [|c l IH]; [reflexivity|]. cbn in Hc, Hl. apply orb_false_iff in Hc, Hl.
  destruct Hc as [Hc Hc'], Hl as [Hl Hl']. cbn [append file_lines]. rewrite Hc, Hl, IH by auto. reflexivity.
Qed.
Lemma file_lines_open l : one_line l -> file_lines (l ++ String cr "") = [l] /\ (l <> "" -> file_lines l = [l]).
Proof.
  intros [Hc Hl]. induction l as [|c l IH]; [split; [reflexivity|congruence]|]. cbn in Hc, Hl. apply orb_false_iff in Hc, Hl.
  destruct Hc as [Hc Hc'], Hl as [Hl Hl']. destruct (IH Hc' Hl') as [E1 E2]. cbn [append file_lines]. rewrite Hc, Hl, E1. split; [reflexivity|].
  intros _. destruct l as [|d l]; [reflexivity|]. rewrite E2 by discriminate. reflexivity.
Qed.
Lemma file_lines_text ls tail : (forall l, In l ls -> one_line l) -> file_lines (file_text ls ++ tail) = (ls ++ file_lines tail)%list.
Proof.
  induction ls as [|l ls IH]; intros H; [reflexivity|]. cbn [file_text]. rewrite sapp_assoc. cbn [append].
  rewrite file_lines_end by (apply H; left; auto). rewrite IH by (intros; apply H; right; auto). reflexivity.
Qed.
Lemma one_line_part p q : one_line (p ++ q) -> one_line p.
Proof. unfold one_line. rewrite !has_char_app, !orb_false_iff. tauto. Qed.
Lemma one_line_app p q : one_line p -> one_line q -> one_line (p ++ q).
Proof. unfold one_line. rewrite !has_char_app, !orb_false_iff. tauto. Qed.

(** part of a line, not the whole of it with its terminator: at most one line, part of that line *)
Lemma file_lines_cut l tail rest : one_line l -> tail ++ rest = l ++ String cr (String lf "") -> rest <> "" ->
  (tail = "" /\ file_lines tail = []) \/ exists p q, l = p ++ q /\ (tail = p \/ (q = "" /\ tail = l ++ String cr "")) /\
                                                   (l <> "" -> p <> "") /\ file_lines tail = [p].
Proof.
  intros Hl H Hr. destruct (app_cut _ _ _ _ H) as [(q & -> & E)|(q & Hq & -> & E)].
  - destruct (string_dec tail "") as [->|Hne]; [left; auto|]. right. exists tail, q. split; [auto|]. split; [auto|]. split; [auto|].
    apply (proj2 (file_lines_open tail (one_line_part _ _ Hl))). auto.
  - right. exists l, "". split; [rewrite sapp_nil_r; auto|].
    assert (q = String cr "") as ->.
    { destruct q as [|c q]; [congruence|]. injection E as <- E. destruct q as [|d q]; [auto|]. injection E as <- E.
      destruct q; [|discriminate]. cbn in E. congruence. }
    split; [auto|]. split; [auto|]. apply (proj1 (file_lines_open l Hl)).
Qed.

Lemma double_bars_char c s : c <> bar -> has_char c (double_bars s) = has_char c s.
Proof.
  intros Hc. induction s as [|d s IH]; [reflexivity|]. cbn [double_bars]. destruct (Ascii.eqb_spec d bar) as [->|Hd]; cbn [has_char]; rewrite IH; auto.
  destruct (Ascii.eqb_spec bar c); [congruence|]. reflexivity.
Qed.
Lemma csv_field_one_line s : one_line s -> one_line (csv_field s).
Proof.
  intros [Hc Hl]. unfold csv_field. destruct (needs_quotes s); [|split; auto].
  split; cbn [has_char]; rewrite has_char_app, double_bars_char by discriminate; rewrite ?Hc, ?Hl; reflexivity.
Qed.
Lemma medoids_one_line l : one_line (medoids_string l).
Proof.
  induction l as [|pt l IH]; [split; reflexivity|]. rewrite medoids_string_cons. apply one_line_app.
  - unfold pair_str. split; rewrite !has_char_app, !str_int_no_char by (auto; discriminate); reflexivity.
  - destruct IH as [A B]. split; cbn [has_char]; [rewrite A|rewrite B]; reflexivity.
Qed.
Definition row_line (w : row) : string := csv_field (row_key w) ++ String sp (csv_field (row_cost w) ++ String sp (csv_field (medoids_string (row_medoids w)))).
Lemma row_line_eq w : csv_line [row_key w; row_cost w; medoids_string (row_medoids w)] = row_line w.
Proof. unfold row_line, csv_line. destruct (row_key w); reflexivity. Qed.
Lemma row_line_ne w : row_line w <> "".
Proof. intros H. apply (f_equal slen) in H. unfold row_line in H. rewrite slen_app in H. cbn in H. lia. Qed.
Lemma row_one_line w : one_line_row w -> one_line (row_line w).
Proof.
  intros [A B]. unfold row_line. apply one_line_app; [apply csv_field_one_line; auto|].
  change (one_line ("" ++ String sp "" ++ csv_field (row_cost w) ++ String sp "" ++ csv_field (medoids_string (row_medoids w)))).
  repeat apply one_line_app; try (split; reflexivity); apply csv_field_one_line; auto. apply medoids_one_line.
Qed.
Definition header : string := csv_line ["clustering"; "total_cost"; "medoids"].
Lemma suite_csv_eq rows : suite_csv rows = header :: map row_line rows.
Proof. unfold suite_csv. f_equal. apply map_ext. intros [[r c] ms]. rewrite <- row_line_eq. reflexivity. Qed.

(* ---------- reading ---------- *)
Definition dict_rows (rows : list row) (d : list (string * list point)) :=
  fold_left (fun d w => dict_set String.eqb (row_key w) (row_medoids w) d) rows d.
Lemma fold_rows rows : forall d, foldM csv_step (map row_line rows) d = Ok (dict_rows rows d).
Proof.
  induction rows as [|w rows IH]; intros d; [reflexivity|]. cbn [map foldM]. rewrite <- row_line_eq, csv_step_row. cbn [bind]. apply IH.
Qed.
Lemma foldM_step_app l1 : forall l2 d, foldM csv_step (l1 ++ l2)%list d = (d1 <- foldM csv_step l1 d ;; foldM csv_step l2 d1).
Proof. induction l1 as [|x l1 IH]; intros l2 d; [reflexivity|]. cbn [app foldM]. destruct (csv_step d x); cbn [bind]; auto. Qed.
Lemma dict_rows_distinct rows : NoDup (map row_key rows) -> dict_rows rows [] = entries rows.
Proof.
  intros H. unfold dict_rows, entries.
  transitivity (fold_left (fun d '(r, _, medoids) => dict_set String.eqb r medoids d) rows []).
  - clear H. generalize (@nil (string * list point)). induction rows as [|[[r c] ms] rows IH]; intros d; [reflexivity|]. cbn [fold_left]. apply IH.
  - transitivity (map (fun '(r, _, medoids) => (r, medoids)) rows).
    + apply retrieve_distinct. erewrite map_ext; [exact H|]. intros [[? ?] ?]. reflexivity.
    + apply map_ext. intros [[? ?] ?]. reflexivity.
Qed.

Lemma retrieve_text rows tail : (forall w, In w rows -> one_line_row w) ->
  retrieve_suite_text (Some (file_text (suite_csv rows) ++ tail)) = foldM csv_step (file_lines tail) (dict_rows rows []).
Proof.
  intros H. unfold retrieve_suite_text, option_map. rewrite suite_csv_eq, file_lines_text.
  - cbn [app retrieve_suite_result]. change (foldM _ ?l []) with (foldM csv_step l []). rewrite foldM_step_app, fold_rows. reflexivity.
  - intros l [<-|Hin]; [split; reflexivity|]. apply in_map_iff in Hin. destruct Hin as (w & <- & Hw). apply row_one_line. auto.
Qed.

(** the row in which the file was cut *)
Lemma step_part w d p q : row_line w = p ++ q -> p <> "" ->
  (forall third, p = csv_field (row_key w) ++ String sp (csv_field (row_cost w) ++ String sp third) ->
     exists j, j <= length (row_medoids w) /\ csv_step d p = Ok (dict_set String.eqb (row_key w) (firstn j (row_medoids w)) d)) /\
  (forall rest, csv_field (row_key w) ++ String sp (csv_field (row_cost w)) = p ++ rest -> csv_step d p = Raise IndexError).
Proof.
  intros Hp Hne. split.
  - intros third E. rewrite E in Hp. unfold row_line in Hp. rewrite !sapp_assoc in Hp. apply sapp_inj_l in Hp. cbn [append] in Hp. injection Hp as Hp.
    rewrite !sapp_assoc in Hp. apply sapp_inj_l in Hp. cbn [append] in Hp. injection Hp as Hp.
    destruct (read_field_part _ _ _ [row_cost w; row_key w] (eq_sym Hp)) as (g & g' & Eg & R).
    destruct (parse_part _ _ _ (eq_sym Eg)) as (j & Hj & Pj). exists j. split; auto.
    unfold csv_step, csv_parse. destruct p as [|c0 p0] eqn:E0; [congruence|]. rewrite <- E0 in *. clear E0. rewrite E. rewrite csv_read_field.
    rewrite csv_read_field, R. cbn [rev app]. change 0%Z with (Z.of_nat 0). change 2%Z with (Z.of_nat 2). rewrite !getitem_cons_nat. cbn [nth_error bind].
    rewrite Pj. reflexivity.
  - intros rest E. unfold csv_step, csv_parse. destruct p as [|c0 p0] eqn:E0; [congruence|]. rewrite <- E0 in *. clear E0.
    destruct (app_cut _ _ _ _ (eq_sym E)) as [(q1 & E1 & _)|(q1 & Hq & -> & E1)].
    + destruct (read_field_part _ _ _ [] (eq_sym E1)) as (g & g' & _ & R). rewrite R. reflexivity.
    + destruct q1 as [|c q1]; [congruence|]. injection E1 as <- E1. rewrite csv_read_field.
      destruct (read_field_part _ _ _ [row_key w] (eq_sym E1)) as (g & g' & _ & R). rewrite R. reflexivity.
Qed.
