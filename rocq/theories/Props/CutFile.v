(** Property C142: reading the table of a suite of clusterings that was cut at any character. *)
From Coq Require Import ZifyBool ZifyNat.
From Verif Require Import Base.Py Base.PyFacts Base.Str Base.StrFacts Base.Dict Base.DictFacts
  Model.Region Model.Clustering Model.CutFile Spec.CutFile Proofs.ClusteringFacts Proofs.ElbowFacts Proofs.CutFileFacts.
Local Notation length := List.length.
Local Open Scope string_scope.

Lemma text_app l1 : forall l2, file_text (l1 ++ l2)%list = file_text l1 ++ file_text l2.
Proof. induction l1 as [|l l1 IH]; intros l2; [reflexivity|]. cbn [app file_text]. rewrite IH, sapp_assoc. reflexivity. Qed.

Lemma text_cut ls : forall text rest, text ++ rest = file_text ls ->
  text = file_text ls \/
  exists n l tail r, nth_error ls n = Some l /\ text = file_text (firstn n ls) ++ tail /\ tail ++ r = l ++ String cr (String lf "") /\ r <> "".
Proof.
  induction ls as [|l ls IH]; intros text rest H.
  - left. destruct text; [reflexivity|discriminate].
  - cbn [file_text] in H.
    assert (H' : text ++ rest = (l ++ String cr (String lf "")) ++ file_text ls) by (rewrite sapp_assoc; exact H).
    destruct (app_cut _ _ _ _ H') as [(q & E & _)|(q & Hq & -> & E)].
    + destruct (string_dec q "") as [->|Hne].
      * rewrite sapp_nil_r in E. subst text. destruct ls as [|l' ls].
        -- left. reflexivity.
        -- right. exists 1, l', "", (l' ++ String cr (String lf "")). cbn [nth_error firstn file_text append]. rewrite sapp_nil_r.
           repeat split; auto. destruct l'; discriminate.
      * right. exists 0, l, text, q. auto.
    + destruct (IH q rest (eq_sym E)) as [->|(n & l' & tail & r & Hn & -> & Ht & Hr)].
      * left. cbn [file_text]. rewrite sapp_assoc. reflexivity.
      * right. exists (S n), l', tail, r. cbn [nth_error firstn file_text]. rewrite !sapp_assoc. auto.
Qed.

Lemma nodup_first {A} (l1 : list A) : forall l2, NoDup (l1 ++ l2)%list -> NoDup l1.
Proof.
  induction l1 as [|x l1 IH]; intros l2 H; [constructor|]. inversion_clear H as [|? ? Hx Hl]. constructor; [|apply (IH l2 Hl)].
  intros Hin. apply Hx, in_or_app. auto.
Qed.
Lemma entries_app_key rows w ms : map row_key (rows ++ [(row_key w, row_cost w, ms)])%list = map row_key (rows ++ [w])%list.
Proof. rewrite !map_app. reflexivity. Qed.

(** A table whose last row [w] was cut: nothing of [w] in the file leaves the rows before it; a cut before the medoid
    column makes the reader fail with IndexError; any later cut gives [w] the first few of its medoids. *)
Theorem C142_cut_row : forall rows w tail rest,
  (forall v, In v (rows ++ [w])%list -> one_line_row v) -> NoDup (map row_key (rows ++ [w])%list) ->
  tail ++ rest = csv_line [row_key w; row_cost w; fold_left (fun s pt => s ++ medoid_str pt) (row_medoids w) ""] ++ String cr (String lf "") ->
  rest <> "" ->
  let read := retrieve_suite_text (Some (file_text (suite_csv rows) ++ tail)) in
  (tail = "" -> read = Ok (entries rows)) /\
  (forall more, tail <> "" -> csv_field (row_key w) ++ " " ++ csv_field (row_cost w) = tail ++ more -> read = Raise IndexError) /\
  (forall third, tail = csv_field (row_key w) ++ " " ++ csv_field (row_cost w) ++ " " ++ third ->
     exists j, j <= length (row_medoids w) /\ read = Ok (entries (rows ++ [(row_key w, row_cost w, firstn j (row_medoids w))]))).
Proof.
  intros rows w tail rest H1 Hd Ht Hr read. fold (medoids_string (row_medoids w)) in Ht. rewrite row_line_eq in Ht.
  assert (Hw : one_line (row_line w)) by (apply row_one_line, H1, in_or_app; right; left; auto).
  assert (Hrows : forall v, In v rows -> one_line_row v) by (intros; apply H1, in_or_app; auto).
  assert (Hdr : NoDup (map row_key rows)).
  { rewrite map_app in Hd. apply NoDup_remove_1 in Hd. rewrite app_nil_r in Hd. exact Hd. }
  assert (Eread : read = foldM csv_step (file_lines tail) (entries rows)).
  { unfold read. rewrite retrieve_text by auto. rewrite dict_rows_distinct by auto. reflexivity. }
  split; [|split].
  - intros ->. rewrite Eread. reflexivity.
  - intros more Hne E. destruct (file_lines_cut _ _ _ Hw Ht Hr) as [[-> _]|(p & q & Epq & Htail & Hp & El)]; [congruence|].
    rewrite Eread, El. cbn [foldM]. destruct Htail as [->|[-> ->]].
    + destruct (step_part w (entries rows) p q Epq (Hp (row_line_ne w))) as [_ S]. rewrite (S more E). reflexivity.
    + exfalso. apply (f_equal slen) in E. unfold row_line in E. repeat (rewrite ?slen_app in E; cbn [slen append] in E). lia.
  - intros third E. destruct (file_lines_cut _ _ _ Hw Ht Hr) as [[-> _]|(p & q & Epq & Htail & Hp & El)].
    { exfalso. apply (f_equal slen) in E. rewrite !slen_app in E. cbn in E. lia. }
    destruct (step_part w (entries rows) p q Epq (Hp (row_line_ne w))) as [S _].
    assert (S' : exists j, j <= length (row_medoids w) /\
      csv_step (entries rows) p = Ok (dict_set String.eqb (row_key w) (firstn j (row_medoids w)) (entries rows))).
    { destruct Htail as [->|[-> E2]]; [apply (S third E)|].
      rewrite sapp_nil_r in Epq. subst p. apply (S (csv_field (medoids_string (row_medoids w)))). reflexivity. }
    destruct S' as (j & Hj & Ej). exists j. split; auto. rewrite Eread, El. cbn [foldM]. rewrite Ej. cbn [bind]. f_equal.
    rewrite <- (dict_rows_distinct (rows ++ _)%list) by (rewrite entries_app_key; auto).
    unfold dict_rows. rewrite fold_left_app. fold (dict_rows rows []). rewrite dict_rows_distinct by auto. reflexivity.
Qed.
Print Assumptions C142_cut_row.

(** Wherever the writing stopped, reading the table ends in StopIteration (an empty file), in IndexError, or with
    rows of the table from the first on: all those whose line is complete, with exactly their medoids, and perhaps one
    more with the first few of its medoids. *)
Theorem C142_interrupted_table : forall rows text rest,
  (forall w, In w rows -> one_line_row w) -> NoDup (map row_key rows) ->
  file_text (suite_csv rows) = text ++ rest ->
  (text = "" /\ retrieve_suite_text (Some text) = Raise StopIteration) \/
  retrieve_suite_text (Some text) = Raise IndexError \/
  exists kept, cut_rows rows kept /\ retrieve_suite_text (Some text) = Ok (entries kept) /\
    forall n more, text = file_text (suite_csv (firstn n rows)) ++ more -> firstn n kept = firstn n rows.
Proof.
  intros rows text rest H1 Hd H. destruct (text_cut _ _ _ (eq_sym H)) as [->|(n & l & tail & r & Hn & -> & Ht & Hr)].
  - right. right. exists rows. split; [|split].
    + exists (length rows). left. rewrite firstn_all. reflexivity.
    + rewrite <- (sapp_nil_r (file_text _)), retrieve_text by auto. cbn [file_lines foldM]. rewrite dict_rows_distinct by auto. reflexivity.
    + auto.
  - rewrite suite_csv_eq in Hn |- *. destruct n as [|n].
    + cbn [nth_error] in Hn. injection Hn as <-. cbn [firstn file_text append].
      assert (Hh : one_line header) by (split; reflexivity).
      destruct (file_lines_cut _ _ _ Hh Ht Hr) as [[-> _]|(p & q & _ & _ & _ & El)]; [left; auto|].
      right. right. exists []. split; [exists 0; left; reflexivity|]. split.
      * unfold retrieve_suite_text, option_map. rewrite El. reflexivity.
      * intros n more E. exfalso. rewrite suite_csv_eq in E. cbn [file_text] in E. apply (f_equal slen) in E, Ht.
        assert (slen r <> 0) by (destruct r; [congruence|discriminate]). rewrite !slen_app in *. cbn [slen] in *. lia.
    + cbn [nth_error firstn] in *. rewrite nth_error_map in Hn. destruct (nth_error rows n) as [w|] eqn:Ew; [|discriminate]. cbn in Hn. injection Hn as <-.
      rewrite firstn_map, <- suite_csv_eq. destruct (nth_error_split _ _ Ew) as (l1 & l2 & Erows & Hlen).
      assert (Ef : firstn n rows = l1) by (rewrite Erows, firstn_app, <- Hlen, firstn_all, Nat.sub_diag; cbn [firstn]; apply app_nil_r). rewrite Ef.
      assert (H1' : forall v, In v (l1 ++ [w])%list -> one_line_row v).
      { intros v Hv. apply H1. rewrite Erows. apply in_or_app. apply in_app_or in Hv. destruct Hv as [Hv|[<-|[]]]; [left; auto|right; left; auto]. }
      assert (Hd' : NoDup (map row_key (l1 ++ [w])%list)).
      { rewrite Erows in Hd. replace (l1 ++ w :: l2)%list with ((l1 ++ [w]) ++ l2)%list in Hd by (rewrite <- app_assoc; reflexivity).
        rewrite map_app in Hd. apply nodup_first in Hd. exact Hd. }
      pose proof Ht as Hrow. rewrite <- row_line_eq in Hrow. unfold medoids_string in Hrow.
      destruct (C142_cut_row l1 w tail r H1' Hd' Hrow Hr) as (C1 & C2 & C3).
      assert (Hcomplete : forall kept, (exists t, kept = (l1 ++ t)%list) -> forall m more,
         file_text (suite_csv l1) ++ tail = file_text (suite_csv (firstn m rows)) ++ more -> firstn m kept = firstn m rows).
      { intros kept (t & ->) m more E. destruct (Nat.le_gt_cases m (length l1)) as [Hm|Hm].
        - rewrite Erows, !firstn_app. replace (m - length l1) with 0 by lia. reflexivity.
        - exfalso. assert (E3 : firstn m rows = (l1 ++ w :: firstn (m - length l1 - 1) l2)%list).
          { rewrite Erows, firstn_app. rewrite firstn_all2 by lia. replace (m - length l1) with (S (m - length l1 - 1)) at 1 by lia. reflexivity. }
          rewrite E3, !suite_csv_eq, map_app in E. cbn [file_text map] in E. rewrite text_app in E. cbn [file_text] in E.
          apply (f_equal slen) in E, Ht. assert (slen r <> 0) by (destruct r; [congruence|discriminate]).
          repeat (rewrite ?slen_app in *; cbn [slen append] in * ). lia. }
      right. destruct (string_dec tail "") as [Et|Et].
      { right. exists l1. split; [exists n; left; auto|]. split; [apply (C1 Et)|]. apply Hcomplete. exists []. rewrite app_nil_r. reflexivity. }
      unfold row_line in Ht. rewrite sapp_assoc in Ht.
      assert (Hpos : (exists more, csv_field (row_key w) ++ " " ++ csv_field (row_cost w) = tail ++ more) \/
                     (exists third, tail = csv_field (row_key w) ++ " " ++ csv_field (row_cost w) ++ " " ++ third)).
      { assert (Ht2 : tail ++ r = (csv_field (row_key w) ++ " " ++ csv_field (row_cost w)) ++
                        String sp (csv_field (medoids_string (row_medoids w)) ++ String cr (String lf ""))).
        { rewrite Ht. rewrite !sapp_assoc. cbn [append]. rewrite !sapp_assoc. reflexivity. }
        destruct (app_cut _ _ _ _ Ht2) as [(q & E & _)|(q & Hq & -> & E)]; [left; exists q; exact E|].
        right. destruct q as [|c q]; [congruence|]. injection E as <- _. exists q. rewrite !sapp_assoc. reflexivity. }
      destruct Hpos as [(more & E)|(third & E)]; [left; apply (C2 more Et E)|].
      right. destruct (C3 third E) as (j & Hj & R). exists (l1 ++ [(row_key w, row_cost w, firstn j (row_medoids w))])%list.
      split; [exists n; right; exists w, j; rewrite Ef; auto|]. split; [exact R|]. apply Hcomplete. eexists. reflexivity.
Qed.
Print Assumptions C142_interrupted_table.

(** One would expect the reader to notice that the table was cut inside a row.  It does not: for every table and
    every last row with medoids, the file that stops after the opening quote of its medoids is read without an
    exception, and gives that clustering no medoids at all. *)
Theorem C142_interruption_noticed_refuted : forall rows w,
  (forall v, In v (rows ++ [w])%list -> one_line_row v) -> NoDup (map row_key (rows ++ [w])%list) -> row_medoids w <> [] ->
  exists text rest, file_text (suite_csv (rows ++ [w])) = text ++ rest /\ rest <> "" /\
    retrieve_suite_text (Some text) = Ok (entries (rows ++ [(row_key w, row_cost w, [])])).
Proof.
  intros rows w H1 Hd Hm.
  assert (Hq : csv_field (medoids_string (row_medoids w)) = String bar (double_bars (medoids_string (row_medoids w)) ++ String bar "")).
  { unfold csv_field. replace (needs_quotes _) with true; [reflexivity|]. unfold needs_quotes. destruct (row_medoids w) as [|pt l]; [congruence|].
    rewrite medoids_string_cons, has_char_app. cbn [has_char]. rewrite Ascii.eqb_refl. cbn. rewrite orb_true_r. reflexivity. }
  exists (file_text (suite_csv rows) ++ csv_field (row_key w) ++ " " ++ csv_field (row_cost w) ++ " |"),
         (double_bars (medoids_string (row_medoids w)) ++ String bar (String cr (String lf ""))).
  split; [|split].
  - rewrite !suite_csv_eq, map_app. cbn [file_text map]. rewrite text_app. cbn [file_text map]. unfold row_line. rewrite Hq.
    repeat (rewrite ?sapp_assoc; cbn [append]). reflexivity.
  - destruct (double_bars _); discriminate.
  - assert (Hrows : forall v, In v rows -> one_line_row v) by (intros; apply H1, in_or_app; auto).
    assert (Hw : one_line_row w) by (apply H1, in_or_app; right; left; auto).
    assert (Hdr : NoDup (map row_key rows)).
    { rewrite map_app in Hd. apply NoDup_remove_1 in Hd. rewrite app_nil_r in Hd. exact Hd. }
    rewrite retrieve_text by auto. rewrite dict_rows_distinct by auto.
    set (p := csv_field (row_key w) ++ " " ++ csv_field (row_cost w) ++ " |").
    assert (Hp : one_line p).
    { unfold p. destruct Hw as [A B]. repeat apply one_line_app; try (split; reflexivity); apply csv_field_one_line; auto. }
    assert (Hne : p <> "") by (intros E; apply (f_equal slen) in E; unfold p in E; rewrite !slen_app in E; cbn in E; lia).
    rewrite (proj2 (file_lines_open p Hp) Hne). cbn [foldM].
    assert (Es : csv_step (entries rows) p = Ok (dict_set String.eqb (row_key w) [] (entries rows))).
    { unfold csv_step, csv_parse. destruct p as [|c0 p0] eqn:E0; [congruence|]. rewrite <- E0. subst p. clear Hp Hne.
      change (" " ++ csv_field (row_cost w) ++ " |") with (String sp (csv_field (row_cost w) ++ String sp "|")).
      rewrite csv_read_field, csv_read_field. reflexivity. }
    rewrite Es. cbn [bind]. f_equal.
    rewrite <- (dict_rows_distinct (rows ++ _)%list) by (rewrite entries_app_key; auto).
    unfold dict_rows. rewrite fold_left_app. fold (dict_rows rows []). rewrite dict_rows_distinct by auto. reflexivity.
Qed.
Print Assumptions C142_interruption_noticed_refuted.

(** A table of two clusterings, cut: in the cost of the second, inside its second medoid, after its second medoid,
    and nowhere. *)
Example C142_ex :
  let rows := [("kmedoids_k2_seed0_lite", "12.500", [(45, 86); (47, 91)]%Z); ("kmedoids_k3_seed0_lite", "9.000", [(45, 86); (48, 89); (-1, 92)]%Z)] in
  let text n := substring 0 n (file_text (suite_csv rows)) in
  (forall w, In w rows -> one_line_row w) /\ NoDup (map row_key rows) /\
  text 89 = file_text (suite_csv (firstn 1 rows)) ++ "kmedoids" /\
  retrieve_suite_text (Some (text 0)) = Raise StopIteration /\
  retrieve_suite_text (Some (text 89)) = Raise IndexError /\
  retrieve_suite_text (Some (text 81)) = Ok (entries (firstn 1 rows)) /\
  retrieve_suite_text (Some (text 123)) = Ok (entries [("kmedoids_k2_seed0_lite", "12.500", [(45, 86); (47, 91)]%Z); ("kmedoids_k3_seed0_lite", "9.000", [(45, 86)]%Z)]) /\
  retrieve_suite_text (Some (text 127)) = Ok (entries [("kmedoids_k2_seed0_lite", "12.500", [(45, 86); (47, 91)]%Z); ("kmedoids_k3_seed0_lite", "9.000", [(45, 86); (48, 89)]%Z)]) /\
  retrieve_suite_text (Some (file_text (suite_csv rows))) = Ok (entries rows).
Proof.
  split; [intros w [<-|[<-|[]]]; repeat split; reflexivity|]. split; [repeat constructor; cbn; intuition discriminate|].
  vm_compute. repeat split; reflexivity.
Qed.
