(** Facts about the strings of [Str]. *)
From Coq Require Import DecimalString DecimalFacts DecimalZ DecimalPos.
From Verif Require Import Base.Py Base.PyFacts Base.Str.
Local Open Scope string_scope.

Lemma sapp_nil_r s : s ++ "" = s.
Proof. induction s; cbn; congruence. Qed.
Lemma sapp_assoc a b c : (a ++ b) ++ c = a ++ b ++ c.
Proof. induction a; cbn; congruence. Qed.
Lemma slen_app a b : slen (a ++ b) = slen a + slen b.
Proof. induction a; cbn; auto. Qed.
Lemma sapp_inj_l a b c : a ++ b = a ++ c -> b = c.
Proof. induction a; cbn; intros H; auto. injection H; auto. Qed.
Lemma sapp_inj_r a b c : a ++ c = b ++ c -> a = b.
Proof.
  revert b. induction a as [|x a IH]; intros [|y b] H; cbn in H; auto.
  - exfalso. assert (L : slen c = slen (String y (b ++ c))) by congruence. cbn in L. rewrite slen_app in L. lia.
  - exfalso. assert (L : slen c = slen (String x (a ++ c))) by congruence. cbn in L. rewrite slen_app in L. lia.
  - injection H as -> H. f_equal. auto.
Qed.
Lemma has_char_app c a b : has_char c (a ++ b) = has_char c a || has_char c b.
Proof. induction a; cbn; auto. rewrite IHa, orb_assoc. auto. Qed.

(** characters of a printed integer *)
Definition digit (c : ascii) : bool :=
  match c with "0" | "1" | "2" | "3" | "4" | "5" | "6" | "7" | "8" | "9" => true | _ => false end%char.
Fixpoint all_digits (s : string) : bool := match s with "" => true | String c r => digit c && all_digits r end.

Lemma uint_digits d : all_digits (NilEmpty.string_of_uint d) = true.
Proof. induction d; cbn; auto. Qed.
Lemma uint_digits_nz d : all_digits (NilZero.string_of_uint d) = true.
Proof. destruct d; cbn; auto; apply uint_digits. Qed.
Lemma uint_nonempty d : NilZero.string_of_uint d <> "".
Proof. destruct d; cbn; discriminate. Qed.
Lemma digits_no_char c s : all_digits s = true -> digit c = false -> has_char c s = false.
Proof.
  induction s as [|d s IH]; cbn; auto. intros H Hc. apply andb_true_iff in H. destruct H as [Hd Hs].
  rewrite IH by auto. destruct (Ascii.eqb_spec d c) as [->|]; auto. congruence.
Qed.

Lemma str_int_cases n : (0 <= n)%Z /\ (exists s, str_int n = s /\ all_digits s = true /\ s <> "") \/
  (n < 0)%Z /\ (exists s, str_int n = String "-" s /\ all_digits s = true /\ s <> "").
Proof.
  unfold str_int. destruct n as [|p|p]; cbn.
  - left. split; [lia|]. eexists. repeat split. discriminate.
  - left. split; [lia|]. eexists. split; [reflexivity|]. split; [apply uint_digits_nz|apply uint_nonempty].
  - right. split; [lia|]. eexists. split; [reflexivity|]. split; [apply uint_digits_nz|apply uint_nonempty].
Qed.
Lemma str_int_no_char c n : digit c = false -> c <> "-"%char -> has_char c (str_int n) = false.
Proof.
  intros Hd Hc. destruct (str_int_cases n) as [[_ (s & -> & Hs & _)]|[_ (s & -> & Hs & _)]].
  - apply digits_no_char; auto.
  - cbn [has_char]. rewrite digits_no_char by auto. rewrite (proj2 (Ascii.eqb_neq "-" c)); auto.
Qed.
Lemma str_int_no_dash n : (0 <= n)%Z -> has_char "-" (str_int n) = false.
Proof. intros H. destruct (str_int_cases n) as [[_ (s & -> & Hs & _)]|[? _]]; [|lia]. apply digits_no_char; auto. Qed.
Lemma str_int_nonempty n : str_int n <> "".
Proof. destruct (str_int_cases n) as [[_ (s & -> & _ & H)]|[_ (s & -> & _)]]; auto. discriminate. Qed.

Lemma py_int_str n : py_int (str_int n) = Ok n.
Proof.
  unfold py_int, str_int. rewrite NilZero.isi.
  - rewrite DecimalZ.of_to. auto.
  - destruct n; cbn; try discriminate. intros H. injection H. apply DecimalPos.Unsigned.to_uint_nonnil.
  - destruct n; cbn; try discriminate. intros H. injection H. apply DecimalPos.Unsigned.to_uint_nonnil.
Qed.
Lemma str_int_inj n m : str_int n = str_int m -> n = m.
Proof. intros H. assert (E : py_int (str_int n) = py_int (str_int m)) by congruence. rewrite !py_int_str in E. congruence. Qed.

(** split *)
Lemma split_no_sep sep s : has_char sep s = false -> split sep s = [s].
Proof.
  induction s as [|c s IH]; cbn; auto. intros H. apply orb_false_iff in H. destruct H as [H1 H2]. rewrite H1, IH by auto. auto.
Qed.
Lemma split_app sep a b : has_char sep a = false -> split sep (a ++ String sep b) = a :: split sep b.
Proof.
  induction a as [|c a IH]; cbn; intros H.
  - rewrite Ascii.eqb_refl. auto.
  - apply orb_false_iff in H. destruct H as [H1 H2]. rewrite H1, IH by auto. auto.
Qed.
Lemma split_nonempty sep s : split sep s <> [].
Proof. destruct s; cbn; [discriminate|]. destruct (_ =? _)%char; [discriminate|]. destruct (split sep s); discriminate. Qed.
Lemma split_join sep l : l <> [] -> (forall s, In s l -> has_char sep s = false) -> split sep (join (String sep "") l) = l.
Proof.
  induction l as [|a l IH]; intros Hne H; [congruence|]. destruct l as [|b l].
  - cbn. apply split_no_sep. apply H; left; auto.
  - change (join (String sep "") (a :: b :: l)) with (a ++ String sep (join (String sep "") (b :: l))).
    rewrite split_app by (apply H; left; auto). f_equal. apply IH; [discriminate|]. intros; apply H; right; auto.
Qed.

Lemma str_from_app a b : str_from (slen a) (a ++ b) = b.
Proof. induction a; cbn; auto. Qed.
Lemma substring_app a b : substring 0 (slen a) (a ++ b) = a.
Proof. induction a; cbn; [destruct b; auto|]. congruence. Qed.
Lemma str_inner_wrap a c d : str_inner (String c (a ++ String d "")) = a.
Proof.
  unfold str_inner. replace (slen (String c (a ++ String d "")) - 2) with (slen a).
  - cbn [substring]. apply substring_app.
  - cbn [slen]. rewrite slen_app. cbn. lia.
Qed.

(** the last separator cuts uniquely *)
Lemma cut_last sep a b a' b' : has_char sep b = false -> has_char sep b' = false ->
  a ++ String sep b = a' ++ String sep b' -> a = a' /\ b = b'.
Proof.
  intros Hb Hb'. revert a'. induction a as [|x a IH]; intros [|y a'] H; cbn in H.
  - injection H as ->. auto.
  - injection H as <- H. exfalso. rewrite H, has_char_app in Hb. cbn in Hb. rewrite Ascii.eqb_refl in Hb.
    rewrite orb_true_r in Hb. discriminate.
  - injection H as -> H. exfalso. rewrite <- H, has_char_app in Hb'. cbn in Hb'. rewrite Ascii.eqb_refl in Hb'.
    rewrite orb_true_r in Hb'. discriminate.
  - injection H as -> H. destruct (IH _ H) as [-> ->]. auto.
Qed.
Lemma cut_first sep a b a' b' : has_char sep a = false -> has_char sep a' = false ->
  a ++ String sep b = a' ++ String sep b' -> a = a' /\ b = b'.
Proof.
  revert a'. induction a as [|x a IH]; intros [|y a'] Ha Ha' H; cbn in H.
  - injection H as ->. auto.
  - injection H as <- H. cbn in Ha'. rewrite Ascii.eqb_refl in Ha'. discriminate.
  - injection H as -> H. cbn in Ha. rewrite Ascii.eqb_refl in Ha. discriminate.
  - injection H as -> H. cbn in Ha, Ha'. apply orb_false_iff in Ha, Ha'. destruct Ha as [_ Ha], Ha' as [_ Ha'].
    destruct (IH a' Ha Ha' H) as [-> ->]. auto.
Qed.

(** csv *)
Lemma csv_read_plain f : forall acc done rest, has_char sp f = false ->
  csv_read InField acc done (f ++ String sp rest) = csv_read StartField "" ((acc ++ f) :: done) rest /\
  csv_read InField acc done f = rev ((acc ++ f) :: done).
Proof.
  induction f as [|c f IH]; intros acc done rest H.
  - cbn. rewrite sapp_nil_r. auto.
  - cbn in H. apply orb_false_iff in H. destruct H as [H1 H2]. cbn [append csv_read]. rewrite H1.
    destruct (IH (acc ++ String c "") done rest H2) as [E1 E2]. rewrite E1, E2, sapp_assoc. auto.
Qed.
Lemma csv_read_quoted f : forall acc done rest,
  csv_read InQuoted acc done (double_bars f ++ String bar rest) = csv_read QuoteInQuoted (acc ++ f) done rest.
Proof.
  induction f as [|c f IH]; intros acc done rest.
  - cbn. rewrite sapp_nil_r. auto.
  - cbn [double_bars]. destruct (Ascii.eqb_spec c bar) as [->|Hc].
    + cbn. rewrite IH, sapp_assoc. auto.
    + cbn [append csv_read]. rewrite (proj2 (Ascii.eqb_neq c bar) Hc), IH, sapp_assoc. auto.
Qed.
Lemma csv_read_field f done rest : (* a field followed by a delimiter *)
  csv_read StartField "" done (csv_field f ++ String sp rest) = csv_read StartField "" (f :: done) rest.
Proof.
  unfold csv_field. destruct (needs_quotes f) eqn:E.
  - cbn [append csv_read]. rewrite Ascii.eqb_refl. rewrite sapp_assoc. cbn [append]. rewrite csv_read_quoted. cbn. auto.
  - unfold needs_quotes in E. apply orb_false_iff in E. destruct E as [E _]. apply orb_false_iff in E. destruct E as [E _].
    apply orb_false_iff in E. destruct E as [E1 E2]. destruct f as [|c f]; [reflexivity|].
    cbn in E1, E2. apply orb_false_iff in E1, E2. destruct E1 as [E1 E1'], E2 as [E2 E2']. cbn [append csv_read].
    rewrite E1, E2. destruct (csv_read_plain f (String c "") done rest E1') as [P _]. exact P.
Qed.
Lemma csv_read_last f done : csv_read StartField "" done (csv_field f) = rev (f :: done).
Proof.
  unfold csv_field. destruct (needs_quotes f) eqn:E.
  - cbn [csv_read]. rewrite Ascii.eqb_refl. rewrite csv_read_quoted. cbn. auto.
  - unfold needs_quotes in E. apply orb_false_iff in E. destruct E as [E _]. apply orb_false_iff in E. destruct E as [E _].
    apply orb_false_iff in E. destruct E as [E1 E2]. destruct f as [|c f]; [reflexivity|].
    cbn in E1, E2. apply orb_false_iff in E1, E2. destruct E1 as [E1 E1'], E2 as [E2 E2']. cbn [csv_read].
    rewrite E1, E2. destruct (csv_read_plain f (String c "") done "" E1') as [_ P]. exact P.
Qed.
Lemma csv_read_join l : l <> [] -> forall done, csv_read StartField "" done (join " " (map csv_field l)) = (rev done ++ l)%list.
Proof.
  induction l as [|f l IH]; intros Hne done; [congruence|]. destruct l as [|g l].
  - cbn [map join]. rewrite csv_read_last. reflexivity.
  - change (join " " (map csv_field (f :: g :: l))) with (csv_field f ++ String sp (join " " (map csv_field (g :: l)))).
    rewrite csv_read_field, IH by discriminate. cbn [rev]. rewrite <- app_assoc. reflexivity.
Qed.
Lemma csv_roundtrip fields : fields <> [] -> csv_parse (csv_line fields) = fields.
Proof.
  intros Hne.
  assert (G : join " " (map csv_field fields) <> "" -> csv_parse (join " " (map csv_field fields)) = fields).
  { intros H. unfold csv_parse. rewrite csv_read_join by auto. destruct (join _ _); [congruence|]. auto. }
  destruct fields as [|f l]; [congruence|]. destruct l as [|g l].
  - destruct f as [|c f]; [reflexivity|]. apply G. cbn [map join]. unfold csv_field. destruct (needs_quotes _); discriminate.
  - assert (E : csv_line (f :: g :: l) = join " " (map csv_field (f :: g :: l))) by (destruct f; auto). rewrite E. apply G.
    change (join " " (map csv_field (f :: g :: l))) with (csv_field f ++ String sp (join " " (map csv_field (g :: l)))).
    intros H. assert (L := f_equal slen H). rewrite slen_app in L. cbn in L. lia.
Qed.
