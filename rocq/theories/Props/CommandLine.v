(** C133: the command lines of the programs. *)
From Coq Require Import String Ascii Lia.
From Verif Require Import Base.Py Base.PyFacts Base.Str Base.StrFacts Base.Dict Base.DictFacts Model.Clustering Model.Programs Model.Dnn Model.DistanceProgram Model.CommandLine Spec.CommandLine.
From Coq Require Import ZifyBool ZifyNat.
Local Open Scope string_scope.
Local Notation length := List.length.

(* ---------- reading values ---------- *)
Lemma read_means t s v : read t s = Some v <-> means t s v.
Proof.
  split.
  - destruct t; cbn.
    + intros [= <-]. constructor.
    + destruct (py_int s) eqn:E; intros H; [ injection H as <-; constructor; exact E | discriminate ].
    + destruct (existsb (String.eqb s) choices) eqn:E; intros H; [ | discriminate ]. injection H as <-. constructor. apply existsb_exists in E. destruct E as (x & Hx & E). apply String.eqb_eq in E. subst x. exact Hx.
  - intros [ s' | s' n E | l s' H ]; cbn.
    + reflexivity.
    + rewrite E. reflexivity.
    + replace (existsb (String.eqb s') l) with true; [ reflexivity | ]. symmetry. apply existsb_exists. exists s'. split; [ exact H | apply String.eqb_refl ].
Qed.
Lemma means_det t s v v' : means t s v -> means t s v' -> v = v'.
Proof. intros H H'. apply read_means in H. apply read_means in H'. congruence. Qed.

(* ---------- names ---------- *)
Lemma all_names p o : sensible p -> In o (all_options p) -> option_name (o_name o).
Proof.
  intros (Hn & _) H. unfold all_options in H. apply in_app_or in H. destruct H as [ H | H ]; [ | apply Hn, H ].
  destruct H as [ <- | [ <- | [] ] ]; [ exists "h"%char, "" | exists "h"%char, "elp" ]; cbn; auto.
Qed.
Lemma letter_not c : (("a" <=? c) && (c <=? "z"))%char = true -> c <> "-"%char /\ c <> "="%char /\ digit c = false.
Proof.
  intros H. split; [ intros ->; discriminate | ]. split; [ intros ->; discriminate | ].
  destruct c as [ [] [] [] [] [] [] [] [] ]; first [ reflexivity | vm_compute in H; discriminate ].
Qed.
Lemma option_name_parts s : option_name s -> exists c r, s = String "-" (String c r) /\ digit c = false /\ s <> "--" /\ has_char "=" s = false.
Proof.
  intros (c & r & Hc & [ -> | -> ] & He); pose proof (letter_not c Hc) as (H1 & H2 & H3).
  - exists c, r. split; [ reflexivity | ]. split; [ exact H3 | ]. split; [ intros [= E _]; congruence | ]. cbn. rewrite He. destruct (c =? "=")%char eqn:E; [ apply Ascii.eqb_eq in E; congruence | reflexivity ].
  - exists "-"%char, (String c r). split; [ reflexivity | ]. split; [ reflexivity | ]. split; [ discriminate | ]. cbn. rewrite He. destruct (c =? "=")%char eqn:E; [ apply Ascii.eqb_eq in E; congruence | reflexivity ].
Qed.
Lemma find_option_in p o : sensible p -> In o (all_options p) -> find_option p (o_name o) = Some o.
Proof.
  intros (_ & Hnd & _) H. unfold find_option. revert Hnd H. generalize (all_options p). clear p. intros l. induction l as [ | a l IH ]; intros Hnd H; [ destruct H | ]. cbn in *. apply NoDup_cons_iff in Hnd. destruct Hnd as [ Hna Hnd ].
  destruct H as [ -> | H ]; [ rewrite String.eqb_refl; reflexivity | ]. destruct (o_name a =? o_name o)%string eqn:E; [ | apply IH; assumption ].
  apply String.eqb_eq in E. exfalso. apply Hna. rewrite E. apply in_map, H.
Qed.
Lemma find_option_none p s : (forall o, In o (all_options p) -> o_name o <> s) -> find_option p s = None.
Proof.
  intros H. unfold find_option. destruct (find _ _) as [ o | ] eqn:E; [ | reflexivity ]. apply find_some in E. destruct E as [ Hin E ]. apply String.eqb_eq in E. exfalso. apply (H o Hin E).
Qed.
Lemma in_all p o : In o (p_options p) -> In o (all_options p).
Proof. intros H. unfold all_options. apply in_or_app. right. exact H. Qed.

(* ---------- classification ---------- *)
Lemma first_is_spec c s : first_is c s = true <-> exists r, s = String c r.
Proof.
  destruct s as [ | d r ]; cbn; split; try discriminate.
  - intros (r & H). discriminate.
  - intros H. apply Ascii.eqb_eq in H. subst d. eauto.
  - intros (r' & [= -> _]). apply Ascii.eqb_refl.
Qed.
Lemma digits_spec s : digits s = all_digits s.
Proof. induction s as [ | c r IH ]; [ reflexivity | ]. cbn [digits all_digits]. rewrite IH. destruct c as [ [] [] [] [] [] [] [] [] ]; reflexivity. Qed.
Lemma split_equals_none s : has_char "=" s = false -> split_equals s = None.
Proof. induction s as [ | c r IH ]; cbn; intros H; [ reflexivity | ]. apply orb_false_elim in H. destruct H as [ -> H ]. rewrite (IH H). reflexivity. Qed.
Lemma split_equals_app a b : has_char "=" a = false -> split_equals (a ++ "=" ++ b) = Some (a, b).
Proof. induction a as [ | c r IH ]; cbn; intros H; [ reflexivity | ]. apply orb_false_elim in H. destruct H as [ -> H ]. cbn in IH. rewrite (IH H). reflexivity. Qed.
Lemma classify_word p s : sensible p -> word s -> classify p s = Some (Arg s).
Proof.
  intros Hp Hw. unfold classify. destruct (first_is "-" s) eqn:Ef; cbn [negb]; [ | reflexivity ]. apply first_is_spec in Ef. destruct Ef as (ds & ->).
  destruct Hw as [ Hw | (n & Hn) ]; [ destruct (Hw ds eq_refl) | ]. destruct (str_int_cases n) as [ [ _ (s & E & Hs & Hne) ] | [ _ (s & E & Hs & Hne) ] ]; rewrite E in Hn.
  { subst s. discriminate. }
  injection Hn as ->. destruct s as [ | d ds ]; [ congruence | ]. cbn [all_digits] in Hs. apply andb_prop in Hs. destruct Hs as [ Hd Hs ].
  assert (Hdash : (d =? "-")%char = false) by (destruct (d =? "-")%char eqn:Ed; [ apply Ascii.eqb_eq in Ed; subst d; discriminate | reflexivity ]).
  assert (Hnames : forall o, In o (all_options p) -> exists c r, o_name o = String "-" (String c r) /\ (d =? c)%char = false).
  { intros o Ho. destruct (option_name_parts _ (all_names p o Hp Ho)) as (c & r & En & Hc & _). exists c, r. split; [ exact En | ]. destruct (d =? c)%char eqn:Ed; [ apply Ascii.eqb_eq in Ed; subst c; congruence | reflexivity ]. }
  replace (String "-" (String d ds) =? "--")%string with false.
  2: { symmetry. apply String.eqb_neq. intros [= Ed _]. subst d. discriminate. }
  rewrite find_option_none. 2: { intros o Ho Eo. destruct (Hnames o Ho) as (c & r & En & Hc). rewrite En in Eo. injection Eo as -> _. rewrite Ascii.eqb_refl in Hc. discriminate. }
  cbn [String.length Nat.eqb].
  assert (He : has_char "=" (String "-" (String d ds)) = false).
  { assert (H' : has_char "=" (String d ds) = false); [ | change (has_char "=" (String "-" (String d ds))) with (has_char "=" (String d ds)); exact H' ]. apply digits_no_char; [ cbn; rewrite Hd, Hs; reflexivity | reflexivity ]. }
  rewrite (split_equals_none _ He). unfold option_tuples. cbn [substring first_is]. rewrite Hdash.
  replace (flat_map _ (all_options p)) with (@nil token).
  2: { symmetry. revert Hnames. generalize (all_options p). intros l. induction l as [ | o l IH ]; intros Hnames; [ reflexivity | ]. cbn [flat_map]. destruct (Hnames o (or_introl eq_refl)) as (c & r & En & Hc).
       rewrite En. rewrite IH by (intros o' Ho'; apply Hnames; right; exact Ho'). cbn [starts_with]. rewrite Hc, Bool.andb_false_r. cbn [andb].
       replace (String "-" (String c r) =? String "-" (String d (substring 0 0 ds)))%string with false; [ reflexivity | ]. symmetry. apply String.eqb_neq. intros [= Ed _]. subst c. rewrite Ascii.eqb_refl in Hc. discriminate. }
  cbn [negative_number digits_point]. rewrite Ascii.eqb_refl. cbn [andb]. rewrite digits_spec. cbn [all_digits]. rewrite Hd, Hs. reflexivity.
Qed.
Lemma classify_option p o : sensible p -> In o (p_options p) -> classify p (o_name o) = Some (Known o None).
Proof.
  intros Hp Ho. apply in_all in Ho. destruct (option_name_parts _ (all_names p o Hp Ho)) as (c & r & En & _ & Hne & _). unfold classify. rewrite (find_option_in p o Hp Ho).
  replace (o_name o =? "--")%string with false by (symmetry; apply String.eqb_neq; exact Hne). rewrite En. reflexivity.
Qed.
Lemma has_char_false_app c a b : has_char c (a ++ b) = false -> has_char c b = false.
Proof. rewrite has_char_app. intros H. apply orb_false_elim in H. apply H. Qed.
Lemma classify_equals p o s : sensible p -> In o (p_options p) -> classify p (o_name o ++ "=" ++ s) = Some (Known o (Some s)).
Proof.
  intros Hp Ho. apply in_all in Ho. destruct (option_name_parts _ (all_names p o Hp Ho)) as (c & r & En & _ & Hne & He). unfold classify. rewrite (split_equals_app _ s He), (find_option_in p o Hp Ho).
  rewrite find_option_none.
  2: { intros o' Ho' E. destruct (option_name_parts _ (all_names p o' Hp Ho')) as (_ & _ & _ & _ & _ & He'). rewrite E, has_char_app in He'. apply orb_false_elim in He'. destruct He' as [ _ He' ]. discriminate. }
  rewrite En. cbn [append first_is negb]. rewrite Ascii.eqb_refl. cbn [negb].
  replace (String "-" (String c (r ++ String "=" s)) =? "--")%string with false; [ reflexivity | ]. symmetry. apply String.eqb_neq. intros [= _ E]. destruct r; discriminate.
Qed.

(* ---------- the tokens of the pieces ---------- *)
Definition toks (p : parser) (i : piece) : list token :=
  match i with
  | Positional s => [Arg s]
  | Flag n => match find_option p n with Some o => [Known o None] | None => [] end
  | Named n s => match find_option p n with Some o => [Known o None; Arg s] | None => [] end
  | Equals n s => match find_option p n with Some o => [Known o (Some s)] | None => [] end
  end.
Lemma classify_app p a b : classify_all p (a ++ b) = match classify_all p a, classify_all p b with Some x, Some y => Some (x ++ y)%list | _, _ => None end.
Proof.
  induction a as [ | s a IH ]; cbn; [ destruct (classify_all p b); reflexivity | ]. rewrite IH. destruct (classify p s), (classify_all p a), (classify_all p b); reflexivity.
Qed.
Lemma classify_piece p i : sensible p -> right p i -> classify_all p (words_of i) = Some (toks p i).
Proof.
  intros Hp. destruct i as [ s | n | n s | n s ]; cbn [right words_of toks].
  - intros Hw. cbn. rewrite (classify_word p s Hp Hw). reflexivity.
  - intros (o & Ho & <- & _). rewrite (find_option_in p o Hp (in_all p o Ho)). cbn. rewrite (classify_option p o Hp Ho). reflexivity.
  - intros (Hw & o & t & v & Ho & <- & _). rewrite (find_option_in p o Hp (in_all p o Ho)). cbn. rewrite (classify_option p o Hp Ho), (classify_word p s Hp Hw). reflexivity.
  - intros (o & t & v & Ho & <- & _). rewrite (find_option_in p o Hp (in_all p o Ho)). cbn [classify_all]. rewrite (classify_equals p o s Hp Ho). reflexivity.
Qed.
Lemma classify_pieces p l : sensible p -> Forall (right p) l -> classify_all p (words l) = Some (flat_map (toks p) l).
Proof.
  intros Hp. unfold words. induction 1 as [ | i l Hi Hl IH ]; [ reflexivity | ]. cbn [flat_map]. rewrite classify_app, (classify_piece p i Hp Hi), IH. reflexivity.
Qed.

(* ---------- consuming the pieces ---------- *)
Lemma get_cons d v ns d' : get ((d, v) :: ns) d' = if (d =? d')%string then Some v else get ns d'.
Proof. unfold get. cbn. destruct (d =? d')%string; reflexivity. Qed.
Lemma get_other d v ns d' : d <> d' -> get ((d, v) :: ns) d' = get ns d'.
Proof. intros H. rewrite get_cons. apply String.eqb_neq in H. rewrite H. reflexivity. Qed.
Lemma get_same d v ns : get ((d, v) :: ns) d = Some v.
Proof. rewrite get_cons, String.eqb_refl. reflexivity. Qed.
Lemma nodup_dest (l : list opt) (r : list positional) o o' : NoDup (map o_dest l ++ map p_dest r) -> In o l -> In o' l -> o_dest o = o_dest o' -> o = o'.
Proof.
  induction l as [ | a l IH ]; intros Hnd H H' E; [ destruct H | ]. cbn in Hnd. apply NoDup_cons_iff in Hnd. destruct Hnd as [ Hna Hnd ]. destruct H as [ -> | H ], H' as [ -> | H' ]; auto.
  - exfalso. apply Hna. rewrite E. apply in_or_app. left. apply in_map, H'.
  - exfalso. apply Hna. rewrite <- E. apply in_or_app. left. apply in_map, H.
Qed.
Lemma nodup_both (l : list opt) (r : list positional) o q : NoDup (map o_dest l ++ map p_dest r) -> In o l -> In q r -> o_dest o <> p_dest q.
Proof.
  induction l as [ | a l IH ]; intros Hnd H H' E; [ destruct H | ]. cbn in Hnd. apply NoDup_cons_iff in Hnd. destruct Hnd as [ Hna Hnd ]. destruct H as [ -> | H ].
  - apply Hna. rewrite E. apply in_or_app. right. apply in_map, H'.
  - apply (IH Hnd H H' E).
Qed.
Definition set_by (o : opt) (g : option string) (v : value) : Prop :=
  match g with None => v = VBool true | Some s => exists t, o_action o = Store t /\ means t s v end.
Lemma consume_pieces p req l : sensible p -> Forall (right p) l -> forall pos ns seen, NoDup (map o_dest (p_options p) ++ map p_dest pos) ->
  Forall2 (fun q s => exists v, means (p_reading q) s v) pos (positionals l) -> (forall n, In n req -> In n seen \/ given n l <> None) ->
  exists ns', consume req (flat_map (toks p) l) pos ns seen false = Parsed ns' /\
    (forall n q s, nth_error pos n = Some q -> nth_error (positionals l) n = Some s -> exists v, means (p_reading q) s v /\ get ns' (p_dest q) = Some v) /\
    (forall o, In o (p_options p) -> match given (o_name o) l with None => get ns' (o_dest o) = get ns (o_dest o) | Some g => exists v, set_by o g v /\ get ns' (o_dest o) = Some v end) /\
    (forall d, ~ In d (map o_dest (p_options p) ++ map p_dest pos) -> get ns' d = get ns d).
Proof.
  intros Hp. induction 1 as [ | i l Hi Hl IH ]; intros pos ns seen Hnd HF Hreq.
  - cbn [flat_map]. cbn in HF. inversion HF. subst pos. exists ns. split.
    + cbn. replace (forallb _ req) with true; [ reflexivity | ]. symmetry. apply forallb_forall. intros n Hn. apply existsb_exists. destruct (Hreq n Hn) as [ H | H ]; [ | cbn in H; congruence ]. exists n. split; [ exact H | apply String.eqb_refl ].
    + split; [ intros [ | n ]; discriminate | ]. split; [ intros o Ho; cbn; reflexivity | reflexivity ].
  - assert (Hu : forall o o', In o (p_options p) -> In o' (p_options p) -> o_name o = o_name o' -> o = o').
    { intros o o' Ho Ho' E. pose proof (find_option_in p o Hp (in_all p o Ho)) as F. rewrite E, (find_option_in p o' Hp (in_all p o' Ho')) in F. congruence. }
    assert (Hopt : forall o v g, In o (p_options p) -> about (o_name o) i = Some g -> (forall n, n <> o_name o -> about n i = None) -> set_by o g v -> positionals (i :: l) = positionals l ->
      consume req (flat_map (toks p) (i :: l)) pos ns seen false = consume req (flat_map (toks p) l) pos ((o_dest o, v) :: ns) (o_name o :: seen) false ->
      exists ns', consume req (flat_map (toks p) (i :: l)) pos ns seen false = Parsed ns' /\
        (forall n q s, nth_error pos n = Some q -> nth_error (positionals (i :: l)) n = Some s -> exists v, means (p_reading q) s v /\ get ns' (p_dest q) = Some v) /\
        (forall o, In o (p_options p) -> match given (o_name o) (i :: l) with None => get ns' (o_dest o) = get ns (o_dest o) | Some g => exists v, set_by o g v /\ get ns' (o_dest o) = Some v end) /\
        (forall d, ~ In d (map o_dest (p_options p) ++ map p_dest pos) -> get ns' d = get ns d)).
    { intros o v g Ho Ha Hn Hv Hpos Ec. destruct (IH pos ((o_dest o, v) :: ns) (o_name o :: seen) Hnd) as (ns' & E & HA & HB & HC).
      - rewrite <- Hpos. exact HF.
      - intros n Hn'. destruct (Hreq n Hn') as [ H | H ]; [ left; right; exact H | ]. cbn [given] in H. destruct (given n l) eqn:Eg; [ right; congruence | ]. left. destruct (string_dec n (o_name o)) as [ -> | Hne ]; [ left; reflexivity | ]. rewrite (Hn n Hne) in H. congruence.
      - exists ns'. split; [ rewrite Ec; exact E | ]. rewrite Hpos. split; [ exact HA | ]. split.
        + intros o' Ho'. cbn [given]. specialize (HB o' Ho'). destruct (given (o_name o') l) as [ g' | ]; [ exact HB | ]. destruct (string_dec (o_name o') (o_name o)) as [ En | Hne ].
          * pose proof (Hu o' o Ho' Ho En) as ->. rewrite Ha. exists v. split; [ exact Hv | ]. rewrite HB. apply get_same.
          * rewrite (Hn _ Hne). rewrite HB. apply get_other. intros Ed. apply Hne. f_equal. symmetry. eapply nodup_dest; eauto.
        + intros d Hd. rewrite (HC d Hd). apply get_other. intros <-. apply Hd. apply in_or_app. left. apply in_map, Ho. }
    assert (Habout : forall n0 n : string, n <> n0 -> (n0 =? n)%string = false) by (intros n0 n H; apply String.eqb_neq; congruence).
    destruct i as [ s | n | n s | n s ]; cbn [right] in Hi.
    + cbn in HF. inversion HF as [ | q s' pos' rest (v & Hv) HF' ]. subst pos s' rest. cbn [flat_map toks app consume]. pose proof Hv as Hr. apply read_means in Hr. rewrite Hr.
      assert (Hnd' : NoDup (map o_dest (p_options p) ++ map p_dest pos')) by (cbn in Hnd; apply NoDup_remove_1 in Hnd; exact Hnd).
      assert (Hq : ~ In (p_dest q) (map o_dest (p_options p) ++ map p_dest pos')) by (cbn in Hnd; apply NoDup_remove_2 in Hnd; exact Hnd).
      destruct (IH pos' ((p_dest q, v) :: ns) seen Hnd' HF') as (ns' & E & HA & HB & HC).
      { intros n Hn. destruct (Hreq n Hn) as [ H | H ]; [ left; exact H | ]. right. cbn in H. destruct (given n l); congruence. }
      exists ns'. split; [ exact E | ]. split; [ | split ].
      * intros [ | n ] q' s' Hq' Hs'; cbn in Hq', Hs'; [ | apply (HA n); assumption ]. injection Hq' as <-. injection Hs' as <-. exists v. split; [ exact Hv | ]. rewrite (HC _ Hq). apply get_same.
      * intros o Ho. specialize (HB o Ho). cbn [given]. destruct (given (o_name o) l); [ exact HB | ]. cbn [about]. rewrite HB. apply get_other. intros Ed. apply Hq. apply in_or_app. left. rewrite Ed. apply in_map, Ho.
      * intros d Hd. rewrite HC; [ apply get_other; intros <-; apply Hd; apply in_or_app; right; left; reflexivity | ]. intros H. apply Hd. apply in_app_or in H. apply in_or_app. destruct H; [ left | right; right ]; assumption.
    + destruct Hi as (o & Ho & <- & Ha). apply (Hopt o (VBool true) None Ho).
      * cbn. rewrite String.eqb_refl. reflexivity.
      * intros n Hne. cbn. rewrite (Habout _ _ Hne). reflexivity.
      * reflexivity.
      * reflexivity.
      * cbn [flat_map toks]. rewrite (find_option_in p o Hp (in_all p o Ho)). cbn [app consume]. rewrite Ha. reflexivity.
    + destruct Hi as (Hw & o & t & v & Ho & <- & Ha & Hm). apply (Hopt o v (Some s) Ho).
      * cbn. rewrite String.eqb_refl. reflexivity.
      * intros n Hne. cbn. rewrite (Habout _ _ Hne). reflexivity.
      * exists t. auto.
      * reflexivity.
      * cbn [flat_map toks]. rewrite (find_option_in p o Hp (in_all p o Ho)). cbn [app consume]. rewrite Ha. apply read_means in Hm. rewrite Hm. reflexivity.
    + destruct Hi as (o & t & v & Ho & <- & Ha & Hm). apply (Hopt o v (Some s) Ho).
      * cbn. rewrite String.eqb_refl. reflexivity.
      * intros n Hne. cbn. rewrite (Habout _ _ Hne). reflexivity.
      * exists t. auto.
      * reflexivity.
      * cbn [flat_map toks]. rewrite (find_option_in p o Hp (in_all p o Ho)). cbn [app consume]. rewrite Ha. apply read_means in Hm. rewrite Hm. reflexivity.
Qed.
Lemma get_defaults p o : sensible p -> In o (p_options p) -> get (defaults p) (o_dest o) = Some (o_default o).
Proof.
  intros (_ & _ & Hnd & _) Ho. unfold defaults, get. revert Hnd Ho. generalize (p_options p), (p_positionals p). intros l r. induction l as [ | a l IH ]; intros Hnd Ho; [ destruct Ho | ]. cbn in *.
  apply NoDup_cons_iff in Hnd. destruct Hnd as [ Hna Hnd ]. destruct Ho as [ -> | Ho ]; [ rewrite String.eqb_refl; reflexivity | ].
  destruct (o_dest a =? o_dest o)%string eqn:E; [ | apply (IH Hnd Ho) ]. apply String.eqb_eq in E. exfalso. apply Hna. rewrite E. apply in_or_app. left. apply in_map, Ho.
Qed.

(** C133: a command line made of positional arguments and options, in any order of the options and anywhere between the positional arguments, is accepted when
    every value has its type or is one of the choices, the positional arguments are as many as they should be and the required options
    are there; every argument has the value that the line gives it (the last one, when an option is repeated), the other options have their defaults. *)
Theorem C133_accepts : forall p l, sensible p -> Forall (right p) l -> Forall2 (fun q s => exists v, means (p_reading q) s v) (p_positionals p) (positionals l) ->
  (forall o, In o (p_options p) -> o_required o = true -> given (o_name o) l <> None) ->
  exists ns, parse_args p (words l) = Parsed ns /\
    (forall n q s, nth_error (p_positionals p) n = Some q -> nth_error (positionals l) n = Some s -> exists v, means (p_reading q) s v /\ get ns (p_dest q) = Some v) /\
    (forall o, In o (p_options p) -> match given (o_name o) l with
       | None => get ns (o_dest o) = Some (o_default o)
       | Some None => get ns (o_dest o) = Some (VBool true)
       | Some (Some s) => exists t v, o_action o = Store t /\ means t s v /\ get ns (o_dest o) = Some v
       end).
Proof.
  intros p l Hp Hr HF Hreq. unfold parse_args. rewrite (classify_pieces p l Hp Hr). pose proof Hp as (_ & _ & Hnd & _).
  destruct (consume_pieces p (required_names p) l Hp Hr (p_positionals p) (defaults p) [] Hnd HF) as (ns & E & HA & HB & _).
  { intros n Hn. right. unfold required_names in Hn. apply in_map_iff in Hn. destruct Hn as (o & <- & Ho). apply filter_In in Ho. destruct Ho as [ Ho Hq ]. apply (Hreq o Ho Hq). }
  exists ns. split; [ exact E | ]. split; [ exact HA | ]. intros o Ho. specialize (HB o Ho). rewrite (get_defaults p o Hp Ho) in HB. destruct (given (o_name o) l) as [ [ s | ] | ]; [ | | exact HB ].
  - destruct HB as (v & (t & Ha & Hm) & G). eauto.
  - destruct HB as (v & -> & G). exact G.
Qed.
Print Assumptions C133_accepts.

(* ---------- soundness ---------- *)
Lemma tuples_in p s t : In t (option_tuples p s) -> exists o e, t = Known o e /\ In o (all_options p).
Proof.
  unfold option_tuples. destruct (first_is "-" (substring 1 1 s)).
  - destruct (split_equals s) as [ [ a b ] | ]; intros H; apply in_map_iff in H; destruct H as (o & <- & Ho); apply filter_In in Ho; destruct Ho; eauto.
  - intros H. apply in_flat_map in H. destruct H as (o & Ho & H). destruct (o_name o =? substring 0 2 s)%string; [ destruct H as [ <- | [] ]; eauto | ]. destruct (starts_with s (o_name o)); [ destruct H as [ <- | [] ]; eauto | destruct H ].
Qed.
Lemma find_option_some p s o : find_option p s = Some o -> In o (all_options p) /\ o_name o = s.
Proof. intros H. apply find_some in H. destruct H as [ H E ]. apply String.eqb_eq in E. auto. Qed.
Lemma classify_cases p s t : classify p s = Some t -> t = Arg s \/ t = Unknown \/ exists o e, t = Known o e /\ In o (all_options p).
Proof.
  unfold classify. destruct (first_is "-" s); cbn [negb]; [ | intros [= <-]; auto ]. destruct (s =? "--")%string; [ discriminate | ].
  destruct (find_option p s) as [ o | ] eqn:E; [ intros [= <-]; apply find_option_some in E; destruct E; right; right; eauto | ]. destruct (String.length s =? 1)%nat; [ intros [= <-]; auto | ].
  assert (H : match option_tuples p s with _ :: _ :: _ => None | [t] => Some t | [] => if negative_number s then Some (Arg s) else if has_char " " s then Some (Arg s) else Some Unknown end = Some t ->
    t = Arg s \/ t = Unknown \/ exists o e, t = Known o e /\ In o (all_options p)).
  { destruct (option_tuples p s) as [ | t0 [ | ] ] eqn:Et; [ | | discriminate ].
    - destruct (negative_number s); [ intros [= <-]; auto | ]. destruct (has_char " " s); intros [= <-]; auto.
    - intros [= <-]. right. right. apply (tuples_in p s). rewrite Et. left. reflexivity. }
  destruct (split_equals s) as [ [ a b ] | ]; [ | exact H ]. destruct (find_option p a) as [ o | ] eqn:E'; [ | exact H ]. intros [= <-]. apply find_option_some in E'. destruct E'. right. right. eauto.
Qed.
Lemma classify_all_in p : forall argv toks, classify_all p argv = Some toks -> forall t, In t toks -> exists s, In s argv /\ classify p s = Some t.
Proof.
  induction argv as [ | s argv IH ]; intros toks; cbn; [ intros [= <-] t [] | ]. destruct (classify p s) as [ t0 | ] eqn:Ec; [ | discriminate ]. destruct (classify_all p argv) as [ l | ] eqn:El; [ | discriminate ].
  intros [= <-] t [ <- | H ]; [ exists s; auto | ]. destruct (IH l eq_refl t H) as (s' & ? & ?). exists s'. auto.
Qed.
Lemma classify_all_of p : forall argv toks, classify_all p argv = Some toks -> forall s, In s argv -> exists t, In t toks /\ classify p s = Some t.
Proof.
  induction argv as [ | s argv IH ]; intros toks; cbn; [ intros _ s [] | ]. destruct (classify p s) as [ t0 | ] eqn:Ec; [ | discriminate ]. destruct (classify_all p argv) as [ l | ] eqn:El; [ | discriminate ].
  intros [= <-] s' [ <- | H ]; [ exists t0; split; [ left; reflexivity | exact Ec ] | ]. destruct (IH l eq_refl s' H) as (t & ? & ?). exists t. split; [ right; assumption | assumption ].
Qed.
Definition good_opt (o : opt) (v : value) : Prop := match o_action o with Help => False | StoreTrue => v = VBool true | Store t => exists s, means t s v end.
Definition state_ok (p : parser) (W : list string) (ns : namespace) (seen : list string) (done : list positional) : Prop :=
  (forall q, In q done -> exists s v, In s W /\ means (p_reading q) s v /\ get ns (p_dest q) = Some v) /\
  (forall o, In o (p_options p) -> (get ns (o_dest o) = Some (o_default o) /\ ~ In (o_name o) seen) \/ exists v, get ns (o_dest o) = Some v /\ good_opt o v).
Lemma state_pos p W ns seen done q s v : NoDup (map o_dest (p_options p) ++ map p_dest (done ++ [q]))%list -> state_ok p W ns seen done -> In s W -> means (p_reading q) s v ->
  state_ok p W ((p_dest q, v) :: ns) seen (done ++ [q]).
Proof.
  intros Hnd (Hd & Ho) Hs Hm. split.
  - intros q' Hq'. apply in_app_or in Hq'. destruct Hq' as [ Hq' | [ <- | [] ] ]; [ | exists s, v; rewrite get_same; auto ]. destruct (Hd q' Hq') as (s' & v' & ? & ? & G). exists s', v'. split; [ assumption | ]. split; [ assumption | ]. rewrite get_other; [ exact G | ].
    intros E. rewrite map_app in Hnd. cbn in Hnd. rewrite app_assoc in Hnd. apply NoDup_remove_2 in Hnd. rewrite app_nil_r in Hnd. apply Hnd. apply in_or_app. right. rewrite E. apply in_map, Hq'.
  - intros o Hin. rewrite get_other; [ apply Ho, Hin | ]. intros E. apply (nodup_both _ _ o q Hnd Hin); [ apply in_or_app; right; left; reflexivity | congruence ].
Qed.
Lemma state_opt p W ns seen done o v : NoDup (map o_dest (p_options p) ++ map p_dest done)%list -> NoDup (map o_name (all_options p)) -> state_ok p W ns seen done -> In o (p_options p) -> good_opt o v ->
  state_ok p W ((o_dest o, v) :: ns) (o_name o :: seen) done.
Proof.
  intros Hnd Hnn (Hd & Ho) Hin Hv. split.
  - intros q Hq. rewrite get_other; [ apply Hd, Hq | apply (nodup_both _ _ o q Hnd Hin Hq) ].
  - intros o' Hin'. destruct (string_dec (o_dest o) (o_dest o')) as [ E | E ].
    + rewrite E, get_same. right. exists v. split; [ reflexivity | ]. pose proof (nodup_dest _ _ o o' Hnd Hin Hin' E) as <-. exact Hv.
    + rewrite (get_other _ _ _ _ E). destruct (Ho o' Hin') as [ [ G Hs ] | H ]; [ left | right; exact H ]. split; [ exact G | ]. intros [ En | H ]; [ | auto ]. apply E. f_equal.
      unfold all_options in Hnn. rewrite map_app in Hnn. clear -Hnn En Hin Hin'. assert (Hnn' : NoDup (map o_name (p_options p))) by (cbn in Hnn; inversion Hnn; subst; match goal with H : NoDup _ |- _ => inversion H; subst; assumption end).
      revert Hnn' En Hin Hin'. generalize (p_options p). intros l. induction l as [ | a l IH ]; intros Hnd En H H'; [ destruct H | ]. cbn in Hnd. apply NoDup_cons_iff in Hnd. destruct Hnd as [ Hna Hnd ]. destruct H as [ -> | H ], H' as [ -> | H' ]; auto.
      * exfalso. apply Hna. rewrite En. apply in_map, H'.
      * exfalso. apply Hna. rewrite <- En. apply in_map, H.
Qed.
Lemma consume_sound p req W : sensible p -> forall n toks pos ns seen ex done ns', (length toks <= n)%nat -> consume req toks pos ns seen ex = Parsed ns' ->
  (forall t, In t toks -> (exists s, t = Arg s /\ In s W) \/ t = Unknown \/ exists o e, t = Known o e /\ In o (all_options p)) ->
  (done ++ pos)%list = p_positionals p -> state_ok p W ns seen done ->
  ex = false /\ ~ In Unknown toks /\ exists seen', state_ok p W ns' seen' (p_positionals p) /\ (forall m, In m req -> In m seen').
Proof.
  intros Hp. pose proof Hp as (_ & Hnn & Hnd & Hh). induction n as [ | n IH ]; intros toks pos ns seen ex done ns' Hlen E Ht Hdone Hok.
  - destruct toks; [ | cbn in Hlen; lia ]. cbn in E. destruct ex; [ discriminate | ]. destruct pos; [ | discriminate ]. destruct (forallb _ req) eqn:Ef; [ | discriminate ]. injection E as <-. split; [ reflexivity | ]. split; [ intros [] | ].
    rewrite app_nil_r in Hdone. subst done. exists seen. split; [ exact Hok | ]. intros m Hm. rewrite forallb_forall in Ef. specialize (Ef m Hm). apply existsb_exists in Ef. destruct Ef as (x & Hx & Ex). apply String.eqb_eq in Ex. subst x. exact Hx.
  - destruct toks as [ | t toks ]; [ apply (IH [] pos ns seen ex done ns'); auto; cbn; lia | ]. cbn in Hlen. assert (Ht' : forall t, In t toks -> (exists s, t = Arg s /\ In s W) \/ t = Unknown \/ exists o e, t = Known o e /\ In o (all_options p)) by (intros t' H'; apply Ht; right; exact H').
    assert (Hnt : t <> Unknown -> ~ In Unknown toks -> ~ In Unknown (t :: toks)) by (intros H1 H2 [ H | H ]; congruence).
    destruct t as [ s | o [ e | ] | ]; cbn [consume] in E.
    + destruct (Ht _ (or_introl eq_refl)) as [ (s' & [= <-] & Hs) | [ H | (o & e & H & _) ] ]; try discriminate. destruct pos as [ | q pos ].
      * destruct (IH toks [] ns seen true done ns') as (C & _); auto; [ lia | discriminate ].
      * destruct (read (p_reading q) s) as [ v | ] eqn:Er; [ | discriminate ]. apply read_means in Er. destruct (IH toks pos ((p_dest q, v) :: ns) seen ex (done ++ [q])%list ns') as (C1 & C2 & C3); auto.
        -- lia.
        -- rewrite <- app_assoc. exact Hdone.
        -- apply (state_pos p W ns seen done q s v); auto. rewrite <- Hdone in Hnd. clear -Hnd. rewrite map_app in *. cbn in *. revert Hnd. generalize (map o_dest (p_options p)), (map p_dest done), (map p_dest pos). intros a b c Hnd.
           replace (a ++ b ++ p_dest q :: c)%list with ((a ++ b ++ [p_dest q]) ++ c)%list in Hnd by (rewrite <- !app_assoc; reflexivity). clear -Hnd. revert Hnd. generalize (a ++ b ++ [p_dest q])%list. intros x. induction x as [ | y x IHx ]; intros H; [ constructor | ]. cbn in H. inversion H; subst. constructor; [ intros Hc; apply H2; apply in_or_app; left; exact Hc | auto ].
        -- split; [ exact C1 | ]. split; [ apply Hnt; [ discriminate | exact C2 ] | exact C3 ].
    + destruct (Ht _ (or_introl eq_refl)) as [ (s & H & _) | [ H | (o' & e' & [= <- <-] & Ho) ] ]; try discriminate. destruct (o_action o) as [ | | t ] eqn:Ea; try discriminate. destruct (read t e) as [ v | ] eqn:Er; [ | discriminate ]. apply read_means in Er.
      assert (Ho' : In o (p_options p)) by (unfold all_options in Ho; apply in_app_or in Ho; destruct Ho as [ [ <- | [ <- | [] ] ] | Ho ]; [ discriminate | discriminate | exact Ho ]).
      destruct (IH toks pos ((o_dest o, v) :: ns) (o_name o :: seen) ex done ns') as (C1 & C2 & C3); auto; [ lia | | split; [ exact C1 | split; [ apply Hnt; [ discriminate | exact C2 ] | exact C3 ] ] ].
      apply state_opt; auto; [ | unfold good_opt; rewrite Ea; eauto ]. rewrite <- Hdone in Hnd. rewrite map_app, app_assoc in Hnd. clear -Hnd. revert Hnd. generalize (map o_dest (p_options p) ++ map p_dest done)%list. intros x. induction x as [ | y x IHx ]; intros H; [ constructor | ]. cbn in H. inversion H; subst. constructor; [ intros Hc; apply H2; apply in_or_app; left; exact Hc | auto ].
    + destruct (Ht _ (or_introl eq_refl)) as [ (s & H & _) | [ H | (o' & e' & [= <- <-] & Ho) ] ]; try discriminate.
      assert (Hnd' : NoDup (map o_dest (p_options p) ++ map p_dest done)%list).
      { rewrite <- Hdone in Hnd. rewrite map_app, app_assoc in Hnd. clear -Hnd. revert Hnd. generalize (map o_dest (p_options p) ++ map p_dest done)%list. intros x. induction x as [ | y x IHx ]; intros H; [ constructor | ]. cbn in H. inversion H; subst. constructor; [ intros Hc; apply H2; apply in_or_app; left; exact Hc | auto ]. }
      assert (Ho' : o_action o <> Help -> In o (p_options p)) by (intros Hne; unfold all_options in Ho; apply in_app_or in Ho; destruct Ho as [ [ <- | [ <- | [] ] ] | Ho ]; [ cbn in Hne; congruence | cbn in Hne; congruence | exact Ho ]).
      destruct (o_action o) as [ | | t ] eqn:Ea; [ discriminate | | ].
      * destruct (IH toks pos ((o_dest o, VBool true) :: ns) (o_name o :: seen) ex done ns') as (C1 & C2 & C3); auto; [ lia | | split; [ exact C1 | split; [ apply Hnt; [ discriminate | exact C2 ] | exact C3 ] ] ].
        apply state_opt; auto; [ apply Ho'; discriminate | unfold good_opt; rewrite Ea; reflexivity ].
      * destruct toks as [ | [ s | | ] toks ]; try discriminate. destruct (read t s) as [ v | ] eqn:Er; [ | discriminate ]. apply read_means in Er. cbn in Hlen.
        destruct (IH toks pos ((o_dest o, v) :: ns) (o_name o :: seen) ex done ns') as (C1 & C2 & C3); auto; [ lia | | | split; [ exact C1 | split; [ apply Hnt; [ discriminate | intros [ H | H ]; [ discriminate | auto ] ] | exact C3 ] ] ].
        -- intros t' H'. apply Ht'. right. exact H'.
        -- apply state_opt; auto; [ apply Ho'; discriminate | unfold good_opt; rewrite Ea; eauto ].
    + destruct (IH toks pos ns seen true done ns') as (C & _); auto; [ lia | discriminate ].
Qed.
Lemma parse_state p argv ns : sensible p -> parse_args p argv = Parsed ns ->
  (forall s, In s argv -> classify p s <> Some Unknown) /\ exists seen, state_ok p argv ns seen (p_positionals p) /\ (forall m, In m (required_names p) -> In m seen).
Proof.
  intros Hp. unfold parse_args. destruct (classify_all p argv) as [ toks | ] eqn:Ec; [ | discriminate ]. intros E.
  destruct (consume_sound p (required_names p) argv Hp (length toks) toks (p_positionals p) (defaults p) [] false [] ns) as (_ & C2 & C3); auto.
  - intros t Ht. destruct (classify_all_in p argv toks Ec t Ht) as (s & Hs & Hc). destruct (classify_cases p s t Hc) as [ -> | [ -> | H ] ]; eauto.
  - split; [ intros q [] | ]. intros o Ho. left. split; [ apply get_defaults; assumption | intros [] ].
  - split; [ | exact C3 ]. intros s Hs Hc. destruct (classify_all_of p argv toks Ec s Hs) as (t & Ht & Ht'). rewrite Hc in Ht'. injection Ht' as <-. auto.
Qed.

(** C133: when a command line is accepted, whatever it looks like, every positional argument has the value that a word of the line means for it (in the
    choices, or a number), every option has its default, if it is not required, or a value of its type or of its choices; *)
Theorem C133_sound : forall p argv ns, sensible p -> parse_args p argv = Parsed ns ->
  (forall q, In q (p_positionals p) -> exists s v, In s argv /\ means (p_reading q) s v /\ get ns (p_dest q) = Some v) /\
  (forall o, In o (p_options p) ->
     (get ns (o_dest o) = Some (o_default o) /\ o_required o = false) \/
     match o_action o with Help => False | StoreTrue => get ns (o_dest o) = Some (VBool true) | Store t => exists s v, means t s v /\ get ns (o_dest o) = Some v end).
Proof.
  intros p argv ns Hp E. destruct (parse_state p argv ns Hp E) as (_ & seen & (Hq & Ho) & Hreq). split; [ exact Hq | ]. intros o Hin. destruct (Ho o Hin) as [ [ G Hs ] | (v & G & Hv) ].
  - left. split; [ exact G | ]. destruct (o_required o) eqn:Er; [ | reflexivity ]. exfalso. apply Hs, Hreq. unfold required_names. apply in_map. apply filter_In. auto.
  - right. unfold good_opt in Hv. destruct (o_action o); [ exact Hv | subst v; exact G | destruct Hv as (s & Hv); eauto ].
Qed.
Print Assumptions C133_sound.

(** C133: and every word with two dashes (and no blank) is the name of an option of the program, or the beginning of one: a mistyped option is not
    passed over. *)
Theorem C133_no_unknown : forall p argv ns s, sensible p -> parse_args p argv = Parsed ns -> In (String "-" (String "-" s)) argv -> has_char " " s = false ->
  exists o name, In o (all_options p) /\ starts_with name (o_name o) = true /\
    (String "-" (String "-" s) = name \/ exists v, String "-" (String "-" s) = (name ++ "=" ++ v)).
Proof.
  intros p argv ns s Hp E Hin Hb. destruct (parse_state p argv ns Hp E) as (Hu & _). specialize (Hu _ Hin).
  assert (Hc : classify p (String "-" (String "-" s)) <> None).
  { intros Hc. unfold parse_args in E. destruct (classify_all p argv) as [ toks | ] eqn:Ec; [ | discriminate ]. destruct (classify_all_of p argv toks Ec _ Hin) as (t & _ & H). congruence. }
  assert (Hsw : forall x, starts_with x x = true) by (induction x as [ | c x IH ]; cbn; [ reflexivity | rewrite Ascii.eqb_refl; exact IH ]).
  assert (Hse : forall x a b, split_equals x = Some (a, b) -> x = (a ++ "=" ++ b)).
  { induction x as [ | c x IH ]; cbn; intros a b; [ discriminate | ]. destruct (c =? "=")%char eqn:Ee; [ intros [= <- <-]; apply Ascii.eqb_eq in Ee; subst c; reflexivity | ]. destruct (split_equals x) as [ [ a' b' ] | ]; [ | discriminate ]. intros [= <- <-]. cbn. f_equal. apply IH. reflexivity. }
  revert Hu Hc. unfold classify. cbn [first_is]. rewrite Ascii.eqb_refl. cbn [negb]. destruct (String "-" (String "-" s) =? "--")%string; [ congruence | ].
  destruct (find_option p (String "-" (String "-" s))) as [ o | ] eqn:Ef.
  { intros _ _. apply find_option_some in Ef. destruct Ef as [ Ho Hn ]. exists o, (o_name o). auto. }
  cbn [String.length Nat.eqb]. destruct (split_equals (String "-" (String "-" s))) as [ [ a b ] | ] eqn:Es.
  - destruct (find_option p a) as [ o | ] eqn:Ea.
    + intros _ _. apply find_option_some in Ea. destruct Ea as [ Ho Hn ]. exists o, (o_name o). split; [ exact Ho | ]. split; [ apply Hsw | ]. right. exists b. rewrite Hn. apply Hse, Es.
    + unfold option_tuples. rewrite Es. cbn [substring first_is]. rewrite Ascii.eqb_refl. destruct (filter _ _) as [ | o l ] eqn:Efl; cbn [map].
      * cbn [negative_number digits_point digits]. rewrite Ascii.eqb_refl. cbn. rewrite Hb. congruence.
      * intros _ _. assert (Ho : In o (filter (fun o => starts_with a (o_name o)) (all_options p))) by (rewrite Efl; left; reflexivity). apply filter_In in Ho. destruct Ho as [ Ho Hs ]. exists o, a. split; [ exact Ho | ]. split; [ exact Hs | ]. right. exists b. apply Hse, Es.
  - unfold option_tuples. rewrite Es. cbn [substring first_is]. rewrite Ascii.eqb_refl. destruct (filter _ _) as [ | o l ] eqn:Efl; cbn [map].
    + cbn [negative_number digits_point digits]. rewrite Ascii.eqb_refl. cbn. rewrite Hb. congruence.
    + intros _ _. assert (Ho : In o (filter (fun o => starts_with (String "-" (String "-" s)) (o_name o)) (all_options p))) by (rewrite Efl; left; reflexivity). apply filter_In in Ho. destruct Ho as [ Ho Hs ]. exists o, (String "-" (String "-" s)). auto.
Qed.
Print Assumptions C133_no_unknown.

(* ---------- the parsers of the programs ---------- *)
Definition option_name_b (s : string) : bool :=
  match s with
  | String a (String b r) =>
      (a =? "-")%char && ((("a" <=? b)%char && (b <=? "z")%char && negb (has_char "=" r)) ||
        ((b =? "-")%char && match r with String c r' => ("a" <=? c)%char && (c <=? "z")%char && negb (has_char "=" r') | "" => false end))
  | _ => false
  end.
Fixpoint nodup_b (l : list string) : bool := match l with [] => true | x :: r => negb (existsb (String.eqb x) r) && nodup_b r end.
Lemma nodup_b_ok l : nodup_b l = true -> NoDup l.
Proof.
  induction l as [ | x r IH ]; cbn; [ constructor | ]. intros H. apply andb_prop in H. destruct H as [ H1 H2 ]. constructor; [ | apply IH, H2 ]. intros Hin. apply negb_true_iff in H1.
  assert (H : existsb (String.eqb x) r = true) by (apply existsb_exists; exists x; split; [ exact Hin | apply String.eqb_refl ]). congruence.
Qed.
Definition sensible_b (p : parser) : bool :=
  forallb (fun o => option_name_b (o_name o) && match o_action o with Help => false | _ => true end) (p_options p) &&
  nodup_b (map o_name (all_options p)) &&
  nodup_b (map o_dest (p_options p) ++ map p_dest (p_positionals p))%list.
Lemma option_name_b_ok s : option_name_b s = true -> option_name s.
Proof.
  destruct s as [ | a [ | b r ] ]; cbn; try discriminate. intros H. apply andb_prop in H. destruct H as [ Ha H ]. apply Ascii.eqb_eq in Ha. subst a. apply orb_prop in H. destruct H as [ H | H ].
  - apply andb_prop in H. destruct H as [ H He ]. apply negb_true_iff in He. exists b, r. auto.
  - apply andb_prop in H. destruct H as [ Hb H ]. apply Ascii.eqb_eq in Hb. subst b. destruct r as [ | c r ]; [ discriminate | ]. apply andb_prop in H. destruct H as [ H He ]. apply negb_true_iff in He. exists c, r. auto.
Qed.
Lemma sensible_b_ok p : sensible_b p = true -> sensible p.
Proof.
  unfold sensible_b. intros H. apply andb_prop in H. destruct H as [ H H3 ]. apply andb_prop in H. destruct H as [ H1 H2 ]. rewrite forallb_forall in H1. split; [ | split; [ | split ] ].
  - intros o Ho. specialize (H1 o Ho). apply andb_prop in H1. apply option_name_b_ok, H1.
  - apply nodup_b_ok, H2.
  - apply nodup_b_ok, H3.
  - intros o Ho. specialize (H1 o Ho). apply andb_prop in H1. destruct H1 as [ _ H1 ]. destruct (o_action o); congruence.
Qed.
Lemma programs_sensible : forall name p, In (name, p) programs -> sensible p.
Proof.
  assert (H : forallb (fun np => sensible_b (snd np)) programs = true) by (vm_compute; reflexivity). intros name p Hin. rewrite forallb_forall in H. apply sensible_b_ok. apply (H _ Hin).
Qed.

(** C133: this is about all programs: no option of theirs hides another one, or is taken for a number *)
Theorem C133_programs : forall name p, In (name, p) programs -> sensible p /\ In region_arg (p_positionals p) /\
  (forall argv ns, parse_args p argv = Parsed ns -> exists s r, In s argv /\ get ns "region" = Some (VStr s) /\ region_by_name s = Ok r).
Proof.
  intros name p Hin. pose proof (programs_sensible name p Hin) as Hp.
  assert (Hr : In region_arg (p_positionals p)).
  { assert (H : forallb (fun np => match p_positionals (snd np) with q :: _ => (p_dest q =? "region")%string && match p_reading q with AChoice l => if list_eq_dec string_dec l (map fst predefined_regions) then true else false | _ => false end | [] => false end) programs = true) by (vm_compute; reflexivity).
    rewrite forallb_forall in H. specialize (H _ Hin). cbn [snd] in H. destruct (p_positionals p) as [ | [ d [ | | l ] ] rest ]; try discriminate; cbn [p_dest p_reading] in H; apply andb_prop in H; destruct H as [ H1 H2 ]; try discriminate.
    apply String.eqb_eq in H1. destruct (list_eq_dec string_dec l (map fst predefined_regions)) as [ -> | ]; [ | discriminate ]. left. unfold region_arg. rewrite H1. reflexivity. }
  split; [ exact Hp | ]. split; [ exact Hr | ]. intros argv ns E. destruct (C133_sound p argv ns Hp E) as (Hq & _). destruct (Hq _ Hr) as (s & v & Hs & Hm & G). unfold region_arg in *. cbn [p_reading p_dest] in *.
  inversion Hm as [ | | l s' Hc ]. subst. unfold region_by_name. assert (Hall : forallb (fun s => match dict_get String.eqb s predefined_regions with Ok _ => true | Raise _ => false end) (map fst predefined_regions) = true) by (vm_compute; reflexivity).
  rewrite forallb_forall in Hall. specialize (Hall s Hc). destruct (dict_get String.eqb s predefined_regions) as [ r | ] eqn:Er; [ | discriminate ]. eauto.
Qed.
Print Assumptions C133_programs.

(* ---------- equivalent lines ---------- *)
Lemma consume_equals req o t s R : o_action o = Store t -> forall n L pos ns seen ex, (length L <= n)%nat ->
  consume req (L ++ Known o None :: Arg s :: R) pos ns seen ex = consume req (L ++ Known o (Some s) :: R) pos ns seen ex.
Proof.
  intros Ha. induction n as [ | n IH ]; intros L pos ns seen ex Hlen.
  - destruct L; [ | cbn in Hlen; lia ]. cbn [app consume]. rewrite Ha. destruct (read t s); reflexivity.
  - destruct L as [ | x L ]; [ cbn [app consume]; rewrite Ha; destruct (read t s); reflexivity | ]. cbn in Hlen. destruct x as [ s' | o' [ e | ] | ]; cbn [app consume].
    + destruct pos; [ apply IH; lia | ]. destruct (read _ s'); [ apply IH; lia | reflexivity ].
    + destruct (o_action o'); try reflexivity. destruct (read _ e); [ apply IH; lia | reflexivity ].
    + destruct (o_action o'); [ reflexivity | apply IH; lia | ]. destruct L as [ | [ s' | | ] L ]; cbn [app]; try reflexivity. destruct (read _ s'); [ cbn in Hlen; apply IH; lia | reflexivity ].
    + apply IH. lia.
Qed.

(** C133: --option value and --option=value are the same, wherever they stand; *)
Theorem C133_equals : forall p o t s l r, sensible p -> In o (p_options p) -> o_action o = Store t -> word s ->
  parse_args p (l ++ [o_name o; s] ++ r) = parse_args p (l ++ [o_name o ++ "=" ++ s] ++ r).
Proof.
  intros p o t s l r Hp Ho Ha Hw. unfold parse_args. rewrite !classify_app. cbn [classify_all]. rewrite (classify_option p o Hp Ho), (classify_word p s Hp Hw), (classify_equals p o s Hp Ho).
  destruct (classify_all p l) as [ L | ]; [ | reflexivity ]. destruct (classify_all p r) as [ R | ]; [ | reflexivity ]. cbn [app]. apply (consume_equals _ o t s R Ha (length L)). lia.
Qed.
Print Assumptions C133_equals.

(** C133: and a beginning of a long option that no other option shares is the same as its name. *)
Theorem C133_abbreviation : forall p o s l r, sensible p -> In o (p_options p) -> starts_with (String "-" (String "-" s)) (o_name o) = true -> s <> "" ->
  (forall o', In o' (all_options p) -> starts_with (String "-" (String "-" s)) (o_name o') = true -> o' = o) ->
  parse_args p (l ++ String "-" (String "-" s) :: r) = parse_args p (l ++ o_name o :: r).
Proof.
  intros p o s l r Hp Ho Hs Hne Hu. unfold parse_args. rewrite !classify_app. cbn [classify_all]. rewrite (classify_option p o Hp Ho).
  replace (classify p (String "-" (String "-" s))) with (Some (Known o None)); [ reflexivity | ]. symmetry. unfold classify. cbn [first_is]. rewrite Ascii.eqb_refl. cbn [negb].
  replace (String "-" (String "-" s) =? "--")%string with false by (symmetry; apply String.eqb_neq; intros [= E]; congruence).
  assert (Hsw : forall x, starts_with x x = true) by (induction x as [ | c x IH ]; cbn; [ reflexivity | rewrite Ascii.eqb_refl; exact IH ]).
  destruct (find_option p (String "-" (String "-" s))) as [ o' | ] eqn:Ef.
  { apply find_option_some in Ef. destruct Ef as [ Ho' En ]. rewrite (Hu o' Ho'); [ reflexivity | rewrite <- En; apply Hsw ]. }
  cbn [String.length Nat.eqb].
  assert (He : split_equals (String "-" (String "-" s)) = None).
  { apply split_equals_none. destruct (option_name_parts _ (all_names p o Hp (in_all p o Ho))) as (_ & _ & _ & _ & _ & He). clear -Hs He. revert Hs He. generalize (o_name o), (String "-" (String "-" s)). intros y x. revert y.
    induction x as [ | c x IH ]; intros [ | d y ]; cbn; try reflexivity; try discriminate. intros H He. apply andb_prop in H. destruct H as [ H1 H2 ]. apply Ascii.eqb_eq in H1. subst d. apply orb_false_elim in He. destruct He as [ -> He ]. apply (IH y H2 He). }
  unfold option_tuples. rewrite He. cbn [substring first_is]. rewrite Ascii.eqb_refl.
  assert (Hf : filter (fun o => starts_with (String "-" (String "-" s)) (o_name o)) (all_options p) = [o]).
  { pose proof Hp as (_ & Hnd & _). apply (in_all p) in Ho. revert Hnd Ho Hu. generalize (all_options p). intros m. induction m as [ | a m IH ]; intros Hnd Hin Hu; [ destruct Hin | ]. cbn [filter]. cbn in Hnd. apply NoDup_cons_iff in Hnd. destruct Hnd as [ Hna Hnd ].
    destruct (starts_with (String "-" (String "-" s)) (o_name a)) eqn:Ea.
    - pose proof (Hu a (or_introl eq_refl) Ea) as ->. f_equal. clear -Hna Hu. assert (H : forall b, In b m -> starts_with (String "-" (String "-" s)) (o_name b) = false).
      { intros b Hb. destruct (starts_with _ (o_name b)) eqn:Eb; [ | reflexivity ]. rewrite (Hu b (or_intror Hb) Eb) in Hb. exfalso. apply Hna. apply in_map, Hb. }
      clear -H. induction m as [ | b m IH ]; [ reflexivity | ]. cbn [filter]. rewrite (H b (or_introl eq_refl)). apply IH. intros b' Hb'. apply H. right. exact Hb'.
    - destruct Hin as [ -> | Hin ]; [ congruence | ]. apply IH; auto. intros o' Ho'. apply Hu. right. exact Ho'. }
  rewrite Hf. reflexivity.
Qed.
Print Assumptions C133_abbreviation.

(* ---------- the solvers ---------- *)
Definition solvers : list (parser * string) := [(solver_train_parser, "tp"); (mean_past_train_parser, "test"); (knn_train_parser, "test")].
Lemma solver_sensible train test : In (train, test) solvers -> sensible train /\ sensible (predict_parser train).
Proof.
  intros H. destruct H as [ [= <- <-] | [ [= <- <-] | [ [= <- <-] | [] ] ] ]; split; apply sensible_b_ok; vm_compute; reflexivity.
Qed.
Definition subparser (train : parser) (c : subcommand) : parser := match c with TrainCommand => train | PredictCommand => predict_parser train end.
Definition subname (c : subcommand) : string := match c with TrainCommand => "train" | PredictCommand => "predict" end.

(** C133: the solver programs accept a line exactly when it begins with train or predict and the rest is accepted for that subcommand; *)
Theorem C133_subcommand : forall train argv c ns, solver_main train argv = SParsed c ns <-> exists rest, argv = subname c :: rest /\ parse_args (subparser train c) rest = Parsed ns.
Proof.
  intros train argv c ns. split.
  - unfold solver_main. destruct argv as [ | s0 argv0 ]; [ discriminate | ].
    assert (Hx : forall a, solver_subcommand train a true <> SParsed c ns).
    { induction a as [ | s a IH ]; cbn [solver_subcommand]; [ discriminate | ]. destruct (classify main_parser s) as [ [ | ? [ | ] | ] | ]; try discriminate; [ | exact IH ]. unfold sub_outcome. destruct (s =? "train")%string; [ destruct (parse_args train a); discriminate | ]. destruct (s =? "predict")%string; [ destruct (parse_args (predict_parser train) a) | ]; discriminate. }
    cbn [solver_subcommand]. destruct (classify main_parser s0) as [ [ s' | ? [ | ] | ] | ]; try discriminate; [ | intros H; destruct (Hx argv0 H) ]. unfold sub_outcome.
    destruct (s0 =? "train")%string eqn:E1.
    + destruct (parse_args train argv0) eqn:E; try discriminate. intros [= <- <-]. apply String.eqb_eq in E1. subst s0. exists argv0. auto.
    + destruct (s0 =? "predict")%string eqn:E2; [ | discriminate ]. destruct (parse_args (predict_parser train) argv0) eqn:E; try discriminate. intros [= <- <-]. apply String.eqb_eq in E2. subst s0. exists argv0. auto.
  - intros (rest & -> & E). destruct c; cbn [subname subparser] in *; unfold solver_main; cbn [solver_subcommand]; [ change (classify main_parser "train") with (Some (Arg "train")) | change (classify main_parser "predict") with (Some (Arg "predict")) ]; cbn -[parse_args]; rewrite E; reflexivity.
Qed.
Print Assumptions C133_subcommand.

(** C133: and what they accept names a region and a clustering that exist, with the number of clusters and the seed of the line: the request starts. *)
Theorem C133_request : forall train test argv c ns, In (train, test) solvers -> solver_main train argv = SParsed c ns ->
  exists r k seed, region_by_name (str_of ns "region") = Ok r /\ get ns "k" = Some (VInt k) /\ get ns "seed" = Some (VInt seed) /\ (exists s, In s error_options /\ get ns "error" = Some (VStr s)) /\
    ((get ns "clustering" = Some (VStr "regular") /\ metadata_from_args (solver_args_of test ns) = Ok (r, CRegular k)) \/
     (get ns "clustering" = Some (VStr "kmedoids") /\ metadata_from_args (solver_args_of test ns) = Ok (r, CKmedoids (kmeta_default k seed "lite")))).
Proof.
  intros train test argv c ns Hin E. apply C133_subcommand in E. destruct E as (rest & _ & E). destruct (solver_sensible train test Hin) as [ Hp1 Hp2 ]. assert (Hp : sensible (subparser train c)) by (destruct c; assumption).
  destruct (C133_sound _ _ _ Hp E) as (Hq & Ho).
  assert (Hregion : In region_arg (p_positionals (subparser train c))) by (destruct Hin as [ [= <- <-] | [ [= <- <-] | [ [= <- <-] | [] ] ] ]; destruct c; cbn; auto).
  assert (Hcl : In (Pos "clustering" (AChoice clustering_options)) (p_positionals (subparser train c))) by (destruct Hin as [ [= <- <-] | [ [= <- <-] | [ [= <- <-] | [] ] ] ]; destruct c; cbn; auto).
  assert (Hk : In k_opt (p_options (subparser train c))) by (destruct Hin as [ [= <- <-] | [ [= <- <-] | [ [= <- <-] | [] ] ] ]; destruct c; cbn; auto).
  assert (Hs : In seed_opt (p_options (subparser train c))) by (destruct Hin as [ [= <- <-] | [ [= <- <-] | [ [= <- <-] | [] ] ] ]; destruct c; cbn; auto).
  assert (He : In error_opt (p_options (subparser train c))) by (destruct Hin as [ [= <- <-] | [ [= <- <-] | [ [= <- <-] | [] ] ] ]; destruct c; cbn; tauto).
  destruct (Hq _ Hregion) as (s & v & _ & Hm & G). cbn [region_arg p_dest p_reading] in Hm, G. inversion Hm as [ | | l s' Hc ]. subst.
  assert (Hall : forallb (fun s => match dict_get String.eqb s predefined_regions with Ok _ => true | Raise _ => false end) (map fst predefined_regions) = true) by (vm_compute; reflexivity). rewrite forallb_forall in Hall. specialize (Hall s Hc).
  destruct (dict_get String.eqb s predefined_regions) as [ r | ] eqn:Er; [ | discriminate ].
  assert (Gk : exists k, get ns "k" = Some (VInt k)) by (destruct (Ho _ Hk) as [ [ _ H ] | (s' & v & Hm' & G') ]; [ discriminate | inversion Hm'; subst; eauto ]).
  assert (Gs : exists k, get ns "seed" = Some (VInt k)) by (destruct (Ho _ Hs) as [ [ H _ ] | (s' & v & Hm' & G') ]; [ exists 1%Z; exact H | inversion Hm'; subst; eauto ]).
  assert (Ge : exists s, In s error_options /\ get ns "error" = Some (VStr s)) by (destruct (Ho _ He) as [ [ H _ ] | (s' & v & Hm' & G') ]; [ exists "sMAPE"; split; [ cbn; auto | exact H ] | inversion Hm'; subst; eauto ]).
  destruct Gk as (k & Gk), Gs as (seed & Gs), Ge as (er & Hre & Ge). exists r, k, seed. unfold str_of at 1. rewrite G. split; [ exact Er | ]. split; [ exact Gk | ]. split; [ exact Gs | ]. split; [ eauto | ].
  destruct (Hq _ Hcl) as (cs & cv & _ & Hcm & Gc). cbn [p_dest p_reading] in Hcm, Gc. inversion Hcm as [ | | l s' Hcc ]. subst. unfold metadata_from_args, solver_args_of, str_of, int_of. cbn [a_region a_clustering a_k a_seed]. rewrite G, Gc, Gk, Gs. unfold region_by_name. rewrite Er.
  destruct Hcc as [ <- | [ <- | [] ] ]; [ right | left ]; split; reflexivity.
Qed.
Print Assumptions C133_request.

(** C133: the options of a training, with the four coordinates after them, are a prediction with the same values of all arguments: the prediction looks for
    the solver that the training saved. *)
Theorem C133_train_predict : forall train test l lat1 lat2 long1 long2, In (train, test) solvers -> Forall (right train) l ->
  word lat1 -> word lat2 -> word long1 -> word long2 ->
  Forall2 (fun q s => exists v, means (p_reading q) s v) (p_positionals train) (positionals l) -> (forall o, In o (p_options train) -> o_required o = true -> given (o_name o) l <> None) ->
  exists ns ns', solver_main train ("train" :: words l) = SParsed TrainCommand ns /\
    solver_main train ("predict" :: words l ++ [lat1; lat2; long1; long2])%list = SParsed PredictCommand ns' /\
    (forall d, In d (map o_dest (p_options train) ++ map p_dest (p_positionals train))%list -> get ns' d = get ns d) /\ solver_args_of test ns' = solver_args_of test ns /\
    get ns' "tf" = Some (VInt 0) /\ map (get ns') ["lat1"; "lat2"; "long1"; "long2"] = map (fun s => Some (VStr s)) [lat1; lat2; long1; long2].
Proof.
  intros train test l lat1 lat2 long1 long2 Hin Hr W1 W2 W3 W4 HF Hreq. destruct (solver_sensible train test Hin) as [ Hp1 Hp2 ].
  destruct (C133_accepts train l Hp1 Hr HF Hreq) as (ns & E & HA & HB).
  set (l' := (l ++ [Positional lat1; Positional lat2; Positional long1; Positional long2])%list).
  assert (Hpos : positionals l' = (positionals l ++ [lat1; lat2; long1; long2])%list) by (unfold l', positionals; rewrite flat_map_app; reflexivity).
  assert (Hword : words l' = (words l ++ [lat1; lat2; long1; long2])%list) by (unfold l', words; rewrite flat_map_app; reflexivity).
  assert (Hgiven : forall n, given n l' = given n l).
  { intros n. unfold l'. clear. induction l as [ | i l IH ]; cbn [app given]; [ reflexivity | rewrite IH; reflexivity ]. }
  assert (Hr' : Forall (right (predict_parser train)) l').
  { unfold l'. apply Forall_app. split.
    - eapply Forall_impl; [ | exact Hr ]. intros [ s | n | n s | n s ]; cbn [right predict_parser p_options]; auto.
      + intros (o & Ho & H). exists o. split; [ apply in_or_app; left; exact Ho | exact H ].
      + intros (Hw & o & t & v & Ho & H). split; [ exact Hw | ]. exists o, t, v. split; [ apply in_or_app; left; exact Ho | exact H ].
      + intros (o & t & v & Ho & H). exists o, t, v. split; [ apply in_or_app; left; exact Ho | exact H ].
    - repeat (apply Forall_cons; [ assumption | ]). apply Forall_nil. }
  assert (HF' : Forall2 (fun q s => exists v, means (p_reading q) s v) (p_positionals (predict_parser train)) (positionals l')).
  { rewrite Hpos. cbn [predict_parser p_positionals]. apply Forall2_app; [ exact HF | ]. unfold coords. repeat constructor; cbn [p_reading]; eexists; constructor. }
  assert (Hlen : length (p_positionals train) = length (positionals l)) by (clear -HF; induction HF; cbn; congruence).
  destruct (C133_accepts (predict_parser train) l' Hp2 Hr' HF') as (ns' & E' & HA' & HB').
  { intros o Ho Hq. rewrite Hgiven. cbn [predict_parser p_options] in Ho. apply in_app_or in Ho. destruct Ho as [ Ho | [ <- | [] ] ]; [ apply (Hreq o Ho Hq) | discriminate ]. }
  exists ns, ns'. rewrite Hword in E'. split; [ apply (C133_subcommand train _ TrainCommand); eauto | ]. split; [ apply (C133_subcommand train _ PredictCommand); eauto | ].
  assert (Hsame : forall d, In d (map o_dest (p_options train) ++ map p_dest (p_positionals train))%list -> get ns' d = get ns d).
  { intros d Hd. apply in_app_or in Hd. destruct Hd as [ Hd | Hd ]; apply in_map_iff in Hd.
    - destruct Hd as (o & <- & Ho). specialize (HB o Ho). specialize (HB' o (in_or_app _ _ _ (or_introl Ho))). rewrite Hgiven in HB'. destruct (given (o_name o) l) as [ [ s | ] | ]; [ | congruence | congruence ].
      destruct HB as (t & v & Ha & Hm & G), HB' as (t' & v' & Ha' & Hm' & G'). rewrite Ha in Ha'. injection Ha' as <-. rewrite G, G'. f_equal. apply (means_det _ _ _ _ Hm' Hm).
    - destruct Hd as (q & <- & Hq). apply In_nth_error in Hq. destruct Hq as (n & Hq). assert (Hn : (n < length (positionals l))%nat) by (rewrite <- Hlen; apply nth_error_Some; congruence). destruct (nth_error (positionals l) n) as [ s | ] eqn:Es; [ | apply nth_error_None in Es; lia ].
      destruct (HA n q s Hq Es) as (v & Hm & G). destruct (HA' n q s) as (v' & Hm' & G').
      + cbn [predict_parser p_positionals]. rewrite nth_error_app1 by lia. exact Hq.
      + rewrite Hpos, nth_error_app1 by lia. exact Es.
      + rewrite G, G'. f_equal. apply (means_det _ _ _ _ Hm' Hm). }
  split; [ exact Hsame | ]. split; [ | split ].
  - assert (Hdests : forallb (fun d => existsb (String.eqb d) (map o_dest (p_options train) ++ map p_dest (p_positionals train))%list) ["region"; "clustering"; "k"; "seed"; test; "error"] = true) by (destruct Hin as [ [= <- <-] | [ [= <- <-] | [ [= <- <-] | [] ] ] ]; vm_compute; reflexivity).
    rewrite forallb_forall in Hdests. assert (Hg : forall d, In d ["region"; "clustering"; "k"; "seed"; test; "error"] -> get ns' d = get ns d).
    { intros d Hd. apply Hsame. specialize (Hdests d Hd). apply existsb_exists in Hdests. destruct Hdests as (x & Hx & Ex). apply String.eqb_eq in Ex. subst x. exact Hx. }
    unfold solver_args_of, str_of, int_of. rewrite !Hg by (cbn; tauto). reflexivity.
  - specialize (HB' (tf_opt 0)). cbn [tf_opt store o_dest o_name o_default] in HB'. rewrite Hgiven in HB'. assert (Hg : given "--tf" l = None).
    { clear -Hin Hr. assert (Hn : forall o, In o (p_options train) -> (o_name o =? "--tf")%string = false) by (intros o Ho; destruct Hin as [ [= <- <-] | [ [= <- <-] | [ [= <- <-] | [] ] ] ]; cbn in Ho; decompose [or] Ho; subst; try contradiction; reflexivity).
      induction Hr as [ | i l Hi Hl IH ]; [ reflexivity | ]. cbn [given]. rewrite IH. destruct i as [ s | n | n s | n s ]; cbn [about right] in *; [ reflexivity | destruct Hi as (o & Ho & <- & _) | destruct Hi as (_ & o & t & v & Ho & <- & _) | destruct Hi as (o & t & v & Ho & <- & _) ]; rewrite (Hn o Ho); reflexivity. }
    rewrite Hg in HB'. apply HB'. cbn [predict_parser p_options]. apply in_or_app. right. left. reflexivity.
  - assert (Hc : forall j q s, nth_error coords j = Some q -> nth_error [lat1; lat2; long1; long2] j = Some s -> p_reading q = AString -> get ns' (p_dest q) = Some (VStr s)).
    { intros j q s Hq Hs Hread. destruct (HA' (length (positionals l) + j)%nat q s) as (v & Hm & G).
      - cbn [predict_parser p_positionals]. rewrite nth_error_app2 by lia. rewrite Hlen, Nat.add_comm, Nat.add_sub. exact Hq.
      - rewrite Hpos, nth_error_app2 by lia. rewrite Nat.add_comm, Nat.add_sub. exact Hs.
      - rewrite Hread in Hm. inversion Hm. subst. exact G. }
    pose proof (Hc 0%nat _ lat1 eq_refl eq_refl eq_refl) as G1. pose proof (Hc 1%nat _ lat2 eq_refl eq_refl eq_refl) as G2.
    pose proof (Hc 2%nat _ long1 eq_refl eq_refl eq_refl) as G3. pose proof (Hc 3%nat _ long2 eq_refl eq_refl eq_refl) as G4. cbn [p_dest] in *. cbn [map]. rewrite G1, G2, G3, G4. reflexivity.
Qed.
Print Assumptions C133_train_predict.

(* ---------- logging ---------- *)
(** C133: where --log has choices, the program starts its log at one of the three levels *)
Theorem C133_log : forall name p argv ns other, In (name, p) programs -> In log_opt (p_options p) -> parse_args p argv = Parsed ns -> exists n, setup_log_argparse other ns = Ok n /\ In n [10%Z; 20%Z; 30%Z].
Proof.
  intros name p argv ns other Hin Hl E. destruct (C133_sound p argv ns (programs_sensible name p Hin) E) as (_ & Ho). unfold setup_log_argparse.
  destruct (Ho _ Hl) as [ [ G _ ] | (s & v & Hm & G) ]; cbn [log_opt store o_dest o_default] in G; rewrite G; [ exists 20%Z; cbn; auto | ].
  inversion Hm as [ | | x s' Hc ]. subst. destruct Hc as [ <- | [ <- | [ <- | [] ] ] ]; cbn; eauto 6.
Qed.
Print Assumptions C133_log.

(** C133, refuted: the other programs accept any word for --log, and only the name of a level starts: with another word nothing but the attribute of that name
    in the logging module decides (an AttributeError if there is none). *)
Theorem C133_log_refuted : exists name p argv ns, In (name, p) programs /\ parse_args p argv = Parsed ns /\ forall other, setup_log_argparse other ns = other "verbose".
Proof.
  exists "region/centroid.py", centroid_parser, ["nordeste_small_2015_2015_1spd"; "--log"; "verbose"], [("log", VStr "verbose"); ("region", VStr "nordeste_small_2015_2015_1spd"); ("log", VNone); ("region", VNone)].
  split; [ cbn; tauto | ]. split; [ vm_compute; reflexivity | reflexivity ].
Qed.
Print Assumptions C133_log_refuted.

(** C133, refuted: --random is said to need --variance, and the program has a check for it that never fires: every line that the parser accepts goes through. *)
Theorem C133_random_refuted : (forall argv, partition_main argv = parse_args partition_parser argv) /\
  exists argv ns, ~ In "--variance" argv /\ partition_main argv = Parsed ns /\ get ns "random" = Some (VStr "5") /\ flag_of ns "variance" = false.
Proof.
  split.
  - intros argv. unfold partition_main. destruct (parse_args partition_parser argv) as [ | | ns ] eqn:E; try reflexivity.
    assert (Hp : sensible partition_parser) by (apply sensible_b_ok; vm_compute; reflexivity). destruct (C133_sound _ _ _ Hp E) as (_ & Ho).
    replace (has_attr ns "variance") with true; [ rewrite Bool.andb_false_r; reflexivity | ]. unfold has_attr.
    destruct (Ho (Opt "--variance" "variance" StoreTrue (VBool false) false)) as [ [ G _ ] | G ]; [ right; left; reflexivity | | ]; cbn [o_dest o_action] in G; rewrite G; reflexivity.
  - eexists ["nordeste_small_2015_2015_1spd"; "kmedoids"; "--random"; "5"; "quick"], _. split; [ cbn; intuition discriminate | ]. split; [ vm_compute; reflexivity | ]. split; reflexivity.
Qed.
Print Assumptions C133_random_refuted.

(** C133, refuted: what the parser accepts for --parallel, for the suite and for -k is not checked further: a word that is not a number fails only when the distances are
    computed, a suite of the other clustering is a KeyError, and no number of clusters is too small. *)
Theorem C133_unchecked_refuted :
  (exists argv ns, parse_args distance_parser argv = Parsed ns /\ parallel_workers (opt_str_of ns "parallel") = Raise ValueError) /\
  (exists argv ns, parse_args partition_parser argv = Parsed ns /\ get_suite (str_of ns "clustering_type") (str_of ns "clustering_suite") = Raise KeyError) /\
  (forall k : Z, exists ns, solver_main mean_past_train_parser ["train"; "nordeste_small_2015_2015_1spd"; "regular"; "-k"; str_int k] = SParsed TrainCommand ns /\ get ns "k" = Some (VInt k)).
Proof.
  split; [ | split ].
  - eexists ["nordeste_small_2015_2015_1spd"; "dtw"; "--parallel"; "many"], _. split; vm_compute; reflexivity.
  - eexists ["nordeste_small_2015_2015_1spd"; "kmedoids"; "part1"], _. split; vm_compute; reflexivity.
  - intros k. assert (Hp : sensible mean_past_train_parser) by (apply sensible_b_ok; vm_compute; reflexivity).
    assert (Hw : forall s, first_is "-" s = false -> word s) by (intros s Hs; left; intros r ->; cbn in Hs; discriminate).
    destruct (C133_accepts mean_past_train_parser [Positional "nordeste_small_2015_2015_1spd"; Positional "regular"; Named "-k" (str_int k)] Hp) as (ns & E & _ & HB).
    + repeat apply Forall_cons; [ apply Hw; reflexivity | apply Hw; reflexivity | | apply Forall_nil ]. split; [ right; exists k; reflexivity | ]. exists k_opt, AInt, (VInt k). split; [ left; reflexivity | ]. split; [ reflexivity | ]. split; [ reflexivity | ]. constructor. apply py_int_str.
    + repeat constructor; cbn [p_reading region_arg]; eexists; constructor; cbn; tauto.
    + intros o Ho Hr. cbn in Ho. decompose [or] Ho; subst; try contradiction; try discriminate.
    + exists ns. split; [ apply (C133_subcommand _ _ TrainCommand); exists (words [Positional "nordeste_small_2015_2015_1spd"; Positional "regular"; Named "-k" (str_int k)]); split; [ reflexivity | exact E ] | ].
      specialize (HB k_opt (or_introl eq_refl)). cbn in HB. destruct HB as (t & v & [= <-] & Hm & G). inversion Hm as [ | s n Hn | ]. subst. rewrite py_int_str in Hn. injection Hn as <-. exact G.
Qed.
Print Assumptions C133_unchecked_refuted.

(** hypotheses met: options between the positional arguments, a repeated option (the last value counts), a negative coordinate, an abbreviation *)
Example C133_ex :
  (exists ns, solver_main solver_train_parser ["train"; "nordeste_small_2015_2015_1spd"; "--err"; "MASE"; "simple"; "-k"; "5"; "kmedoids"; "-k7"; "--tp=10"] = SParsed TrainCommand ns /\
     solver_args_of "tp" ns = SArgs "nordeste_small_2015_2015_1spd" "kmedoids" 7 1 10 "MASE") /\
  (exists ns, parse_args (predict_parser mean_past_train_parser) ["nordeste_small_2015_2015_1spd"; "regular"; "-k"; "3"; "-1"; "2"; "3"; "4"] = Parsed ns /\ get ns "lat1" = Some (VStr "-1")) /\
  solver_main solver_train_parser ["train"; "nordeste_small_2015_2015_1spd"; "simple"; "kmedoids"] = SUsage /\
  solver_main solver_train_parser ["train"; "nowhere"; "simple"; "kmedoids"; "-k"; "2"] = SUsage /\
  solver_main solver_train_parser ["predict"; "nordeste_small_2015_2015_1spd"; "simple"; "kmedoids"; "-k"; "2"; "1"; "2"; "3"; "4"; "--t"; "3"] = SUsage /\
  solver_main solver_train_parser [] = SExit1 /\ solver_main solver_train_parser ["-h"] = SHelp /\ solver_main solver_train_parser ["train"; "--bogus"] = SUsage.
Proof.
  split; [ eexists; split; vm_compute; reflexivity | ]. split; [ eexists; split; vm_compute; reflexivity | ]. repeat split; vm_compute; reflexivity.
Qed.
(** pieces that are right for a program, and meet the hypotheses of C133_train_predict *)
Example C133_ex_pieces : let l := [Positional "nordeste_small_2015_2015_1spd"; Named "-k" "5"; Positional "regular"; Equals "--error" "MSE"] in
  Forall (right mean_past_train_parser) l /\ Forall2 (fun q s => exists v, means (p_reading q) s v) (p_positionals mean_past_train_parser) (positionals l) /\
  (forall o, In o (p_options mean_past_train_parser) -> o_required o = true -> given (o_name o) l <> None) /\ In (mean_past_train_parser, "test") solvers.
Proof.
  cbn zeta. assert (Hw : forall s, first_is "-" s = false -> word s) by (intros s Hs; left; intros r ->; cbn in Hs; discriminate). split; [ | split; [ | split ] ].
  - repeat apply Forall_cons; [ apply Hw; reflexivity | | apply Hw; reflexivity | | apply Forall_nil ].
    + split; [ apply Hw; reflexivity | ]. exists k_opt, AInt, (VInt 5). repeat split; [ left; reflexivity | constructor; reflexivity ].
    + exists error_opt, (AChoice error_options), (VStr "MSE"). repeat split; [ cbn; tauto | constructor; cbn; tauto ].
  - repeat constructor; cbn [p_reading region_arg]; eexists; constructor; cbn; tauto.
  - intros o Ho Hr. cbn in Ho. decompose [or] Ho; subst; try contradiction; try discriminate.
  - cbn. auto.
Qed.
