(** Property C143: analyses of the same suite that run at the same time and write the same table. *)
From Coq Require Import ZifyBool ZifyNat.
From Verif Require Import Base.Py Base.PyFacts Base.Str Base.StrFacts Base.Dict Base.DictFacts
  Model.Region Model.Clustering Model.CutFile Model.ConcurrentTable Spec.CutFile Spec.Interleaving Proofs.ClusteringFacts Proofs.ElbowFacts Proofs.CutFileFacts.
Local Notation length := List.length.
Local Open Scope string_scope.

Definition appends (rows : list row) : list table_step := map Append rows.
Definition same_rows (ls rows : list row) : Prop := forall w, In w ls <-> In w rows.

Lemma table_line_eq w : table_line w = row_line w.
Proof. destruct w as [[r c] ms]. unfold table_line. rewrite <- row_line_eq. reflexivity. Qed.

Section Runs.
Context (rows : list row).

(** a program still to be run: not started, or with some rows left *)
Definition left_over (p : list table_step) : Prop := p = table_run rows \/ exists rest, p = appends rest /\ incl rest rows.
Definition table_inv (ps : list (list table_step)) (f : list string) : Prop :=
  (forall p, In p ps -> left_over p) /\
  (In (table_run rows) ps \/
   exists rest ls, In (appends rest) ps /\ f = table_header :: map table_line ls /\ incl ls rows /\ incl rows (ls ++ rest)%list).

Lemma runs_end ps schedule : interleaving ps schedule -> forall f, table_inv ps f ->
  exists ls, fold_left table_do schedule f = table_header :: map table_line ls /\ same_rows ls rows.
Proof.
  induction 1 as [ps Hdone|before a p after schedule _ IH]; intros f [Hleft Hinv].
  - destruct Hinv as [Hin|(rest & ls & Hin & -> & H1 & H2)]; [discriminate (Hdone _ Hin)|].
    assert (rest = []) as -> by (pose proof (Hdone _ Hin); destruct rest; [reflexivity|discriminate]).
    rewrite app_nil_r in H2. exists ls. split; [reflexivity|]. intros w. split; auto.
  - cbn [fold_left]. apply IH. clear IH.
    assert (Hothers : forall q, In q before \/ In q after -> left_over q).
    { intros q Hq. apply Hleft, in_or_app. destruct Hq; [left|right; right]; auto. }
    assert (Hp : left_over (a :: p)) by (apply Hleft, in_or_app; right; left; reflexivity).
    destruct Hp as [E|(rest & E & Hrest)].
    + injection E as -> ->. split.
      * intros q Hq. apply in_app_or in Hq. destruct Hq as [Hq|[<-|Hq]]; [apply Hothers; auto| |apply Hothers; auto].
        right. exists rows. split; [reflexivity|apply incl_refl].
      * right. exists rows, []. split; [apply in_or_app; right; left; reflexivity|]. split; [reflexivity|]. split; [intros w []|apply incl_refl].
    + destruct rest as [|w rest]; [discriminate|]. injection E as -> ->.
      assert (Hw : In w rows) by (apply Hrest; left; reflexivity).
      assert (Hrest' : incl rest rows) by (intros v Hv; apply Hrest; right; exact Hv).
      split.
      * intros q Hq. apply in_app_or in Hq. destruct Hq as [Hq|[<-|Hq]]; [apply Hothers; auto| |apply Hothers; auto].
        right. exists rest. split; [reflexivity|exact Hrest'].
      * destruct Hinv as [Hin|(rest0 & ls & Hin & -> & H1 & H2)].
        -- left. apply in_or_app. apply in_app_or in Hin. destruct Hin as [Hin|[E|Hin]]; [auto|discriminate|right; right; exact Hin].
        -- right. assert (Hls : forall r0 : list row, incl rows (ls ++ [w] ++ r0)%list -> incl rows ((ls ++ [w]) ++ r0)%list) by (intros r0 H; rewrite <- app_assoc; exact H).
           assert (Hf : ((table_header :: map table_line ls) ++ [table_line w])%list = table_header :: map table_line (ls ++ [w])%list) by (rewrite map_app; reflexivity).
           assert (Hi : incl (ls ++ [w])%list rows) by (apply incl_app; [exact H1|intros v [<-|[]]; exact Hw]).
           apply in_app_or in Hin. destruct Hin as [Hin|[E|Hin]].
           ++ exists rest0, (ls ++ [w])%list. split; [apply in_or_app; left; exact Hin|]. split; [exact Hf|]. split; [exact Hi|].
              apply Hls. intros v Hv. specialize (H2 v Hv). apply in_app_or in H2. apply in_or_app. destruct H2; [left; auto|right; right; auto].
           ++ assert (E' : appends (w :: rest) = appends rest0) by exact E. clear E.
              destruct rest0 as [|w0 rest0]; [discriminate|]. injection E' as <- Er.
              assert (rest0 = rest) as ->.
              { clear -Er. revert rest0 Er. induction rest as [|v rest IH]; intros [|v0 rest0] E; try discriminate; [reflexivity|].
                injection E as <- E. f_equal. apply IH. exact E. }
              exists rest, (ls ++ [w])%list. split; [apply in_or_app; right; left; reflexivity|]. split; [exact Hf|]. split; [exact Hi|].
              apply Hls. exact H2.
           ++ exists rest0, (ls ++ [w])%list. split; [apply in_or_app; right; right; exact Hin|]. split; [exact Hf|]. split; [exact Hi|].
              apply Hls. intros v Hv. specialize (H2 v Hv). apply in_app_or in H2. apply in_or_app. destruct H2; [left; auto|right; right; auto].
Qed.
End Runs.

Lemma find_same (rows ls : list row) r : NoDup (map row_key rows) -> same_rows ls rows ->
  find (fun '(r', _, _) => (r' =? r)%string) ls = find (fun '(r', _, _) => (r' =? r)%string) rows.
Proof.
  intros Hd Hs.
  assert (K : forall w w', In w rows -> In w' rows -> row_key w = row_key w' -> w = w').
  { clear Hs. induction rows as [|v rows' IH]; intros w w' [] ; cbn [map] in Hd; inversion_clear Hd as [|? ? Hv Hd'].
    - subst v. intros [<-|Hw'] E; [reflexivity|]. exfalso. apply Hv. rewrite E. apply in_map. exact Hw'.
    - intros [<-|Hw'] E; [exfalso; apply Hv; rewrite <- E; apply in_map; assumption|]. apply IH; auto. }
  set (hit := fun w : row => let '(r', _, _) := w in (r' =? r)%string). change (find hit ls = find hit rows).
  destruct (find hit ls) as [w|] eqn:E1; destruct (find hit rows) as [w'|] eqn:E2; [| | |reflexivity].
  - apply find_some in E1, E2. destruct E1 as [I1 E1], E2 as [I2 E2]. f_equal. apply K; [apply Hs; exact I1|exact I2|].
    destruct w as [[k c] ms], w' as [[k' c'] ms']. apply String.eqb_eq in E1, E2. cbn. congruence.
  - exfalso. apply find_some in E1. destruct E1 as [I1 E1]. apply Hs in I1. pose proof (find_none _ _ E2 _ I1) as N. cbn in N. congruence.
  - exfalso. apply find_some in E2. destruct E2 as [I2 E2]. apply Hs in I2. pose proof (find_none _ _ E1 _ I2) as N. cbn in N. congruence.
Qed.

(** One run alone leaves the table of its rows. *)
Theorem C143_one_run : forall rows before, fold_left table_do (table_run rows) before = suite_csv rows.
Proof.
  intros rows before. unfold table_run. cbn [fold_left table_do]. rewrite suite_csv_eq. change table_header with header.
  change (header :: map row_line rows) with ([header] ++ map row_line rows)%list. generalize [header].
  induction rows as [|w rows IH]; intros l; cbn [map fold_left table_do]; [rewrite app_nil_r; reflexivity|].
  rewrite IH, table_line_eq, <- app_assoc. reflexivity.
Qed.
Print Assumptions C143_one_run.

(** Any number of runs of the same analysis at the same time, in any order of their writes, whatever was in the file
    before: when all have ended, the table has its header and only rows of the suite, and reading it finds for every
    clustering the medoids that a single run leaves. *)
Theorem C143_concurrent_runs : forall rows runs schedule before,
  NoDup (map row_key rows) -> runs <> [] -> (forall p, In p runs -> p = table_run rows) -> interleaving runs schedule ->
  exists written d d1,
    fold_left table_do schedule before = suite_csv written /\ (forall w, In w written <-> In w rows) /\
    retrieve_suite_result (Some (fold_left table_do schedule before)) = Ok d /\
    retrieve_suite_result (Some (suite_csv rows)) = Ok d1 /\
    forall r, dict_get String.eqb r d = dict_get String.eqb r d1.
Proof.
  intros rows runs schedule before Hd Hne Hr Hi.
  destruct (runs_end rows runs schedule Hi before) as (ls & E & Hs).
  { split; [intros p Hp; left; apply Hr; exact Hp|]. left. destruct runs as [|p runs]; [congruence|].
    rewrite <- (Hr p) by (left; reflexivity). left. reflexivity. }
  assert (E' : fold_left table_do schedule before = suite_csv ls).
  { rewrite E, suite_csv_eq. f_equal. apply map_ext. apply table_line_eq. }
  rewrite E'. exists ls. do 2 eexists. split; [reflexivity|]. split; [exact Hs|]. split; [apply retrieve_spec|]. split; [apply retrieve_spec|].
  intros r. rewrite !retrieve_lookup. rewrite (find_same (rev rows) (rev ls)); [reflexivity| |].
  - rewrite map_rev. apply NoDup_rev. exact Hd.
  - intros w. rewrite <- !in_rev. apply Hs.
Qed.
Print Assumptions C143_concurrent_runs.

Definition row_a : row := ("kmedoids_k2_seed0_lite", "12.500", [(45, 86); (47, 91)]%Z).
Definition row_b : row := ("regular_k1", "3.000", [(-1, 0)%Z]).

(** The order of the clusterings, in which the other programs take them, is not that of the suite in general: two runs
    can leave a table that gives the second clustering first. *)
Theorem C143_suite_order_refuted : exists rows schedule,
  NoDup (map row_key rows) /\ interleaving [table_run rows; table_run rows] schedule /\
  retrieve_suite_result (Some (fold_left table_do schedule [])) <> Ok (entries rows).
Proof.
  exists [row_a; row_b], [Create; Append row_a; Create; Append row_b; Append row_a; Append row_b].
  split; [repeat constructor; cbn; intuition discriminate|]. split.
  - apply (One_step [] _ _ [table_run [row_a; row_b]]). apply (One_step [] _ _ [table_run [row_a; row_b]]).
    apply (One_step [[Append row_b]] _ _ []). apply (One_step [] _ _ [[Append row_a; Append row_b]]).
    apply (One_step [[]] _ _ []). apply (One_step [[]] _ _ []). apply All_done. intros p [<-|[<-|[]]]; reflexivity.
  - vm_compute. discriminate.
Qed.
Print Assumptions C143_suite_order_refuted.

(** Emptying the file and writing the header are two steps of the operating system.  When a row of another run comes
    between them, the header is written over its beginning and the rest of that row stays in the file as a line of its
    own: two runs of one analysis can leave a line that is neither the header nor a row. *)
Theorem C143_only_rows_refuted : exists rows schedule l,
  NoDup (map row_key rows) /\ interleaving [text_run rows; text_run rows] schedule /\
  In l (file_lines (fold_left text_do schedule "")) /\ ~ In l (suite_csv rows).
Proof.
  exists [row_a; row_b], [Truncate; Write_header; Truncate; Append_row row_a; Write_header; Append_row row_a; Append_row row_b; Append_row row_b], "(45,86) (47,91) |".
  split; [repeat constructor; cbn; intuition discriminate|]. split; [|split].
  - apply (One_step [] _ _ [text_run [row_a; row_b]]). apply (One_step [] _ _ [text_run [row_a; row_b]]).
    apply (One_step [[Append_row row_a; Append_row row_b]] _ _ []). apply (One_step [] _ _ [[Write_header; Append_row row_a; Append_row row_b]]).
    apply (One_step [[Append_row row_b]] _ _ []). apply (One_step [[Append_row row_b]] _ _ []).
    apply (One_step [[Append_row row_b]] _ _ []). apply (One_step [] _ _ [[]]).
    apply All_done. intros p [<-|[<-|[]]]; reflexivity.
  - vm_compute. auto.
  - vm_compute. intuition discriminate.
Qed.
Print Assumptions C143_only_rows_refuted.

(** Three runs of an analysis of two clusterings, over an old table. *)
Example C143_ex :
  let rows := [row_a; row_b] in
  let schedule := [Create; Create; Append row_a; Append row_a; Append row_b; Create; Append row_b; Append row_a; Append row_b] in
  NoDup (map row_key rows) /\ interleaving [table_run rows; table_run rows; table_run rows] schedule /\
  fold_left table_do schedule ["old"] = suite_csv [row_b; row_a; row_b] /\
  retrieve_suite_result (Some (fold_left table_do schedule ["old"])) = Ok (entries [row_b; row_a]).
Proof.
  cbv zeta. split; [repeat constructor; cbn; intuition discriminate|]. split; [|split; vm_compute; reflexivity].
  set (T := table_run [row_a; row_b]).
  apply (One_step [] _ _ [T; T]). apply (One_step [[Append row_a; Append row_b]] _ _ [T]).
  apply (One_step [] _ _ [[Append row_a; Append row_b]; T]). apply (One_step [[Append row_b]] _ _ [T]). apply (One_step [] _ _ [[Append row_b]; T]).
  apply (One_step [[]; [Append row_b]] _ _ []). apply (One_step [[]] _ _ [[Append row_a; Append row_b]]).
  apply (One_step [[]; []] _ _ []). apply (One_step [[]; []] _ _ []).
  apply All_done. intros p [<-|[<-|[<-|[]]]]; reflexivity.
Qed.
