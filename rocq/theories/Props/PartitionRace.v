(** Property C145: processes that compute, save and load the same partition at the same time. *)
From Coq Require Import ZifyBool ZifyNat QArith.
From Verif Require Import Base.Py Base.PyFacts Base.Arr Base.Str Base.StrFacts Base.Float Model.Region
  Model.Models Model.Clustering Model.Solver Model.SolverFiles Model.PartitionRace Spec.SolverFiles
  Proofs.ClusteringFacts Proofs.NameFacts Proofs.FilesFacts Props.Solver Props.SolverFiles.
Local Close Scope Q_scope.
Local Open Scope nat_scope.
Local Notation length := List.length.

Section Race.
Context {M : Type} (c : cmeta) (d : string) (r : rmeta) (impl : bool -> res part) (wm : bool).
Local Notation path := (pickle_full_path c r d).
Local Notation pstep := (pstep (M := M) c d r impl wm).
Local Notation step_of := (step_of (M := M) c d r impl wm).
Local Notation run_schedule := (run_schedule (M := M) c d r impl wm).

Lemma step_of_spec i : forall fs ps fs' ps', step_of fs i ps = (fs', ps') ->
  (length ps <= i /\ fs' = fs /\ ps' = ps) \/
  exists l1 s s' l2, ps = l1 ++ s :: l2 /\ length l1 = i /\ pstep fs s = (fs', s') /\ ps' = l1 ++ s' :: l2.
Proof.
  induction i as [|i IH]; intros fs ps fs' ps' H; destruct ps as [|s ss]; cbn [PartitionRace.step_of] in H.
  - injection H as <- <-. left. auto.
  - destruct (pstep fs s) as [f1 s1] eqn:E. injection H as <- <-. right. exists [], s, s1, ss. auto.
  - injection H as <- <-. left. cbn. split; [lia|auto].
  - destruct (step_of fs i ss) as [f1 ss1] eqn:E. injection H as <- <-. destruct (IH _ _ _ _ E) as [(L & -> & ->)|(l1 & s0 & s1 & l2 & -> & L & P & ->)].
    + left. cbn. split; [lia|auto].
    + right. exists (s :: l1), s0, s1, l2. cbn. auto.
Qed.

Lemma try_load_iff (fs : fsys M) : 
  try_load_previous_partition fs c d r "pickle" = match fs path with Some (FPartition p) => Some p | _ => None end.
Proof.
  unfold try_load_previous_partition, load_previous_partition, load_file. destruct (fs path) as [[]|]; reflexivity.
Qed.

(* ---------- a partition is saved already ---------- *)
Definition found (p : part) (s : pstate) : Prop := s = Looking \/ s = Finished (Ok p).
Lemma hit_step fs p s fs' s' : fs path = Some (FPartition p) -> found p s -> pstep fs s = (fs', s') -> fs' = fs /\ found p s'.
Proof.
  intros E [->| ->] H; unfold PartitionRace.pstep in H; rewrite ?try_load_iff, ?E in H; injection H as <- <-; split; auto; right; reflexivity.
Qed.

(* ---------- it has to be computed ---------- *)
Definition on_way (q : part) (s : pstate) : Prop := s = Looking \/ s = Computed q \/ s = Writing q \/ s = Finished (Ok q).
Definition race_inv (fs0 : fsys M) (q : part) (fs : fsys M) (ps : list pstate) : Prop :=
  (forall p, p <> path -> fs p = fs0 p) /\
  (fs path = fs0 path \/ fs path = Some FCorrupt \/ fs path = Some (FPartition q)) /\
  Forall (on_way q) ps /\
  (fs path = Some (FPartition q) \/ In (Writing q) ps \/ forall s, In s ps -> s <> Finished (Ok q)).

Lemma race_step fs0 q fs i ps fs' ps' : (forall p, fs0 path <> Some (FPartition p)) -> impl wm = Ok q ->
  race_inv fs0 q fs ps -> step_of fs i ps = (fs', ps') -> race_inv fs0 q fs' ps'.
Proof.
  intros H0 Hq (I1 & I2 & I3 & I4) H. destruct (step_of_spec _ _ _ _ _ H) as [(_ & -> & ->)|(l1 & s & s' & l2 & -> & _ & P & ->)]; [repeat split; auto|].
  assert (Hs : on_way q s) by (apply (proj1 (Forall_forall _ _) I3), in_or_app; right; left; reflexivity).
  assert (Hall : forall x, on_way q x -> Forall (on_way q) (l1 ++ x :: l2)).
  { intros x Hx. apply Forall_app in I3. destruct I3 as [A B]. inversion_clear B. apply Forall_app. split; [assumption|]. constructor; assumption. }
  assert (Hin : forall x y, In x (l1 ++ s :: l2) -> x <> s -> In x (l1 ++ y :: l2)).
  { intros x y Hx Hne. apply in_app_or in Hx. apply in_or_app. destruct Hx as [Hx|[E|Hx]]; [auto|congruence|right; right; exact Hx]. }
  assert (Hback : forall x y, In x (l1 ++ y :: l2) -> x = y \/ In x (l1 ++ s :: l2)).
  { intros x y Hx. apply in_app_or in Hx. destruct Hx as [Hx|[E|Hx]]; [right; apply in_or_app; auto|auto|right; apply in_or_app; right; right; exact Hx]. }
  destruct Hs as [->|[->|[->| ->]]]; unfold PartitionRace.pstep in P; rewrite ?try_load_iff in P.
  - assert (Hf : forall p, fs path = Some (FPartition p) -> p = q).
    { intros p E. destruct I2 as [I2|[I2|I2]]; rewrite I2 in E; [exfalso; exact (H0 _ E)|discriminate|congruence]. }
    destruct (fs path) as [[p|m|e|]|] eqn:E.
    + specialize (Hf p eq_refl). subst p. injection P as <- <-. split; [exact I1|]. split; [auto|]. split; [apply Hall; right; right; right; reflexivity|auto].
    + rewrite Hq in P. injection P as <- <-. split; [exact I1|]. split; [rewrite E; auto|]. split; [apply Hall; right; left; reflexivity|].
      right. destruct I4 as [I4|[I4|I4]]; [congruence|left; apply Hin; [exact I4|discriminate]|right]. intros s Hs. destruct (Hback _ _ Hs) as [->|Hs']; [discriminate|auto].
    + rewrite Hq in P. injection P as <- <-. split; [exact I1|]. split; [rewrite E; auto|]. split; [apply Hall; right; left; reflexivity|].
      right. destruct I4 as [I4|[I4|I4]]; [congruence|left; apply Hin; [exact I4|discriminate]|right]. intros s Hs. destruct (Hback _ _ Hs) as [->|Hs']; [discriminate|auto].
    + rewrite Hq in P. injection P as <- <-. split; [exact I1|]. split; [rewrite E; auto|]. split; [apply Hall; right; left; reflexivity|].
      right. destruct I4 as [I4|[I4|I4]]; [congruence|left; apply Hin; [exact I4|discriminate]|right]. intros s Hs. destruct (Hback _ _ Hs) as [->|Hs']; [discriminate|auto].
    + rewrite Hq in P. injection P as <- <-. split; [exact I1|]. split; [rewrite E; auto|]. split; [apply Hall; right; left; reflexivity|].
      right. destruct I4 as [I4|[I4|I4]]; [congruence|left; apply Hin; [exact I4|discriminate]|right]. intros s Hs. destruct (Hback _ _ Hs) as [->|Hs']; [discriminate|auto].
  - injection P as <- <-. split; [intros p Hp; rewrite put_other by exact Hp; auto|]. rewrite put_same. split; [auto|].
    split; [apply Hall; right; right; left; reflexivity|]. right. left. apply in_or_app. right. left. reflexivity.
  - injection P as <- <-. split; [intros p Hp; rewrite put_other by exact Hp; auto|]. rewrite put_same. split; [auto|].
    split; [apply Hall; right; right; right; reflexivity|]. left. reflexivity.
  - injection P as <- <-. split; [exact I1|]. split; [exact I2|]. split; [exact I3|exact I4].
Qed.

Lemma run_cons i l fs ps : run_schedule (i :: l) fs ps = (let '(fs1, ps1) := step_of fs i ps in run_schedule l fs1 ps1).
Proof. unfold PartitionRace.run_schedule. cbn [fold_left]. destruct (step_of fs i ps); reflexivity. Qed.

(* ---------- progress ---------- *)
Definition to_do (s : pstate) : nat := match s with Looking => 3 | Computed _ => 2 | Writing _ => 1 | Finished _ => 0 end.
Lemma step_to_do fs s fs' s' : pstep fs s = (fs', s') -> to_do s' <= pred (to_do s).
Proof.
  destruct s; cbn [PartitionRace.pstep]; intros H.
  - destruct (try_load_previous_partition fs c d r "pickle"); [injection H as <- <-; cbn; lia|]. destruct (impl wm); injection H as <- <-; cbn; lia.
  - injection H as <- <-; cbn; lia.
  - injection H as <- <-; cbn; lia.
  - injection H as <- <-; cbn; lia.
Qed.
Lemma run_to_do l : forall fs ps fs' ps' i s, run_schedule l fs ps = (fs', ps') -> nth_error ps i = Some s ->
  exists s', nth_error ps' i = Some s' /\ to_do s' <= to_do s - count_occ Nat.eq_dec l i.
Proof.
  induction l as [|j l IH]; intros fs ps fs' ps' i s H Hi.
  - injection H as <- <-. exists s. split; [exact Hi|]. cbn. lia.
  - rewrite run_cons in H. destruct (step_of fs j ps) as [fs1 ps1] eqn:E.
    assert (Hs1 : exists s1, nth_error ps1 i = Some s1 /\ to_do s1 <= to_do s - (if Nat.eq_dec j i then 1 else 0)).
    { destruct (step_of_spec _ _ _ _ _ E) as [(L & -> & ->)|(l1 & s0 & s0' & l2 & -> & L & P & ->)].
      - assert (i < length ps) by (apply nth_error_Some; congruence). destruct (Nat.eq_dec j i); [lia|]. exists s. split; [exact Hi|lia].
      - destruct (Nat.eq_dec j i) as [->|Hne].
        + assert (nth_error (l1 ++ s0 :: l2) i = Some s0) as X by (rewrite nth_error_app2 by lia; rewrite L, Nat.sub_diag; reflexivity).
          rewrite X in Hi. injection Hi as ->. exists s0'. split; [rewrite nth_error_app2 by lia; rewrite L, Nat.sub_diag; reflexivity|].
          pose proof (step_to_do _ _ _ _ P). lia.
        + exists s. split; [|lia]. destruct (Nat.lt_ge_cases i (length l1)) as [Hlt|Hge].
          * rewrite nth_error_app1 in * by exact Hlt. exact Hi.
          * rewrite nth_error_app2 in * by exact Hge. destruct (i - length l1) as [|m] eqn:Em; [lia|]. exact Hi. }
    destruct Hs1 as (s1 & Hs1 & L1). destruct (IH _ _ _ _ _ _ H Hs1) as (s' & Hs' & L'). exists s'. split; [exact Hs'|].
    cbn [count_occ]. destruct (Nat.eq_dec j i); lia.
Qed.
End Race.

(** One process alone, in three steps, is the call. *)
Theorem C145_alone : forall M (fs : fsys M) c d r impl wm,
  let '(fs', ps) := run_schedule c d r impl wm [0; 0; 0] fs [Looking] in
  fs' (pickle_full_path c r d) = fst (partition_call fs c d (Some r) impl wm (Some "pickle"%string)) (pickle_full_path c r d) /\
  ps = [Finished (x <- snd (partition_call fs c d (Some r) impl wm (Some "pickle"%string)) ;; Ok (fst x))].
Proof.
  intros M fs c d r impl wm. unfold run_schedule. cbn [fold_left step_of]. unfold pstep at 1. unfold partition_call.
  destruct (try_load_previous_partition fs c d r "pickle") as [p|]; [split; reflexivity|].
  destruct (impl wm) as [p|e]; cbn [pstep]; [|split; reflexivity]. split; [|reflexivity]. cbn [save_partition fst]. rewrite !put_same. reflexivity.
Qed.
Print Assumptions C145_alone.

(** Any number of processes that look for a partition that is not saved (no file, or one that cannot be read), with any
    schedule of their steps, whether or not all of them come to an end: every process that has ended has the partition that
    the algorithm computes; the file holds nothing else; no other file has changed; and once all have ended, it is saved. *)
Theorem C145_all_get_the_partition : forall M (fs : fsys M) c d r impl wm q n schedule fs' ps,
  (forall p, fs (pickle_full_path c r d) <> Some (FPartition p)) -> impl wm = Ok q ->
  run_schedule c d r impl wm schedule fs (repeat Looking n) = (fs', ps) ->
  (forall result, In (Finished result) ps -> result = Ok q) /\
  (forall p, fs' (pickle_full_path c r d) = Some (FPartition p) -> p = q) /\
  (forall path, path <> pickle_full_path c r d -> fs' path = fs path) /\
  (0 < n -> (forall s, In s ps -> exists result, s = Finished result) -> fs' (pickle_full_path c r d) = Some (FPartition q)).
Proof.
  intros M fs c d r impl wm q n schedule fs' ps H0 Hq H.
  assert (I : race_inv c d r fs q fs' ps /\ length ps = n).
  { assert (I0 : race_inv c d r fs q fs (repeat Looking n) /\ length (repeat Looking n) = n).
    { split; [|apply repeat_length]. split; [auto|]. split; [auto|]. split.
      - apply Forall_forall. intros s Hs. apply repeat_spec in Hs. left. exact Hs.
      - right. right. intros s Hs. apply repeat_spec in Hs. subst s. discriminate. }
    revert I0 H. generalize (repeat Looking n) as ps0. generalize fs at 2 3 as f. induction schedule as [|i l IH]; intros f ps0 I0 H.
    - injection H as <- <-. exact I0.
    - rewrite run_cons in H. destruct (step_of c d r impl wm f i ps0) as [f1 ps1] eqn:E. apply (IH f1 ps1); [|exact H].
      destruct I0 as [I0 L0]. split; [eapply race_step; eauto|].
      destruct (step_of_spec c d r impl wm _ _ _ _ _ E) as [(_ & _ & ->)|(l1 & s & s' & l2 & -> & _ & _ & ->)]; [exact L0|]. rewrite app_length in *. exact L0. }
  destruct I as [(I1 & I2 & I3 & I4) Ln]. split; [|split; [|split]].
  - intros result Hin. pose proof (proj1 (Forall_forall _ _) I3 _ Hin) as [X|[X|[X|X]]]; try discriminate. congruence.
  - intros p E. destruct I2 as [I2|[I2|I2]]; rewrite I2 in E; [exfalso; exact (H0 _ E)|discriminate|congruence].
  - exact I1.
  - intros Hn Hall. destruct I4 as [I4|[I4|I4]]; [exact I4| |].
    + destruct (Hall _ I4). discriminate.
    + exfalso. destruct ps as [|s ps]; [cbn in Ln; lia|]. destruct (Hall s (or_introl eq_refl)) as (res0 & ->).
      pose proof (proj1 (Forall_forall _ _) I3 _ (or_introl eq_refl)) as [X|[X|[X|X]]]; try discriminate. exact (I4 _ (or_introl eq_refl) X).
Qed.
Print Assumptions C145_all_get_the_partition.

(** When it is saved, all processes get the saved one and nothing is written. *)
Theorem C145_saved_partition : forall M (fs : fsys M) c d r impl wm p n schedule,
  fs (pickle_full_path c r d) = Some (FPartition p) ->
  exists ps, run_schedule c d r impl wm schedule fs (repeat Looking n) = (fs, ps) /\
    forall result, In (Finished result) ps -> result = Ok p.
Proof.
  intros M fs c d r impl wm p n schedule Hp.
  assert (I0 : Forall (found p) (repeat Looking n)) by (apply Forall_forall; intros s Hs; apply repeat_spec in Hs; left; exact Hs).
  revert I0. generalize (repeat Looking n) as ps0. induction schedule as [|i l IH]; intros ps0 I0.
  - exists ps0. split; [reflexivity|]. intros result Hin. pose proof (proj1 (Forall_forall _ _) I0 _ Hin) as [X|X]; [discriminate|congruence].
  - rewrite run_cons. destruct (step_of c d r impl wm fs i ps0) as [f1 ps1] eqn:E.
    destruct (step_of_spec c d r impl wm _ _ _ _ _ E) as [(_ & -> & ->)|(l1 & s & s' & l2 & -> & _ & P & ->)]; [apply IH; exact I0|].
    assert (Hs : found p s) by (apply (proj1 (Forall_forall _ _) I0), in_or_app; right; left; reflexivity).
    destruct (hit_step c d r impl wm _ _ _ _ _ Hp Hs P) as [-> Hs']. apply IH.
    apply Forall_app in I0. destruct I0 as [A B]. inversion_clear B. apply Forall_app. split; [assumption|constructor; assumption].
Qed.
Print Assumptions C145_saved_partition.

(** A process that has made three steps has ended, whatever the others do. *)
Theorem C145_three_steps : forall M (fs : fsys M) c d r impl wm n schedule fs' ps i,
  run_schedule c d r impl wm schedule fs (repeat Looking n) = (fs', ps) -> i < n -> 3 <= count_occ Nat.eq_dec schedule i ->
  exists result, nth_error ps i = Some (Finished result).
Proof.
  intros M fs c d r impl wm n schedule fs' ps i H Hi Hc.
  destruct (run_to_do c d r impl wm schedule fs _ fs' ps i Looking H) as (s & Hs & L).
  - clear -Hi. revert i Hi. induction n as [|n IH]; intros [|i] Hi; cbn; auto; try lia. apply IH. lia.
  - destruct s as [|p|p|result]; cbn [to_do] in L; try lia. exists result. exact Hs.
Qed.
Print Assumptions C145_three_steps.

(** One would expect a process to find at the end of its call the partition that it saved.  It need not: another process may
    have the file open and emptied, and if that one is killed the file stays unreadable. *)
Theorem C145_saved_after_the_call_refuted : forall M (fs : fsys M) c d r impl wm q,
  (forall p, fs (pickle_full_path c r d) <> Some (FPartition p)) -> impl wm = Ok q ->
  exists schedule fs' s, run_schedule c d r impl wm schedule fs (repeat Looking 2) = (fs', [Finished (Ok q); s]) /\
    fs' (pickle_full_path c r d) = Some FCorrupt.
Proof.
  intros M fs c d r impl wm q H0 Hq.
  assert (L : try_load_previous_partition fs c d r "pickle" = None).
  { rewrite try_load_iff. destruct (fs (pickle_full_path c r d)) as [[p| | |]|] eqn:E; try reflexivity. exfalso. exact (H0 _ eq_refl). }
  exists [0; 1; 0; 0; 1]. do 2 eexists. unfold run_schedule. cbn [repeat fold_left step_of]. unfold pstep at 1. rewrite L, Hq.
  cbn [pstep step_of]. rewrite ?L, ?Hq. cbn [pstep step_of]. rewrite ?L, ?Hq. cbn [pstep step_of]. split; [reflexivity|]. rewrite put_same. reflexivity.
Qed.
Print Assumptions C145_saved_after_the_call_refuted.

(** Three processes; the second is killed while it writes. *)
Example C145_ex :
  let q := ex_part [0; 1]%Z None in
  let path := pickle_full_path (CRegular 2) ex_region "dtw" in
  let '(fs', ps) := run_schedule (M := nat) (CRegular 2) "dtw" ex_region (fun _ => Ok q) true [0; 1; 1; 2; 0; 2; 2; 0]%nat (fun _ => None) (repeat Looking 3) in
  ps = [Finished (Ok q); Writing q; Finished (Ok q)] /\ fs' path = Some (FPartition q).
Proof. vm_compute. split; reflexivity. Qed.
