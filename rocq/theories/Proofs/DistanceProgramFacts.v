(** Lemmas about Model/DistanceProgram.v. *)
From Coq Require Import String Lia ZifyBool ZifyNat.
From Verif Require Import Base.Py Base.PyFacts Base.Arr Base.ArrFacts Base.Str Base.StrFacts Base.Float Base.FloatFacts Model.Region Model.Pool Model.Distance
  Model.Clustering Model.Dataset Model.Plots Model.Algorithms Model.Programs Model.PartitionAnalysis Model.Scaling Model.DistanceProgram
  Spec.Grid Spec.Rect Spec.Scaling Spec.Distance Spec.Dataset Spec.Solver Spec.PartitionAnalysis Spec.DistanceProgram
  Proofs.RegionFacts Proofs.ScalingFacts Proofs.DatasetFacts Proofs.DistanceFacts Proofs.AlgorithmFacts Proofs.ProgramFacts
  Props.Distance.
Local Open Scope string_scope.
Local Open Scope list_scope.
Local Notation length := List.length.

(** a region created from the dataset is a plain or scaled region with the extent of its metadata *)
Lemma created (garbage : fnum) raw fs m : raw_dataset raw -> dinv fs raw -> (rm_spd m = 1 \/ rm_spd m = 4)%Z -> valid_years (rm_start m) (rm_end m) ->
  rect_in (rm_region m) (a3x raw) (a3y raw) ->
  exists d sc, qwf d sc /\ spans (rm_region m) (a3x d) (a3y d) /\
    forall garbage' fs', dinv fs' raw -> snd (create_instance garbage' fs' m) = Ok (qregion d sc).
Proof.
  intros Hr Hi Hs Hv Hg.
  destruct (dinv_request fs raw garbage (rm_start m) (rm_end m) (rm_spd m) DATASET_NAME Hr Hi Hs) as (_ & Q & _).
  destruct (Q Hv) as (d & _ & Hd). clear Q.
  destruct (create_plain garbage fs raw m d Hr Hi Hs Hv Hg Hd) as (c & E & F & W & T & X & Y & P).
  assert (Any : forall garbage' fs', dinv fs' raw ->
    snd (create_instance garbage' fs' m) = (if rm_scaled m then scale_apply_to (a3x c) (a3y c) (TPlain c) (a3t c) else Ok (TPlain c))).
  { intros g' fs' Hi'. destruct (create_plain g' fs' raw m d Hr Hi' Hs Hv Hg Hd) as (c' & E' & F' & _).
    rewrite E in E'. injection E' as <-. exact F'. }
  destruct (rm_scaled m).
  - assert (Hlen : 0 < t_len (TPlain c)) by (pose proof (interval_pos raw _ _ _ d Hs Hv Hd); unfold t_len; cbn [t_data]; lia).
    destruct (scale_region_spec (TPlain c) W (t_plain_consistent c) Hlen)
      as (m' & mn & mx & Em & Wm & Tm & Xm & Ym & Wn & Xn & Yn & Wx & Xx & Yx & _).
    change (t_x (TPlain c)) with (a3x c) in *. change (t_y (TPlain c)) with (a3y c) in *. cbn [t_new_st t_new_spatial] in *. exists m', (Some (mn, mx)). 
    split; [ unfold qwf; repeat apply conj; try assumption; congruence | ]. split; [ split; [ rewrite Xm | rewrite Ym ]; lia | ].
    intros g' fs' Hi'. rewrite (Any g' fs' Hi'). exact Em.
  - exists c, None. split; [ split; [ exact W | exact I ] | ]. split; [ split; lia | ]. exact Any.
Qed.

Lemma create_keeps garbage raw fs m : raw_dataset raw -> dinv fs raw -> dinv (fst (create_instance garbage fs m)) raw.
Proof.
  intros Hr Hi. unfold create_instance. destruct (negb _) eqn:E; [ exact Hi | ]. apply spd_ok in E.
  pose proof (dinv_request fs raw garbage (rm_start m) (rm_end m) (rm_spd m) DATASET_NAME Hr Hi E) as (H & _).
  destruct (retrieve_dataset_interval garbage fs (rm_start m) (rm_end m) (rm_spd m) DATASET_NAME). exact H.
Qed.

Section Run.
Context {color : Type} (measure : list fnum -> list fnum -> fnum) (junk garbage : fnum) (pool : nat -> stregion fnum -> pstate nat).
Notation calc := (@calculate_distances color measure junk garbage pool).

Lemma run_keeps_data raw w region parallel plots : raw_dataset raw -> dinv (dw_data w) raw -> dinv (dw_data (fst (calc w region parallel plots))) raw.
Proof.
  intros Hr Hi. unfold calculate_distances. destruct (region_by_name region) as [ r | e ]; [ | exact Hi ].
  pose proof (create_keeps garbage raw (dw_data w) r Hr Hi) as K.
  destruct (create_instance garbage (dw_data w) r) as [ fs [ spt | e ] ]; cbn [fst] in *; [ | exact K ].
  destruct (bind _ _); exact K.
Qed.

Lemma distances_filename_inj region region' r r' : region_by_name region = Ok r -> region_by_name region' = Ok r' ->
  distances_filename r = distances_filename r' -> region = region'.
Proof.
  intros H H' E. destruct (predefined_facts _ _ H) as (En & _ & _ & Ed & _). destruct (predefined_facts _ _ H') as (En' & _ & _ & Ed' & _).
  unfold distances_filename in E. rewrite En, En', Ed, Ed' in E. apply sapp_inj_l, sapp_inj_l, sapp_inj_r in E. exact E.
Qed.

Lemma run_keeps_others w region parallel plots region' r' : region_by_name region' = Ok r' -> region <> region' ->
  dw_mats (fst (calc w region parallel plots)) (distances_filename r') = dw_mats w (distances_filename r').
Proof.
  intros H' Hne. unfold calculate_distances. destruct (region_by_name region) as [ r | e ] eqn:H; [ | reflexivity ].
  destruct (create_instance garbage (dw_data w) r) as [ fs [ spt | e ] ]; [ | reflexivity ].
  destruct (bind _ _) as [ M | e ]; [ | reflexivity ]. cbn [fst dw_mats]. unfold save_mat.
  destruct (distances_filename r' =? distances_filename r)%string eqn:E; [ | reflexivity ].
  apply String.eqb_eq in E. destruct Hne. symmetry. exact (distances_filename_inj _ _ _ _ H' H E).
Qed.

Lemma runs_keep_data raw runs : raw_dataset raw -> forall w, dinv (dw_data w) raw -> dinv (dw_data (run_all color measure junk garbage pool w runs)) raw.
Proof.
  intros Hr. induction runs as [ | [ [ region parallel ] plots ] runs IH ]; intros w Hi; [ exact Hi | ].
  cbn [run_all fold_left]. apply IH. apply run_keeps_data; assumption.
Qed.

Lemma runs_keep_others runs region' r' : region_by_name region' = Ok r' -> Forall (fun run => fst (fst run) <> region') runs ->
  forall w, dw_mats (run_all color measure junk garbage pool w runs) (distances_filename r') = dw_mats w (distances_filename r').
Proof.
  intros H' HF. induction HF as [ | [ [ region parallel ] plots ] runs Hne HF IH ]; intros w; [ reflexivity | ].
  cbn [run_all fold_left]. unfold run_all in IH. rewrite IH. apply run_keeps_others with (region' := region'); assumption.
Qed.
End Run.

(** the workers *)
Lemma asked parallel n : asks_for parallel n -> parallel_workers parallel = Ok n /\ (0 <= n)%Z.
Proof.
  intros [ | m Hm ]; [ split; [ reflexivity | lia ] | ]. split; [ | exact Hm ]. unfold parallel_workers.
  destruct (str_int m =? "")%string eqn:E.
  - apply String.eqb_eq in E. exfalso. pose proof (py_int_str m) as P. rewrite E in P. discriminate P.
  - apply py_int_str.
Qed.

Lemma row_before_index x y p q : in_grid x y p -> in_grid x y q ->
  (p = q <-> index_of y p = index_of y q) /\ (row_before p q <-> index_of y p < index_of y q).
Proof.
  intros [ Px Py ] [ Qx Qy ]. unfold index_of, row_before. destruct p as [ p1 p2 ], q as [ q1 q2 ]. cbn [fst snd] in *.
  assert (Z.to_nat p1 < x /\ Z.to_nat p2 < y /\ Z.to_nat q1 < x /\ Z.to_nat q2 < y) as (A & B & C & D) by lia.
  assert (forall a b, a < b -> a * y + y <= b * y) as Mul by (intros a b L; nia).
  split; split.
  - intros [= -> ->]. reflexivity.
  - intros E. destruct (Nat.lt_trichotomy (Z.to_nat p1) (Z.to_nat q1)) as [ L | [ L | L ] ]; [ apply Mul in L; lia | | apply Mul in L; lia ].
    rewrite L in E. f_equal; lia.
  - intros [ L | [ -> L ] ]; [ assert (L' : Z.to_nat p1 < Z.to_nat q1) by lia; apply Mul in L'; lia | lia ].
  - intros E. destruct (Nat.lt_trichotomy (Z.to_nat p1) (Z.to_nat q1)) as [ L | [ L | L ] ]; [ left; lia | right | apply Mul in L; lia ].
    rewrite L in E. lia.
Qed.

(** the matrix that one run computes *)
Lemma matrix_computed measure junk pool n d sc : qwf d sc -> (0 <= n)%Z -> finished measure pool n (qregion d sc) ->
  exists M dist, distances_of measure junk pool n (qregion d sc) = Ok M /\ square (a3x d * a3y d) M /\
    (forall q pt, in_grid (a3x d) (a3y d) q -> in_grid (a3x d) (a3y d) pt -> entry M (index_of (a3y d) q) (index_of (a3y d) pt) = Some (dist q pt)) /\
    distances_by measure n d dist.
Proof.
  intros [ W Hsc ] Hn Hf.
  assert (Td : t_data (qregion d sc) = d) by (destruct sc as [ [ mn mx ] | ]; reflexivity).
  assert (Tx : t_x (qregion d sc) = a3x d) by (unfold t_x; rewrite Td; reflexivity).
  assert (Ty : t_y (qregion d sc) = a3y d) by (unfold t_y; rewrite Td; reflexivity).
  unfold distances_of. destruct (n =? 0)%Z eqn:E0.
  - assert (n = 0%Z) by lia. subst n.
    destruct (region_matrix measure junk d W) as (M & E & S & V).
    exists M, (fun p q => match entry M (index_of (a3y d) p) (index_of (a3y d) q) with Some v => v | None => NaN end).
    split; [ destruct sc as [ [ mn mx ] | ]; [ cbn [qregion]; rewrite region_matrix_scaled | ]; exact E | ]. split; [ exact S | ].
    assert (Hs : forall p, in_grid (a3x d) (a3y d) p -> exists a, series3 d (fst p) (snd p) = Ok a).
    { intros p [ P1 P2 ]. destruct (series3_ok d (fst p) (snd p) W P1 P2) as (a & Ea & _). eauto. }
    split.
    + intros q pt Hq Hpt. destruct (Hs q Hq) as (a & Ea). destruct (Hs pt Hpt) as (b & Eb). rewrite (V q pt a b); auto.
    + intros p q a b Hp Hq Ea Eb. split; [ intros _ | lia ]. rewrite (V p q a b); auto.
  - replace (n <? 0)%Z with false by lia. destruct (Hf ltac:(lia)) as [ Hst Hdone ].
    destruct (C46_parallel_matrix measure (qregion d sc) (Z.to_nat n) _ ltac:(rewrite Td; exact W) ltac:(lia) Hst Hdone) as (M & E & S & V).
    rewrite Tx, Ty in *. rewrite Td in *.
    exists M, (fun p q => match entry M (index_of (a3y d) p) (index_of (a3y d) q) with Some v => v | None => NaN end).
    split; [ exact E | ]. split; [ exact S | ].
    assert (Hs : forall p, in_grid (a3x d) (a3y d) p -> exists a, series_at (TPlain d) p = Ok a).
    { intros p [ P1 P2 ]. destruct (series3_ok d (fst p) (snd p) W P1 P2) as (a & Ea & _). eauto. }
    split.
    + intros q pt Hq Hpt. destruct (Hs q Hq) as (a & Ea). destruct (Hs pt Hpt) as (b & Eb). destruct (V q pt a b Hq Hpt Ea Eb) as (v & -> & _). reflexivity.
    + intros p q a b Hp Hq Ea Eb. split; [ lia | ]. intros _.
      destruct (row_before_index _ _ p q Hp Hq) as [ I1 I2 ]. destruct (row_before_index _ _ q p Hq Hp) as [ _ I3 ].
      destruct (V p q a b Hp Hq Ea Eb) as (v & -> & Hv). repeat apply conj.
      * intros ->. rewrite Nat.eqb_refl in Hv. exact Hv.
      * intros H. apply I3 in H. rewrite (proj2 (Nat.eqb_neq _ _)), (proj2 (Nat.ltb_lt _ _) H) in Hv by lia. exact Hv.
      * intros H. apply I2 in H. rewrite (proj2 (Nat.eqb_neq _ _)), (proj2 (Nat.ltb_ge _ _)) in Hv by lia. exact Hv.
Qed.
