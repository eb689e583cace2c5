(** Properties C19-C21, C72, C73: scaling regions to [0, 1] and back. *)
From Coq Require Import ZifyBool ZifyNat.
From Verif Require Import Base.Py Base.Arr Base.Float Spec.Grid Spec.Partition Spec.Rect Spec.Scaling
     Model.Region Model.Scaling Proofs.ScalingFacts.

Definition fl (l : list Z) : list fnum := map (fun z => Fin (inject_Z z)) l.
(** a 2 x 2 region of 3 samples: series (1,3,2), (5,5,5), (NaN,4,8), (7,7,NaN) *)
Definition ex_s : arr3 fnum :=
  mk3 3 2 2 (fl [1; 5] ++ [NaN] ++ fl [7; 3; 5; 4; 7; 2; 5; 8] ++ [NaN])%Z.
Definition ex_sp : crisp := Crisp (mk2 2 2 [0; 1; 1; 0]%Z) 2.

(* ---------------------------------------------------------------- C19 *)
Theorem C19_scaled_between_0_and_1 : forall d : arr3 fnum, wf3 d -> 0 < a3t d -> no_inf (a3d d) ->
  exists m mn mx, scale_apply_to (a3x d) (a3y d) (TPlain d) (a3t d) = Ok (TScaled (TPlain m) mn mx) /\
    wf3 m /\ a3t m = a3t d /\ a3x m = a3x d /\ a3y m = a3y d /\
    forall pt, in_grid (a3x d) (a3y d) pt ->
      exists s s', series_at (TPlain d) pt = Ok s /\ series_at (TScaled (TPlain m) mn mx) pt = Ok s' /\ scaled_series s s'.
Proof. exact scale_series_plain. Qed.
Print Assumptions C19_scaled_between_0_and_1.

Theorem C19_scaled_cluster : forall (d : arr3 fnum) p c, wf3 d -> 0 < a3t d -> no_inf (a3d d) ->
  valid_partition p (a3x d) (a3y d) ->
  exists m mn mx, scale_apply_to (a3x d) (a3y d) (TCluster (TPlain d) p c) (a3t d)
      = Ok (TScaled (TCluster (TPlain m) p c) mn mx) /\
    wf3 m /\ a3t m = a3t d /\ a3x m = a3x d /\ a3y m = a3y d /\
    forall pt, in_grid (a3x d) (a3y d) pt -> label_at p pt c ->
      exists s s', series_at (TCluster (TPlain d) p c) pt = Ok s /\
        series_at (TScaled (TCluster (TPlain m) p c) mn mx) pt = Ok s' /\ scaled_series s s'.
Proof. exact scale_series_cluster. Qed.
Print Assumptions C19_scaled_cluster.

Theorem C19_wrong_length_rejected : forall x y r n, t_len r <> n -> scale_apply_to x y r n = Raise AssertionError.
Proof. exact scale_wrong_len. Qed.
Print Assumptions C19_wrong_length_rejected.

Example C19_ex : wf3 ex_s /\ 0 < a3t ex_s /\ no_inf (a3d ex_s) /\ valid_partition ex_sp (a3x ex_s) (a3y ex_s) /\
  exists r, scale_apply_to 2 2 (TPlain ex_s) 3 = Ok r /\
    (exists s, series_at r (0, 0)%Z = Ok s /\ Forall2 feqv s [Fin 0; Fin 1; Fin (1#2)]) /\
    (exists s, series_at r (0, 1)%Z = Ok s /\ Forall2 feqv s [Fin 0; Fin 0; Fin 0]) /\
    (exists s, series_at r (1, 0)%Z = Ok s /\ Forall2 feqv s [NaN; Fin 0; Fin 1]).
Proof.
  split; [reflexivity|]. split; [cbn; lia|].
  split. { intros v Hv. cbn in Hv. repeat (destruct Hv as [<-|Hv]; [reflexivity|]). destruct Hv. }
  split.
  { split; [reflexivity|]. split; [reflexivity|]. split; [reflexivity|]. split.
    - intros [i j] l [H1 H2] Hl. cbn in H1, H2.
      assert (Hi : (i = 0 \/ i = 1)%Z) by lia. assert (Hj : (j = 0 \/ j = 1)%Z) by lia.
      destruct Hi; destruct Hj; subst; cbn in Hl; inversion Hl; subst; cbn; lia.
    - exists (0, 1)%Z. split; [split; cbn; lia|reflexivity]. }
  eexists. split; [vm_compute; reflexivity|].
  split; [|split]; (eexists; split; [vm_compute; reflexivity|]; repeat constructor; cbn; reflexivity).
Qed.

(* ---------------------------------------------------------------- C20 *)
(** Scaling then descaling: a series without missing samples, or not constant, or entirely missing, comes
    back; a constant series comes back as that constant in every sample. *)
Theorem C20_descale_restores : forall d : arr3 fnum, wf3 d -> 0 < a3t d -> no_inf (a3d d) ->
  exists r m, scale_apply_to (a3x d) (a3y d) (TPlain d) (a3t d) = Ok r /\ descale r = Ok (TPlain m) /\
    wf3 m /\ a3t m = a3t d /\ a3x m = a3x d /\ a3y m = a3y d /\
    forall pt s, in_grid (a3x d) (a3y d) pt -> series_at (TPlain d) pt = Ok s ->
      exists s', series_at (TPlain m) pt = Ok s' /\
        (no_nan s \/ ~ constant s \/ all_nan s -> Forall2 feqv s' s) /\
        (forall c, constant s -> In (Fin c) s -> length s' = length s /\ forall v, In v s' -> feqv v (Fin c)).
Proof. exact round_trip_plain. Qed.
Print Assumptions C20_descale_restores.

Lemma C20_broken : exists r m s s', scale_apply_to 2 2 (TPlain ex_s) 3 = Ok r /\ descale r = Ok (TPlain m) /\
  series_at (TPlain ex_s) (1, 1)%Z = Ok s /\ series_at (TPlain m) (1, 1)%Z = Ok s' /\ ~ Forall2 feqv s' s.
Proof.
  do 4 eexists. do 4 (split; [vm_compute; reflexivity|]). intros H.
  inversion H as [|? ? ? ? _ H1]; subst. inversion H1 as [|? ? ? ? _ H2]; subst. inversion H2 as [|? ? ? ? H3 _]; subst.
  exact H3.
Qed.
(** The unrestricted round trip is false: missing samples of an otherwise constant series are filled in. *)
Theorem C20_every_series_restored_refuted : ~ (forall d : arr3 fnum, wf3 d -> 0 < a3t d -> no_inf (a3d d) ->
  forall r m, scale_apply_to (a3x d) (a3y d) (TPlain d) (a3t d) = Ok r -> descale r = Ok (TPlain m) ->
  forall pt s s', in_grid (a3x d) (a3y d) pt -> series_at (TPlain d) pt = Ok s ->
    series_at (TPlain m) pt = Ok s' -> Forall2 feqv s' s).
Proof.
  intros H. destruct C19_ex as (W & L & I & _). specialize (H ex_s W L I).
  edestruct C20_broken as (r & m & s & s' & E1 & E2 & E3 & E4 & E5).
  apply E5. apply (H r m E1 E2 (1, 1)%Z); auto. split; cbn; lia.
Qed.
Print Assumptions C20_every_series_restored_refuted.

Example C20_ex : exists r m s, scale_apply_to 2 2 (TPlain ex_s) 3 = Ok r /\ descale r = Ok (TPlain m) /\
  series_at (TPlain ex_s) (1, 0)%Z = Ok s /\ ~ constant s /\ s = [NaN; Fin 4; Fin 8] /\
  exists s', series_at (TPlain m) (1, 0)%Z = Ok s' /\ Forall2 feqv s' s.
Proof.
  do 3 eexists. do 3 (split; [vm_compute; reflexivity|]). split.
  - intros C. specialize (C (Fin 4) (Fin 8)). cbn in C. discriminate C; auto.
  - split; [reflexivity|]. eexists; split; [vm_compute; reflexivity|]. repeat constructor; cbn; reflexivity.
Qed.

(* ---------------------------------------------------------------- C21 *)
Theorem C21_descale_of_region_subset : forall (m : arr3 fnum) mn mx g, wf3 m -> wf2 mn -> wf2 mx ->
  a2x mn = a3x m -> a2y mn = a3y m -> a2x mx = a3x m -> a2y mx = a3y m -> rect_in g (a3x m) (a3y m) ->
  exists sub d d', t_region_subset (TScaled (TPlain m) (SPlain mn) (SPlain mx)) g = Ok sub /\
    descale (TScaled (TPlain m) (SPlain mn) (SPlain mx)) = Ok d /\
    t_region_subset d g = Ok d' /\ descale sub = Ok d'.
Proof. exact descale_region_subset. Qed.
Print Assumptions C21_descale_of_region_subset.

Theorem C21_descale_of_interval_subset : forall (m : arr3 fnum) mn mx ti, wf3 m -> wf2 mn -> wf2 mx ->
  a2x mn = a3x m -> a2y mn = a3y m -> a2x mx = a3x m -> a2y mx = a3y m -> interval_in ti (a3t m) ->
  exists d, descale (TScaled (TPlain m) (SPlain mn) (SPlain mx)) = Ok d /\
    descale (interval_subset (TScaled (TPlain m) (SPlain mn) (SPlain mx)) ti) = Ok (interval_subset d ti).
Proof. exact descale_interval_subset. Qed.
Print Assumptions C21_descale_of_interval_subset.

(** What descaling does to every sample of any dataset put in the scaled region: v becomes (max - min) v + min
    of that point. *)
Theorem C21_descale_pointwise : forall (m : arr3 fnum) mn mx, wf3 m -> wf2 mn -> wf2 mx ->
  a2x mn = a3x m -> a2y mn = a3y m -> a2x mx = a3x m -> a2y mx = a3y m ->
  exists d, descale (TScaled (TPlain m) (SPlain mn) (SPlain mx)) = Ok (TPlain d) /\
    wf3 d /\ a3t d = a3t m /\ a3x d = a3x m /\ a3y d = a3y m /\
    forall pt s lo hi, in_grid (a3x m) (a3y m) pt -> series_at (TPlain m) pt = Ok s ->
      value_at (SPlain mn) pt = Ok lo -> value_at (SPlain mx) pt = Ok hi ->
      series_at (TPlain d) pt = Ok (map (fun v => fadd (fmul (fsub hi lo) v) lo) s).
Proof. exact descale_plain. Qed.
Print Assumptions C21_descale_pointwise.

Definition ex_m : arr3 fnum := mk3 2 1 2 (fl [0; 0; 1; 1])%Z.
Definition ex_mn : arr2 fnum := mk2 1 2 (fl [10; 20])%Z.
Definition ex_mx : arr2 fnum := mk2 1 2 (fl [12; 25])%Z.
Example C21_ex : wf3 ex_m /\ wf2 ex_mn /\ wf2 ex_mx /\ a2x ex_mn = a3x ex_m /\ a2y ex_mn = a3y ex_m /\
  a2x ex_mx = a3x ex_m /\ a2y ex_mx = a3y ex_m /\ rect_in (Rect 0 1 1 2) (a3x ex_m) (a3y ex_m) /\
  interval_in (Interval 1 2) (a3t ex_m) /\
  exists sub d s, t_region_subset (TScaled (TPlain ex_m) (SPlain ex_mn) (SPlain ex_mx)) (Rect 0 1 1 2) = Ok sub /\
    descale sub = Ok d /\ series_at d (0, 0)%Z = Ok s /\ Forall2 feqv s [Fin 20; Fin 25].
Proof.
  do 7 (split; [reflexivity|]). split; [unfold rect_in; cbn; lia|]. split; [unfold interval_in; cbn; lia|].
  do 3 eexists. do 3 (split; [vm_compute; reflexivity|]).
  repeat constructor; cbn; reflexivity.
Qed.

(* ---------------------------------------------------------------- C72 *)
(** [subset] cuts the samples but not the minima and maxima: the series at (i, j) of the subset, which comes
    from (x1 + i, y1 + j), is descaled with the minimum and maximum of (i, j) ... *)
Theorem C72_subset_descaled_with_wrong_point : forall (m : arr3 fnum) mn mx g ti, wf3 m -> wf2 mn -> wf2 mx ->
  a2x mn = a3x m -> a2y mn = a3y m -> a2x mx = a3x m -> a2y mx = a3y m ->
  rect_in g (a3x m) (a3y m) -> interval_in ti (a3t m) ->
  exists e, descale (subset (TScaled (TPlain m) (SPlain mn) (SPlain mx)) g ti) = Ok (TPlain e) /\
    Z.of_nat (a3x e) = (x2 g - x1 g)%Z /\ Z.of_nat (a3y e) = (y2 g - y1 g)%Z /\
    forall i j, (0 <= i < x2 g - x1 g)%Z -> (0 <= j < y2 g - y1 g)%Z ->
      exists s lo hi, series_at (subset (TPlain m) g ti) (i, j) = Ok s /\
        value_at (SPlain mn) (i, j) = Ok lo /\ value_at (SPlain mx) (i, j) = Ok hi /\
        series_at (TPlain e) (i, j) = Ok (map (fun v => fadd (fmul (fsub hi lo) v) lo) s).
Proof. exact subset_descale. Qed.
Print Assumptions C72_subset_descaled_with_wrong_point.

Lemma C72_broken : exists d e s s',
  descale (TScaled (TPlain ex_m) (SPlain ex_mn) (SPlain ex_mx)) = Ok d /\
  descale (subset (TScaled (TPlain ex_m) (SPlain ex_mn) (SPlain ex_mx)) (Rect 0 1 1 2) (Interval 0 2)) = Ok e /\
  series_at e (0, 0)%Z = Ok s /\ series_at (subset d (Rect 0 1 1 2) (Interval 0 2)) (0, 0)%Z = Ok s' /\ ~ Forall2 feqv s s'.
Proof.
  do 4 eexists. do 4 (split; [vm_compute; reflexivity|]). intros H.
  inversion H as [|? ? ? ? H1 _]; subst. discriminate H1.
Qed.
(** ... so descaling the subset does not give the subset of the descaled region. *)
Theorem C72_subset_commutes_with_descale_refuted : ~ (forall (m : arr3 fnum) mn mx g ti, wf3 m -> wf2 mn -> wf2 mx ->
  a2x mn = a3x m -> a2y mn = a3y m -> a2x mx = a3x m -> a2y mx = a3y m ->
  rect_in g (a3x m) (a3y m) -> interval_in ti (a3t m) ->
  forall d e, descale (TScaled (TPlain m) (SPlain mn) (SPlain mx)) = Ok d ->
    descale (subset (TScaled (TPlain m) (SPlain mn) (SPlain mx)) g ti) = Ok e ->
    forall pt s s', series_at e pt = Ok s -> series_at (subset d g ti) pt = Ok s' -> Forall2 feqv s s').
Proof.
  intros H.
  destruct C72_broken as (d & e & s & s' & E1 & E2 & E3 & E4 & E5). apply E5.
  apply (H ex_m ex_mn ex_mx (Rect 0 1 1 2) (Interval 0 2) eq_refl eq_refl eq_refl eq_refl eq_refl eq_refl eq_refl
    ltac:(unfold rect_in; cbn; lia) ltac:(unfold interval_in; cbn; lia) d e E1 E2 (0, 0)%Z s s' E3 E4).
Qed.
Print Assumptions C72_subset_commutes_with_descale_refuted.
Example C72_ex : rect_in (Rect 0 1 1 2) (a3x ex_m) (a3y ex_m) /\ interval_in (Interval 0 2) (a3t ex_m) /\
  exists e s, descale (subset (TScaled (TPlain ex_m) (SPlain ex_mn) (SPlain ex_mx)) (Rect 0 1 1 2) (Interval 0 2)) = Ok e /\
    series_at e (0, 0)%Z = Ok s /\ Forall2 feqv s [Fin 10; Fin 12].
Proof.
  split; [unfold rect_in; cbn; lia|]. split; [unfold interval_in; cbn; lia|]. do 2 eexists. do 2 (split; [vm_compute; reflexivity|]).
  repeat constructor; cbn; reflexivity.
Qed.


(* ---------------------------------------------------------------- C73 *)
Theorem C73_descale_cluster : forall (m : arr3 fnum) mn mx p c, wf3 m -> wf2 mn -> wf2 mx ->
  a2x mn = a3x m -> a2y mn = a3y m -> a2x mx = a3x m -> a2y mx = a3y m -> valid_partition p (a3x m) (a3y m) ->
  exists d r', descale (TScaled (TPlain m) (SPlain mn) (SPlain mx)) = Ok (TPlain d) /\
    descale (TCluster (TScaled (TPlain m) (SPlain mn) (SPlain mx)) p c) = Ok r' /\
    has_scaling r' = true /\
    forall pt, in_grid (a3x m) (a3y m) pt -> label_at p pt c -> series_at r' pt = series_at (TPlain d) pt.
Proof. exact descale_cluster. Qed.
Print Assumptions C73_descale_cluster.

(** A descaled region should not descale again: true of a scaled region, false of a cluster of one. *)
Theorem C73_scaled_region_descales_once : forall m mn mx d,
  descale (TScaled (TPlain m) mn mx) = Ok d -> has_scaling d = false /\ descale d = Raise NotImplementedError.
Proof.
  intros m mn mx d H. cbn [descale] in H.
  destruct (t_apply_series _ _ _ _) as [x|e]; [|discriminate]. cbn in H. inversion H; subst. split; reflexivity.
Qed.
Print Assumptions C73_scaled_region_descales_once.

Definition ex_cl : stregion fnum :=
  TCluster (TScaled (TPlain ex_m) (SPlain ex_mn) (SPlain ex_mx)) (Crisp (mk2 1 2 [0; 1]%Z) 2) 1.
Theorem C73_cluster_descales_once_refuted : exists r' r'' s', descale ex_cl = Ok r' /\ has_scaling r' = true /\
  descale r' = Ok r'' /\ series_at r' (0, 1)%Z = Ok s' /\ Forall2 feqv s' [Fin 20; Fin 25] /\
  exists s'', series_at r'' (0, 1)%Z = Ok s'' /\ ~ Forall2 feqv s'' s'.
Proof.
  do 3 eexists. do 4 (split; [vm_compute; reflexivity|]).
  split; [repeat constructor; cbn; reflexivity|]. eexists; split; [vm_compute; reflexivity|].
  intros H. inversion H as [|? ? ? ? H1 _]; subst. discriminate H1.
Qed.
Print Assumptions C73_cluster_descales_once_refuted.
Example C73_ex : valid_partition (Crisp (mk2 1 2 [0; 1]%Z) 2) (a3x ex_m) (a3y ex_m) /\
  exists d r' s, descale (TScaled (TPlain ex_m) (SPlain ex_mn) (SPlain ex_mx)) = Ok (TPlain d) /\ descale ex_cl = Ok r' /\
    series_at r' (0, 1)%Z = Ok s /\ series_at (TPlain d) (0, 1)%Z = Ok s /\ Forall2 feqv s [Fin 20; Fin 25].
Proof.
  split.
  { split; [reflexivity|]. split; [reflexivity|]. split; [reflexivity|]. split.
    - intros [a b] l [H1 H2] H. cbn in H1, H2. assert (a = 0%Z) by lia. subst a. unfold label_at in H.
      assert (b = 0%Z \/ b = 1%Z) as [-> | ->] by lia; cbn in H; injection H as <-; cbn; lia.
    - exists (0, 1)%Z. split; [split; cbn; lia|reflexivity]. }
  do 3 eexists. do 4 (split; [vm_compute; reflexivity|]). repeat constructor; cbn; reflexivity.
Qed.

