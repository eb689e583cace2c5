(** C140: the series of the k-medoids examples and their clustering. *)
From Coq Require Import String QArith ZifyBool ZifyNat.
From Verif Require Import Base.Py Base.PyFacts Base.Arr Base.ArrFacts Base.Float Base.FloatFacts Spec.Grid Spec.Medoids Spec.Distance Spec.Examples Model.Region Model.Distance Model.KMedoids
  Model.Algorithms Model.Plots Model.Synthetic Model.Examples Proofs.RegionFacts Proofs.PartitionFacts Proofs.DistanceFacts Proofs.AlgorithmFacts Proofs.DistanceObjFacts Props.KMedoids Props.Plots Props.Synthetic.
Local Close Scope Q_scope.
Local Open Scope nat_scope.
Local Notation length := List.length.

(* ---------------------------------------------------------------- C140 *)
Definition valid_pads (pad : nat -> nat -> nat) : Prop := forall c n, 0 < n -> pad c n < n.

Lemma option_at_in options i : options <> [] -> exists f, nth_error options (i mod length options) = Some f /\ option_at options i = Ok f.
Proof.
  intros H. assert (L : length options <> 0) by (destruct options; cbn; congruence).
  destruct (nth_error_lt_some options (i mod length options)) as [f Hf]; [apply Nat.mod_upper_bound; exact L|].
  exists f. split; auto. unfold option_at. replace (length options =? 0) with false by lia. apply getitem_in, Hf.
Qed.
Lemma delayed_ok pad noise c f len : valid_pads pad -> 7 <= len -> exists s, delayed pad noise c f len = Ok s /\ noisy_copy (noise c) f len s.
Proof.
  intros Hp Hl. destruct (C107_delayed (fun _ => noise c) f (pad c) len Hl (Hp c)) as (s & delay & padding & E & L & D1 & D2 & D3 & D4 & V).
  exists s. split; [exact E|]. split; [exact L|]. exists delay, padding. auto 6.
Qed.

(** series i is a noisy copy of function i modulo the number of functions *)
Theorem C140_series : forall pad noise series_n series_len options, valid_pads pad -> 7 <= series_len -> options <> [] ->
  exists group, alternating_functions_1d pad noise series_n series_len options = Ok group /\ length group = series_n /\
    forall i, i < series_n -> exists f series, nth_error options (i mod length options) = Some f /\ nth_error group i = Some series /\ noisy_copy (noise i) f series_len series.
Proof.
  intros pad noise n len options Hp Hl Ho. unfold alternating_functions_1d.
  assert (G : forall s, exists group, mapM (fun i => f <- option_at options i ;; delayed pad noise i f len) (seq s n) = Ok group /\ length group = n /\
    forall i, i < n -> exists f series, nth_error options ((s + i) mod length options) = Some f /\ nth_error group i = Some series /\ noisy_copy (noise (s + i)) f len series).
  { induction n as [|n IH]; intros s; cbn [seq mapM].
    - exists []. repeat split; auto. intros; lia.
    - destruct (option_at_in options s Ho) as (f & Ef & Eo). destruct (delayed_ok pad noise s f len Hp Hl) as (x & Ex & Nx).
      rewrite Eo. cbn [bind]. rewrite Ex. cbn [bind]. destruct (IH (S s)) as (g & Eg & Lg & V). rewrite Eg. cbn [bind].
      exists (x :: g). split; [reflexivity|]. split; [cbn; congruence|]. intros [|i] Hi.
      + rewrite Nat.add_0_r. exists f, x. auto.
      + destruct (V i) as (f' & y & E1 & E2 & E3); [lia|]. exists f', y. replace (s + S i) with (S s + i) by lia. auto. }
  exact (G 0).
Qed.

Lemma mapM_total {A B} (f : A -> B) l : mapM (fun x => Ok (f x)) l = Ok (map f l).
Proof. induction l as [|a l IH]; cbn; [reflexivity|]. rewrite IH. reflexivity. Qed.
Lemma fold_pair {A B I} (f : A -> I -> res A) (g : B -> I -> res B) l : forall a b a' b', foldM f l a = Ok a' -> foldM g l b = Ok b' ->
  foldM (fun '(a, b) i => a <- f a i ;; b <- g b i ;; Ok (a, b)) l (a, b) = Ok (a', b').
Proof.
  induction l as [|i l IH]; cbn [foldM]; intros a b a' b' Ha Hb; [congruence|].
  destruct (f a i) as [a1|]; [|discriminate]. destruct (g b i) as [b1|]; [|discriminate]. cbn [bind] in *. apply IH; auto.
Qed.

(** the region has at (i, j) a noisy copy of the function i * j modulo the number of functions, and the mask the number of that function *)
Theorem C140_region : forall pad noise junk x_len y_len series_len options, valid_pads pad -> 7 <= series_len -> options <> [] ->
  exists spt mask, alternating_functions_2d pad noise junk x_len y_len series_len options = Ok (spt, mask) /\
    wf3 spt /\ a3t spt = series_len /\ a3x spt = x_len /\ a3y spt = y_len /\ wf2 mask /\ a2x mask = x_len /\ a2y mask = y_len /\
    forall i j, i < x_len -> j < y_len -> exists f series,
      nth_error options (i * j mod length options) = Some f /\ series3 spt (Z.of_nat i) (Z.of_nat j) = Ok series /\
      noisy_copy (noise (i * y_len + j)) f series_len series /\ get2 mask (Z.of_nat i) (Z.of_nat j) = Ok (fof_nat (i * j mod length options)).
Proof.
  intros pad noise junk x y len options Hp Hl Ho. unfold alternating_functions_2d. rewrite list_of_2d_points_grid.
  set (series_of := fun pt : point => f <- option_at options (Z.to_nat (fst pt) * Z.to_nat (snd pt)) ;; delayed pad noise (Z.to_nat (fst pt) * y + Z.to_nat (snd pt)) f len).
  assert (SO : forall pt, exists f s, nth_error options (Z.to_nat (fst pt) * Z.to_nat (snd pt) mod length options) = Some f /\ series_of pt = Ok s /\
             noisy_copy (noise (Z.to_nat (fst pt) * y + Z.to_nat (snd pt))) f len s).
  { intros pt. destruct (option_at_in options (Z.to_nat (fst pt) * Z.to_nat (snd pt)) Ho) as (f & Ef & Eo).
    destruct (delayed_ok pad noise (Z.to_nat (fst pt) * y + Z.to_nat (snd pt)) f len Hp Hl) as (s & Es & Ns).
    exists f, s. split; auto. split; auto. unfold series_of. rewrite Eo. exact Es. }
  set (ser := fun pt => match series_of pt with Ok s => s | Raise _ => [] end).
  destruct (write_series_loop len x y (full3 len x y junk) series_of ser (fun p => p)) with (its := grid x y)
    as (spt & E1 & W1 & T1 & X1 & Y1 & S1 & _); auto.
  { unfold wf3, full3. cbn. apply repeat_length. }
  { rewrite map_id. apply grid_nodup. }
  { intros pt Hpt. split; [apply in_grid_iff, Hpt|]. unfold ser. destruct (SO pt) as (f & s & _ & E & (L & _)). rewrite E. auto. }
  destruct (fold_set2 (fun p : point => p) (fun pt => Ok (fof_nat (Z.to_nat (fst pt) * Z.to_nat (snd pt) mod length options))) (full2 x y junk) (grid x y))
    with (vals := map (fun pt : point => fof_nat (Z.to_nat (fst pt) * Z.to_nat (snd pt) mod length options)) (grid x y))
    as (mask & E2 & W2 & X2 & Y2 & S2 & _).
  { unfold wf2, full2. cbn. apply repeat_length. }
  { intros b Hb. apply in_grid_iff in Hb. exact Hb. }
  { rewrite map_id. apply grid_nodup. }
  { apply mapM_total. }
  exists spt, mask. split.
  - rewrite <- (fold_pair (fun m it => s <- series_of it ;; setseries3 m (fst it) (snd it) s)
       (fun m it => v <- Ok (fof_nat (Z.to_nat (fst it) * Z.to_nat (snd it) mod length options)) ;; set2 m (fst it) (snd it) v) _ _ _ _ _ E1 E2).
    apply foldM_ext. intros [a b] pt. unfold series_of. destruct (option_at _ _); [|reflexivity]. cbn [bind].
    destruct (delayed _ _ _ _ _); reflexivity.
  - repeat (split; [assumption|]). intros i j Hi Hj. set (pt := (Z.of_nat i, Z.of_nat j)).
    assert (Hg : In pt (grid x y)) by (apply in_grid_iff; unfold in_grid, pt; cbn; lia).
    destruct (SO pt) as (f & s & Ef & Es & Ns). cbn [pt fst snd] in Ef, Ns. rewrite !Nat2Z.id in Ef, Ns.
    exists f, s. split; [exact Ef|]. split.
    { specialize (S1 pt Hg). unfold ser in S1. rewrite Es in S1. exact S1. }
    split; [exact Ns|].
    destruct (In_nth_error _ _ Hg) as (n & Hn).
    specialize (S2 pt (fof_nat (i * j mod length options))). apply S2.
    apply (nth_error_In _ n), nth_error_combine; [exact Hn|]. rewrite nth_error_map, Hn. cbn [option_map pt fst snd]. rewrite !Nat2Z.id. reflexivity.
Qed.

(** without functions there is nothing to take, and series shorter than seven have no room for the delay *)
Theorem C140_refusals : forall pad noise junk series_n x_len y_len series_len options, 0 < series_n -> 0 < x_len -> 0 < y_len ->
  (options = [] -> alternating_functions_1d pad noise series_n series_len options = Raise ZeroDivisionError /\
                   alternating_functions_2d pad noise junk x_len y_len series_len options = Raise ZeroDivisionError) /\
  (options <> [] -> series_len < 7 -> alternating_functions_1d pad noise series_n series_len options = Raise ValueError /\
                                      alternating_functions_2d pad noise junk x_len y_len series_len options = Raise ValueError).
Proof.
  intros pad noise junk n x y len options Hn Hx Hy.
  assert (G : exists rest, list_of_2d_points (Z.of_nat x) (Z.of_nat y) = (0, 0)%Z :: rest).
  { rewrite list_of_2d_points_grid. destruct x; [lia|]. destruct y; [lia|]. eexists. reflexivity. }
  destruct G as (rest & G). split.
  - intros ->. split.
    + unfold alternating_functions_1d. destruct n; [lia|]. reflexivity.
    + unfold alternating_functions_2d. rewrite G. reflexivity.
  - intros Ho Hl. destruct (option_at_in options 0 Ho) as (f & _ & Ef). split.
    + unfold alternating_functions_1d. destruct n; [lia|]. cbn [seq mapM]. rewrite Ef. cbn [bind]. unfold delayed. rewrite C107_short by exact Hl. reflexivity.
    + unfold alternating_functions_2d. rewrite G. cbn [foldM fst snd Z.to_nat Nat.mul Nat.add]. rewrite Ef. cbn [bind]. unfold delayed. rewrite C107_short by exact Hl. reflexivity.
Qed.

Lemma odd_seq y : length (filter Nat.odd (seq 0 y)) = y / 2.
Proof.
  induction y as [|y IH]; [reflexivity|]. rewrite seq_S, filter_app, app_length, IH. cbn [filter plus].
  destruct (Nat.odd y) eqn:E; cbn [length].
  - apply Nat.odd_spec in E. destruct E as (m & ->). rewrite <- (Nat.div_unique (2 * m + 1) 2 m 1), <- (Nat.div_unique (S (2 * m + 1)) 2 (m + 1) 0); lia.
  - rewrite <- Nat.negb_even in E. apply Bool.negb_false_iff, Nat.even_spec in E. destruct E as (m & ->).
    rewrite <- (Nat.div_unique (2 * m) 2 m 0), <- (Nat.div_unique (S (2 * m)) 2 m 1); lia.
Qed.
Lemma filter_ext_len {A} (f g : A -> bool) l : (forall a, In a l -> f a = g a) -> length (filter f l) = length (filter g l).
Proof. intros H. erewrite filter_ext_in; eauto. Qed.
Lemma count_flat {A B} (f : B -> bool) (g : A -> list B) l : length (filter f (flat_map g l)) = list_sum (map (fun a => length (filter f (g a))) l).
Proof. induction l as [|a l IH]; cbn [flat_map map list_sum fold_right]; [reflexivity|]. rewrite filter_app, app_length, IH. reflexivity. Qed.
Lemma sum_if_odd c l : list_sum (map (fun i => if Nat.odd i then c else 0) l) = length (filter Nat.odd l) * c.
Proof. induction l as [|a l IH]; [reflexivity|]. cbn [map list_sum fold_right filter]. fold (list_sum (map (fun i => if Nat.odd i then c else 0) l)). rewrite IH. destruct (Nat.odd a); cbn [length]; lia. Qed.

(** with two functions, the second one is used at the points with two odd coordinates only: about a quarter of them *)
Theorem C140_second_of_two : forall pad noise junk x_len y_len series_len options, valid_pads pad -> 7 <= series_len -> length options = 2 ->
  exists spt mask, alternating_functions_2d pad noise junk x_len y_len series_len options = Ok (spt, mask) /\
    points_with x_len y_len mask 1 = (x_len / 2) * (y_len / 2).
Proof.
  intros pad noise junk x y len options Hp Hl Ho. assert (N : options <> []) by (intros ->; discriminate).
  destruct (C140_region pad noise junk x y len options Hp Hl N) as (spt & mask & E & _ & _ & _ & _ & _ & _ & _ & V).
  exists spt, mask. split; [exact E|]. unfold points_with, grid. rewrite count_flat.
  rewrite <- (odd_seq x), <- sum_if_odd. f_equal. apply map_ext_in. intros i Hi. apply in_seq in Hi.
  rewrite <- (odd_seq y). rewrite <- (map_length (fun j => (Z.of_nat i, Z.of_nat j)) (filter Nat.odd (seq 0 y))).
  assert (O : forall j, In j (seq 0 y) -> (match get2 mask (fst (Z.of_nat i, Z.of_nat j)) (snd (Z.of_nat i, Z.of_nat j)) with Ok u => feqb u (fof_nat 1) | Raise _ => false end) = Nat.odd i && Nat.odd j).
  { intros j Hj. apply in_seq in Hj. cbn [fst snd]. destruct (V i j) as (f & s & _ & _ & _ & ->); [lia|lia|]. rewrite Ho, <- Nat.odd_mul.
    pose proof (Nat.mod_upper_bound (i * j) 2 ltac:(lia)). pose proof (Nat.div_mod_eq (i * j) 2) as DM.
    destruct (i * j mod 2) as [|[|m]] eqn:Em; [| |lia].
    - transitivity false; [reflexivity|]. symmetry. rewrite <- Nat.negb_even. apply Bool.negb_false_iff, Nat.even_spec. exists (i * j / 2). lia.
    - transitivity true; [reflexivity|]. symmetry. apply Nat.odd_spec. exists (i * j / 2). lia. }
  clear V E. generalize (seq 0 y) O. intros l. induction l as [|j l IH]; intros O'; cbn [map filter].
  - destruct (Nat.odd i); reflexivity.
  - rewrite (O' j) by (left; reflexivity). rewrite (map_length _ (if Nat.odd j then _ else _)). specialize (IH (fun k Hk => O' k (or_intror Hk))).
    rewrite map_length in IH.
    destruct (Nat.odd i), (Nat.odd j); cbn [andb length]; rewrite ?IH; reflexivity.
Qed.

(** The documentation says that about the same number of points gets each function.  That is not so. *)
Theorem C140_same_share_refuted : ~ (forall pad noise junk x_len y_len series_len options spt mask,
  valid_pads pad -> alternating_functions_2d pad noise junk x_len y_len series_len options = Ok (spt, mask) ->
  forall a b, a < length options -> b < length options -> points_with x_len y_len mask a <= points_with x_len y_len mask b + Nat.max x_len y_len).
Proof.
  intros H. set (f := (fun _ _ => Fin 0) : profile). set (noise := (fun _ _ v _ => v) : nat -> nat -> fnum -> fnum -> fnum).
  destruct (alternating_functions_2d (fun _ _ => 0) noise (Fin 0) 8 8 7 [f; f; f]) as [[spt mask]|] eqn:E; [|vm_compute in E; discriminate].
  specialize (H _ _ _ _ _ _ _ _ _ (fun _ _ Hn => Hn) E 0 1 ltac:(cbn; lia) ltac:(cbn; lia)).
  vm_compute in E. injection E as _ <-. vm_compute in H. lia.
Qed.

Section Clustering.
Context (measure : list fnum -> list fnum -> fnum) (group : list (list fnum)) (M : mat).
Context (HS : square (length group) M) (HE : forall i j a b, nth_error group i = Some a -> nth_error group j = Some b -> Spec.Distance.entry M i j = Some (measure a b)).
Local Notation D := (DMatrix (arr2_of_mat M)).
Lemma group_instance : instance group D.
Proof. unfold instance. apply arr2_of_square, HS. Qed.
Lemma group_dist i j a b : nth_error group i = Some a -> nth_error group j = Some b -> sample_dist group D i j = measure a b.
Proof.
  intros Ha Hb. unfold sample_dist. rewrite (arr2_of_entry (length group) M i j (measure a b) HS); [reflexivity| | |auto].
  - apply nth_error_Some; congruence.
  - apply nth_error_Some; congruence.
Qed.
Lemma group_no_nan : (forall a b, In a group -> In b group -> is_nan (measure a b) = false) -> dist_no_nan group D.
Proof.
  intros H m i Hm Hi. destruct (nth_error_lt_some group m Hm) as [a Ha]. destruct (nth_error_lt_some group i Hi) as [b Hb].
  rewrite (group_dist m i a b Ha Hb). apply H; eapply nth_error_In; eauto.
Qed.
End Clustering.

Lemma colors_of (group : list (list fnum)) len labels k : k <= 7 -> length labels = length group -> (forall s, In s group -> length s = len) -> (forall l, In l labels -> l < k) ->
  plot_series_group_by_color group len (map Z.of_nat labels) = Ok (map (fun '(s, l) => (s, nth l palette ""%string)) (combine group labels)).
Proof.
  intros Hk Hl Hs Hc.
  destruct (C103_series_colors _ group len (map Z.of_nat labels)) as (drawn & Ed & _ & _).
  { rewrite map_length. exact Hl. } { exact Hs. } { intros c Hc'. apply in_map_iff in Hc'. destruct Hc' as (l & <- & Hl'). specialize (Hc l Hl'). lia. }
  unfold plot_series_group_by_color in *. destruct (length palette <? length (nodup Z.eq_dec (map Z.of_nat labels))) eqn:E; [discriminate|]. clear E Ed drawn.
  unfold enumerate. 
  assert (G : forall pre, mapM (fun '(index, series) => c <- getitem (map Z.of_nat (pre ++ labels)) (Z.of_nat index) ;; name <- getitem palette c ;;
                 if length series =? len then Ok (series, name) else Raise ValueError) (combine (seq (length pre) (length group)) group)
          = Ok (map (fun '(s, l) => (s, nth l palette ""%string)) (combine group labels))).
  { revert labels Hl Hc. induction group as [|s g IH]; intros labels Hl Hc pre; [reflexivity|].
    destruct labels as [|l labels]; [discriminate|]. cbn [length seq combine mapM map].
    rewrite (getitem_in _ _ (Z.of_nat l)) by (rewrite nth_error_map, nth_error_app2, Nat.sub_diag by lia; reflexivity). cbn [bind].
    assert (L : l < 7) by (specialize (Hc l (or_introl eq_refl)); lia).
    rewrite (getitem_in palette l (nth l palette ""%string)) by (apply nth_error_nth'; cbn; lia). cbn [bind].
    rewrite (Hs s (or_introl eq_refl)), Nat.eqb_refl. cbn [bind].
    specialize (IH (fun x Hx => Hs x (or_intror Hx)) labels ltac:(cbn in Hl; lia) (fun x Hx => Hc x (or_intror Hx)) (pre ++ [l])).
    rewrite app_length in IH. cbn [length] in IH. rewrite Nat.add_1_r, <- app_assoc in IH. cbn [app] in IH. rewrite IH. reflexivity. }
  exact (G []).
Qed.

(** The clustering of the series: the medoids are as many different series as there are functions; every series is in the cluster of a nearest
    medoid and is drawn in the colour of its cluster.  It fails only in the report, and only if the search ends with a cluster without series. *)
Theorem C140_clusters : forall pad noise measure junk choice series_n series_len options ms0,
  valid_pads pad -> 7 <= series_len -> 0 < length options <= 7 ->
  choice series_n (Z.of_nat (length options)) = Ok ms0 -> length ms0 = length options -> NoDup ms0 -> (forall m, In m ms0 -> (0 <= m < Z.of_nat series_n)%Z) ->
  exists group, alternating_functions_1d pad noise series_n series_len options = Ok group /\
    ((forall a b, In a group -> In b group -> is_nan (measure a b) = false) ->
     exists medoids labels, length medoids = length options /\ NoDup medoids /\ (forall m, In m medoids -> m < series_n) /\ length labels = series_n /\
       (forall i series, nth_error group i = Some series -> exists label m medoid,
          nth_error labels i = Some label /\ nth_error medoids label = Some m /\ nth_error group m = Some medoid /\
          forall m' medoid', In m' medoids -> nth_error group m' = Some medoid' -> fle (measure medoid series) (measure medoid' series) = true) /\
       cluster_series pad noise measure junk choice series_n series_len options =
         if forallb (fun j => existsb (Nat.eqb j) labels) (seq 0 (length options))
         then Ok (map Z.of_nat medoids, labels, map (fun '(s, l) => (s, nth l ["b"; "g"; "r"; "c"; "m"; "y"; "k"] ""))%string (combine group labels))
         else Raise IndexError) /\
    (* ... which does not happen if different series are apart *)
    ((forall a b, In a group -> In b group -> is_nan (measure a b) = false) -> (forall a, In a group -> feqb (measure a a) (Fin 0) = true) ->
     (forall i j a b, nth_error group i = Some a -> nth_error group j = Some b -> i <> j -> flt (Fin 0) (measure a b) = true) ->
     exists result, cluster_series pad noise measure junk choice series_n series_len options = Ok result).
Proof.
  intros pad noise measure junk choice n len options ms0 Hp Hl Hk Hc Lm Nd Hv. assert (Ho : options <> []) by (intros ->; cbn in Hk; lia).
  destruct (C140_series pad noise n len options Hp Hl Ho) as (group & Eg & Lg & V). exists group. split; [exact Eg|].
  destruct (series_array_matrix measure junk group) as (M & EM & HS & HE).
  set (D := DMatrix (arr2_of_mat M)). set (k := length options) in *.
  pose proof (group_instance group M HS) as HI. fold D in HI.
  assert (SF : starts_from choice group k None ms0).
  { split; [rewrite Lg; exact Hc|]. split; [exact Lm|]. split; [lia|]. intros m Hm. rewrite Lg. apply Hv, Hm. }
  destruct (C74_report_fails_exactly_on_empty_cluster choice group k D None Lite 1000 (Fin (1 # 1000)) ms0 HI eq_refl ltac:(discriminate) SF) as (r & Er & R1 & R2).
  destruct (C28_medoids_stay_valid choice group k D None Lite 1000 (Fin (1 # 1000)) false ms0 r HI eq_refl ltac:(discriminate) SF Nd Er) as (M1 & M2 & M3).
  assert (LS : forall s, In s group -> length s = len).
  { intros s Hs. destruct (In_nth_error _ _ Hs) as (i & Hi). destruct (V i) as (f & s' & _ & E & (L & _)); [rewrite <- Lg; apply nth_error_Some; congruence|]. congruence. }
  assert (RUN : cluster_series pad noise measure junk choice n len options =
     (result <- run_kmedoids choice group (Z.of_nat k) D None Lite 1000 (Fin (1 # 1000)) true ;;
      drawn <- plot_series_group_by_color group len (map Z.of_nat (c_labels (r_cost result))) ;; Ok (r_medoids result, c_labels (r_cost result), drawn))).
  { unfold cluster_series. rewrite Eg. cbn [bind]. unfold plot_series_group.
    replace (forallb (fun s => length s =? len) group) with true by (symmetry; apply forallb_forall; intros s Hs; apply Nat.eqb_eq, LS, Hs).
    cbn [bind]. rewrite EM. reflexivity. }
  assert (BK : map Z.of_nat (map Z.to_nat (r_medoids r)) = r_medoids r).
  { rewrite map_map. rewrite <- (map_id (r_medoids r)) at 2. apply map_ext_in. intros m Hm. specialize (M3 m Hm). lia. }
  assert (COL : dist_no_nan group D -> plot_series_group_by_color group len (map Z.of_nat (c_labels (r_cost r))) =
      Ok (map (fun '(s, l) => (s, nth l palette ""%string)) (combine group (c_labels (r_cost r))))).
  { intros HNN. pose proof (C27_result_consistent choice group k D None Lite 1000 (Fin (1 # 1000)) false ms0 r HI HNN eq_refl ltac:(discriminate) SF Er) as (C1 & C2 & _).
    apply (colors_of group len (c_labels (r_cost r)) k); [lia|congruence|exact LS|].
    intros l Hin. destruct (In_nth_error _ _ Hin) as (i & Hi). assert (Hin' : i < length group) by (rewrite <- C1; apply nth_error_Some; congruence).
    destruct (C2 i Hin') as (L & _). rewrite M1 in L. rewrite (nth_error_nth _ _ _ Hi) in L. exact L. }
  split; intros HN.
  2: { pose proof (group_no_nan measure group M HS HE HN) as HNN. fold D in HNN. intros H0 Hpos.
    destruct (C30_medoid_in_own_cluster choice group k D None Lite 1000 (Fin (1 # 1000)) false ms0 r HI HNN eq_refl ltac:(discriminate) SF Nd Er) as (_ & Hall).
    - intros a Ha. specialize (M3 a Ha). destruct (nth_error_lt_some group (Z.to_nat a) ltac:(lia)) as [sa Hsa].
      unfold D. rewrite (group_dist measure group M HS HE _ _ _ _ Hsa Hsa). apply H0. eapply nth_error_In; eauto.
    - intros a b Ha Hb Hab. pose proof (M3 a Ha) as Ra. pose proof (M3 b Hb) as Rb. destruct (nth_error_lt_some group (Z.to_nat a) ltac:(lia)) as [sa Hsa].
      destruct (nth_error_lt_some group (Z.to_nat b) ltac:(lia)) as [sb Hsb]. unfold D. rewrite (group_dist measure group M HS HE _ _ _ _ Hsa Hsb).
      apply (Hpos _ _ _ _ Hsa Hsb). lia.
    - rewrite RUN, (R1 Hall). cbn [bind]. rewrite (COL HNN). eexists. reflexivity. }
  pose proof (group_no_nan measure group M HS HE HN) as HNN. fold D in HNN.
  pose proof (C27_result_consistent choice group k D None Lite 1000 (Fin (1 # 1000)) false ms0 r HI HNN eq_refl ltac:(discriminate) SF Er) as (C1 & C2 & _).
  exists (map Z.to_nat (r_medoids r)), (c_labels (r_cost r)).
  split; [rewrite map_length; exact M1|]. split; [apply (NoDup_map_inv Z.of_nat); rewrite BK; exact M2|].
  split. { intros m Hm. apply in_map_iff in Hm. destruct Hm as (z & <- & Hz). specialize (M3 z Hz). lia. }
  split; [congruence|]. split.
  - intros i s Hs. assert (Hi : i < n) by (rewrite <- Lg; apply nth_error_Some; congruence).
    destruct (C2 i) as (L1 & L2 & _); [lia|]. rewrite M1 in *. set (l := nth i (c_labels (r_cost r)) k) in *.
    assert (El : nth_error (c_labels (r_cost r)) i = Some l) by (unfold l; apply nth_error_nth'; lia).
    destruct (nth_error_lt_some (r_medoids r) l ltac:(lia)) as [z Hz]. assert (Vz : In z (r_medoids r)) by (eapply nth_error_In; eauto).
    pose proof (M3 z Vz) as Rz. destruct (nth_error_lt_some group (Z.to_nat z) ltac:(lia)) as [sm Hsm].
    exists l, (Z.to_nat z), sm. split; [exact El|]. split; [rewrite nth_error_map, Hz; reflexivity|]. split; [exact Hsm|].
    intros m' sm' Hm' Hsm'. apply in_map_iff in Hm'. destruct Hm' as (z' & <- & Hz'). destruct (In_nth_error _ _ Hz') as (j & Hj).
    assert (J : j < k) by (rewrite <- M1; apply nth_error_Some; congruence). specialize (L2 j J). unfold dist_j in L2.
    rewrite (nth_error_nth _ _ _ Hz), (nth_error_nth _ _ _ Hj) in L2. unfold D in L2.
    rewrite (group_dist measure group M HS HE _ _ _ _ Hsm Hs), (group_dist measure group M HS HE _ _ _ _ Hsm' Hs) in L2. exact L2.
  - rewrite RUN, BK. destruct (forallb (fun j => existsb (Nat.eqb j) (c_labels (r_cost r))) (seq 0 k)) eqn:F.
    + rewrite R1.
      * cbn [bind]. rewrite (COL HNN). reflexivity.
      * intros j Hj. rewrite forallb_forall in F. specialize (F j). rewrite in_seq in F. specialize (F ltac:(lia)). apply existsb_exists in F.
        destruct F as (x & Hx & Ex). apply Nat.eqb_eq in Ex. subst. exact Hx.
    + rewrite R2; [reflexivity|]. clear -F.
      assert (G : exists j, In j (seq 0 k) /\ existsb (Nat.eqb j) (c_labels (r_cost r)) = false).
      { induction (seq 0 k) as [|j l IH]; [discriminate|]. cbn [forallb] in F. destruct (existsb (Nat.eqb j) (c_labels (r_cost r))) eqn:E.
        - destruct (IH F) as (x & Hx & Ex). exists x. split; [right|]; auto.
        - exists j. split; [left|]; auto. }
      destruct G as (j & Hj & Ej). exists j. apply in_seq in Hj. split; [lia|]. intros Hin.
      assert (existsb (Nat.eqb j) (c_labels (r_cost r)) = true) by (apply existsb_exists; exists j; split; [exact Hin|apply Nat.eqb_refl]). congruence.
Qed.

(** the example program: eighteen series of length 200 from the sine, the square and the bell curve *)
Theorem C140_example_program : forall pad noise sin2pi pdf measure junk choice ms0, valid_pads pad ->
  choice 18 3%Z = Ok ms0 -> length ms0 = 3 -> NoDup ms0 -> (forall m, In m ms0 -> (0 <= m < 18)%Z) ->
  exists group, alternating_functions_1d pad noise 18 200 (function_options sin2pi pdf) = Ok group /\
    ((forall a b, In a group -> In b group -> is_nan (measure a b) = false) -> (forall a, In a group -> feqb (measure a a) (Fin 0) = true) ->
     (forall i j a b, nth_error group i = Some a -> nth_error group j = Some b -> i <> j -> flt (Fin 0) (measure a b) = true) ->
     exists result, example1d pad noise sin2pi pdf measure junk choice = Ok result).
Proof.
  intros pad noise sin2pi pdf measure junk choice ms0 Hp Hc Lm Nd Hv.
  destruct (C140_clusters pad noise measure junk choice 18 200 (function_options sin2pi pdf) ms0 Hp ltac:(lia) ltac:(cbn; lia) Hc Lm Nd Hv) as (group & Eg & _ & H).
  exists group. split; [exact Eg|exact H].
Qed.

(** the square wave: with a sine that is positive in the first half of its period and negative in the second, it is 1 in the first half of the
    places after the first one and -1 in the second half *)
Theorem C140_square_wave : forall sin2pi n j,
  (forall q, (0 < q < 1 # 2)%Q -> flt (Fin 0) (sin2pi q) = true) -> (forall q, (1 # 2 < q < 1)%Q -> flt (sin2pi q) (Fin 0) = true) ->
  (0 < j -> 2 * j < n -> square_function sin2pi j n = Fin 1) /\ (n < 2 * j -> j < n -> square_function sin2pi j n = Fin (-1)).
Proof.
  intros sin2pi n j Hpos Hneg. unfold square_function, sine_function, fsign.
  set (q := (inject_Z (Z.of_nat j) / inject_Z (Z.of_nat n))%Q).
  assert (B : 0 < n -> forall a b, (inject_Z a * inject_Z (Z.of_nat n) < inject_Z (Z.of_nat j) * inject_Z b)%Q -> (0 < b)%Z -> (inject_Z a / inject_Z b < q)%Q).
  { intros Hn a b H Hb. apply Qlt_shift_div_l; [change 0%Q with (inject_Z 0); rewrite <- Zlt_Qlt; lia|].
    setoid_replace (inject_Z a / inject_Z b * inject_Z (Z.of_nat n))%Q with (inject_Z a * inject_Z (Z.of_nat n) / inject_Z b)%Q.
    - apply Qlt_shift_div_r; [change 0%Q with (inject_Z 0); rewrite <- Zlt_Qlt; lia|exact H].
    - field. change 0%Q with (inject_Z 0). rewrite inject_Z_injective. lia. }
  assert (B' : 0 < n -> forall a b, (inject_Z (Z.of_nat j) * inject_Z b < inject_Z a * inject_Z (Z.of_nat n))%Q -> (0 < b)%Z -> (q < inject_Z a / inject_Z b)%Q).
  { intros Hn a b H Hb. apply Qlt_shift_div_r; [change 0%Q with (inject_Z 0); rewrite <- Zlt_Qlt; lia|].
    setoid_replace (inject_Z a / inject_Z b * inject_Z (Z.of_nat n))%Q with (inject_Z a * inject_Z (Z.of_nat n) / inject_Z b)%Q.
    - apply Qlt_shift_div_l; [change 0%Q with (inject_Z 0); rewrite <- Zlt_Qlt; lia|exact H].
    - field. change 0%Q with (inject_Z 0). rewrite inject_Z_injective. lia. }
  split; intros H1 H2.
  - assert (P : flt (Fin 0) (sin2pi q) = true).
    { apply Hpos. split; [apply (B ltac:(lia) 0%Z 1%Z)|apply (B' ltac:(lia) 1%Z 2%Z)]; try lia; rewrite <- !inject_Z_mult, <- Zlt_Qlt; lia. }
    pose proof (flt_not_nan _ _ P) as [_ N]. rewrite N. destruct (flt (sin2pi q) (Fin 0)) eqn:F; [|rewrite P; reflexivity].
    pose proof (flt_trans _ _ _ P F) as T. discriminate T.
  - assert (P : flt (sin2pi q) (Fin 0) = true).
    { apply Hneg. split; [apply (B ltac:(lia) 1%Z 2%Z)|apply (B' ltac:(lia) 1%Z 1%Z)]; try lia; rewrite <- !inject_Z_mult, <- Zlt_Qlt; lia. }
    pose proof (flt_not_nan _ _ P) as [N _]. rewrite N, P. reflexivity.
Qed.

(** the bell curve is the density at places from -3 on, six in all: it is the same at equal distances from the middle *)
Theorem C140_bell : forall pdf n j, (forall a b, (a == b)%Q -> pdf a = pdf b) -> (forall a, pdf (- a)%Q = pdf a) -> 0 < n -> j <= n ->
  gaussian_function pdf j n = gaussian_function pdf (n - j) n /\ gaussian_function pdf 0 n = pdf (3 # 1)%Q /\
  (2 * j = n -> gaussian_function pdf j n = pdf 0%Q).
Proof.
  intros pdf n j He Hs Hn Hj. unfold gaussian_function.
  assert (Z : ~ (inject_Z (Z.of_nat n) == 0)%Q) by (change 0%Q with (inject_Z 0); rewrite inject_Z_injective; lia).
  split; [|split].
  - rewrite <- Hs. apply He. rewrite Nat2Z.inj_sub by lia. unfold Z.sub. rewrite inject_Z_plus, inject_Z_opp. field. exact Z.
  - rewrite <- (Hs (3 # 1)%Q). apply He. change (inject_Z (Z.of_nat 0)) with 0%Q. field. exact Z.
  - intros H. apply He. rewrite <- H, Nat2Z.inj_mul, inject_Z_mult. change (inject_Z (Z.of_nat 2)) with 2%Q. field.
    change 0%Q with (inject_Z 0). rewrite inject_Z_injective. lia.
Qed.

Example C140_ex_profiles :
  let wave := fun q : Q => Fin ((1 # 2) - q)%Q in let bell := fun a : Q => Fin (Qred (a * a)) in
  (forall q, (0 < q < 1 # 2)%Q -> flt (Fin 0) (wave q) = true) /\ (forall q, (1 # 2 < q < 1)%Q -> flt (wave q) (Fin 0) = true) /\
  map (fun j => square_function wave j 4) [1; 3] = [Fin 1; Fin (-1)] /\
  (forall a b, (a == b)%Q -> bell a = bell b) /\ (forall a, bell (- a)%Q = bell a) /\
  gaussian_function bell 1 4 = gaussian_function bell 3 4 /\ gaussian_function bell 2 4 = Fin 0 /\ gaussian_function bell 0 4 = Fin 9.
Proof.
  cbn zeta. split; [|split; [|split; [reflexivity|split; [|split; [|split; [reflexivity|split; reflexivity]]]]]].
  - intros q [H1 H2]. apply flt_Fin. unfold Qminus. rewrite <- Qlt_minus_iff. exact H2.
  - intros q [H1 H2]. apply flt_Fin. apply Qlt_minus_iff. setoid_replace (0 + - ((1 # 2) - q))%Q with (q + - (1 # 2))%Q by ring. rewrite <- Qlt_minus_iff. exact H1.
  - intros a b H. f_equal. apply Qred_complete. rewrite H. reflexivity.
  - intros a. f_equal. apply Qred_complete. ring.
Qed.

(** an example: six series of length seven from two functions, with the distance of their sums *)
Definition ex140_measure (a b : list fnum) : fnum := fabs (fsub (fsum a) (fsum b)).
Definition ex140_noise (c j : nat) (v s : fnum) : fnum := if j =? 0 then fadd v (fmul (fof_nat c) s) else v.
Definition ex140_choice (n : nat) (k : Z) : res (list Z) := Ok (zrange 0 k).
Example C140_ex : valid_pads (fun _ _ => 0) /\ ex140_choice 6 2 = Ok [0; 1]%Z /\
  exists medoids labels drawn group,
    alternating_functions_1d (fun _ _ => 0) ex140_noise 6 7 [(fun _ _ => Fin 0); (fun _ _ => Fin 1)] = Ok group /\
    cluster_series (fun _ _ => 0) ex140_noise ex140_measure NaN ex140_choice 6 7 [(fun _ _ => Fin 0); (fun _ _ => Fin 1)] = Ok (medoids, labels, drawn) /\
    labels = [0; 1; 0; 1; 0; 1] /\ map snd drawn = ["b"; "g"; "b"; "g"; "b"; "g"]%string /\ map fst drawn = group /\
    (forall a b, In a group -> In b group -> is_nan (ex140_measure a b) = false).
Proof.
  split; [intros c n H; exact H|]. split; [reflexivity|]. do 4 eexists. split; [vm_compute; reflexivity|]. split; [vm_compute; reflexivity|].
  split; [reflexivity|]. split; [reflexivity|]. split; [reflexivity|].
  intros a b Ha Hb. repeat (destruct Ha as [<-|Ha]; [repeat (destruct Hb as [<-|Hb]; [reflexivity|]); destruct Hb|]). destruct Ha.
Qed.

Print Assumptions C140_square_wave.
Print Assumptions C140_bell.
Print Assumptions C140_series.
Print Assumptions C140_region.
Print Assumptions C140_refusals.
Print Assumptions C140_second_of_two.
Print Assumptions C140_same_share_refuted.
Print Assumptions C140_clusters.
Print Assumptions C140_example_program.
