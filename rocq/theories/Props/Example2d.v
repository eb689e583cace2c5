(** C141: the region of the second k-medoids example and its best clustering. *)
From Coq Require Import String QArith ZifyBool ZifyNat.
From Verif Require Import Base.Py Base.PyFacts Base.Arr Base.ArrFacts Base.Float Base.FloatFacts Spec.Grid Spec.Medoids Spec.Distance Spec.Plots Spec.Examples Spec.SilhouetteProgram Spec.Example2d
  Model.Region Model.Distance Model.KMedoids Model.Algorithms Model.Plots Model.Synthetic Model.Examples Model.Example2d
  Proofs.RegionFacts Proofs.PartitionFacts Proofs.DistanceFacts Proofs.AlgorithmFacts Proofs.DistanceObjFacts Proofs.PlotsFacts Props.KMedoids Props.Plots Props.Synthetic Props.Examples Props.SilhouetteProgram.
Local Close Scope Q_scope.
Local Open Scope nat_scope.
Local Notation length := List.length.

(* ---------------------------------------------------------------- C141 *)
Section Clustering.
Context (measure : list fnum -> list fnum -> fnum) (X : list (list fnum)).
Context (HN : forall a b, In a X -> In b X -> is_nan (measure a b) = false) (H0 : forall a, In a X -> feqb (measure a a) (Fin 0) = true).
Context (Hpos : forall i j a b, nth_error X i = Some a -> nth_error X j = Some b -> i <> j -> flt (Fin 0) (measure a b) = true).
Definition all_distances : mat := Mat (length X) (map (fun a => map (measure a) X) X).
Local Notation M := all_distances.
Lemma all_square : square (length X) M.
Proof. apply square_map; [reflexivity|]. intros. apply map_length. Qed.
Lemma all_entry i j a b : nth_error X i = Some a -> nth_error X j = Some b -> Spec.Distance.entry M i j = Some (measure a b).
Proof. intros Ha Hb. unfold Spec.Distance.entry, all_distances. cbn [m_rows]. rewrite nth_error_map, Ha. cbn [option_map]. rewrite nth_error_map, Hb. reflexivity. Qed.
Local Notation D := (DMatrix (arr2_of_mat M)).

Lemma kmedoids_found choice k ms0 : 0 < k -> choice (length X) (Z.of_nat k) = Ok ms0 -> length ms0 = k -> NoDup ms0 -> (forall m, In m ms0 -> (0 <= m < Z.of_nat (length X))%Z) ->
  exists r medoids, run_kmedoids choice X (Z.of_nat k) D None Lite 1000 (Fin (1 # 1000)) true = Ok r /\ r_medoids r = map Z.of_nat medoids /\
    nearest_clusters measure X k medoids (c_labels (r_cost r)) /\ forall l, In l (c_labels (r_cost r)) -> l < k.
Proof.
  intros Hk Hc Lm Nd Hv.
  pose proof (group_instance X M all_square) as HI. pose proof (group_no_nan measure X M all_square all_entry HN) as HNN.
  assert (SF : starts_from choice X k None ms0).
  { split; [exact Hc|]. split; [exact Lm|]. split; [lia|]. intros m Hm. apply Hv, Hm. }
  destruct (C74_report_fails_exactly_on_empty_cluster choice X k D None Lite 1000 (Fin (1 # 1000)) ms0 HI eq_refl ltac:(discriminate) SF) as (r & Er & R1 & _).
  destruct (C28_medoids_stay_valid choice X k D None Lite 1000 (Fin (1 # 1000)) false ms0 r HI eq_refl ltac:(discriminate) SF Nd Er) as (M1 & M2 & M3).
  pose proof (C27_result_consistent choice X k D None Lite 1000 (Fin (1 # 1000)) false ms0 r HI HNN eq_refl ltac:(discriminate) SF Er) as (C1 & C2 & _).
  destruct (C30_medoid_in_own_cluster choice X k D None Lite 1000 (Fin (1 # 1000)) false ms0 r HI HNN eq_refl ltac:(discriminate) SF Nd Er) as (_ & Hall).
  { intros a Ha. specialize (M3 a Ha). destruct (nth_error_lt_some X (Z.to_nat a) ltac:(lia)) as [sa Hsa].
    rewrite (group_dist measure X M all_square all_entry _ _ _ _ Hsa Hsa). apply H0. eapply nth_error_In; eauto. }
  { intros a b Ha Hb Hab. pose proof (M3 a Ha) as Ra. pose proof (M3 b Hb) as Rb. destruct (nth_error_lt_some X (Z.to_nat a) ltac:(lia)) as [sa Hsa].
    destruct (nth_error_lt_some X (Z.to_nat b) ltac:(lia)) as [sb Hsb]. rewrite (group_dist measure X M all_square all_entry _ _ _ _ Hsa Hsb).
    apply (Hpos _ _ _ _ Hsa Hsb). lia. }
  assert (BK : map Z.of_nat (map Z.to_nat (r_medoids r)) = r_medoids r).
  { rewrite map_map. rewrite <- (map_id (r_medoids r)) at 2. apply map_ext_in. intros m Hm. specialize (M3 m Hm). lia. }
  exists r, (map Z.to_nat (r_medoids r)). split; [apply R1, Hall|]. split; [auto|]. split.
  - split; [rewrite map_length; exact M1|]. split; [apply (NoDup_map_inv Z.of_nat); rewrite BK; exact M2|].
    split. { intros m Hm. apply in_map_iff in Hm. destruct Hm as (z & <- & Hz). specialize (M3 z Hz). lia. }
    split; [exact C1|]. split; [exact Hall|].
    intros i s Hs. assert (Hi : i < length X) by (apply nth_error_Some; congruence).
    destruct (C2 i Hi) as (L1 & L2 & _). rewrite M1 in *. set (l := nth i (c_labels (r_cost r)) k) in *.
    assert (El : nth_error (c_labels (r_cost r)) i = Some l) by (unfold l; apply nth_error_nth'; lia).
    destruct (nth_error_lt_some (r_medoids r) l ltac:(lia)) as [z Hz]. assert (Vz : In z (r_medoids r)) by (eapply nth_error_In; eauto).
    pose proof (M3 z Vz) as Rz. destruct (nth_error_lt_some X (Z.to_nat z) ltac:(lia)) as [sm Hsm].
    exists l, (Z.to_nat z), sm. split; [exact El|]. split; [rewrite nth_error_map, Hz; reflexivity|]. split; [exact Hsm|].
    intros m' sm' Hm' Hsm'. apply in_map_iff in Hm'. destruct Hm' as (z' & <- & Hz'). destruct (In_nth_error _ _ Hz') as (j & Hj).
    assert (J : j < k) by (rewrite <- M1; apply nth_error_Some; congruence). specialize (L2 j J). unfold dist_j in L2.
    rewrite (nth_error_nth _ _ _ Hz), (nth_error_nth _ _ _ Hj) in L2.
    rewrite (group_dist measure X M all_square all_entry _ _ _ _ Hsm Hs), (group_dist measure X M all_square all_entry _ _ _ _ Hsm' Hs) in L2. exact L2.
  - intros l Hin. destruct (In_nth_error _ _ Hin) as (i & Hi). assert (Hin' : i < length X) by (rewrite <- C1; apply nth_error_Some; congruence).
    destruct (C2 i Hin') as (L & _). rewrite M1 in L. rewrite (nth_error_nth _ _ _ Hi) in L. exact L.
Qed.
End Clustering.

Lemma labels_are_nat labels k : (forall j, j < k -> In j labels) -> (forall l, In l labels -> l < k) -> labels_are (map Z.of_nat labels) k.
Proof.
  intros H1 H2 l. rewrite in_map_iff. split.
  - intros (n & <- & Hn). specialize (H2 n Hn). lia.
  - intros Hl. exists (Z.to_nat l). split; [lia|]. apply H1. lia.
Qed.

(** the picture of the mask: the colours of numbers up to [top], each number divided by the number of numbers *)
Lemma mask_picture {color} (cmap : fnum -> color) mask x y (v : nat -> nat -> nat) : 0 < x -> 0 < y -> wf2 mask -> a2x mask = x -> a2y mask = y ->
  (forall i j, i < x -> j < y -> get2 mask (Z.of_nat i) (Z.of_nat j) = Ok (fof_nat (v i j))) ->
  exists picture top, mask_colors cmap mask = Ok picture /\ a2x picture = x /\ a2y picture = y /\
    (exists i j, i < x /\ j < y /\ v i j = top) /\
    forall i j, i < x -> j < y -> v i j <= top /\ get2 picture (Z.of_nat i) (Z.of_nat j) = Ok (cmap (fdiv (fof_nat (v i j)) (fof_nat (top + 1)))).
Proof.
  intros Hx Hy W Ex Ey V. unfold mask_colors.
  assert (IN : forall i j, i < x -> j < y -> In (fof_nat (v i j)) (a2d mask)).
  { intros i j Hi Hj. specialize (V i j Hi Hj). rewrite get2_nat in V by lia. destruct (at2 mask i j) as [u|] eqn:E; [|discriminate].
    injection V as ->. unfold at2 in E. eapply nth_error_In; eauto. }
  assert (OUT : forall u, In u (a2d mask) -> exists i j, i < x /\ j < y /\ u = fof_nat (v i j)).
  { intros u Hu. destruct (In_nth_error _ _ Hu) as (n & Hn). assert (Ln : n < x * y) by (rewrite <- Ex, <- Ey, <- W; apply nth_error_Some; congruence).
    exists (n / y), (n mod y). assert (B1 : n / y < x) by (apply Nat.div_lt_upper_bound; lia). assert (B2 : n mod y < y) by (apply Nat.mod_upper_bound; lia).
    split; [exact B1|]. split; [exact B2|]. specialize (V _ _ B1 B2). rewrite get2_nat in V by lia. unfold at2 in V. rewrite Ey in V.
    replace (n / y * y + n mod y) with n in V by (pose proof (Nat.div_mod_eq n y); lia). rewrite Hn in V. injection V as ->. reflexivity. }
  destruct (a2d mask) as [|u us] eqn:Ed; [destruct (IN 0 0 Hx Hy)|].
  assert (NN : forall w, In w (u :: us) -> is_nan w = false) by (intros w Hw; destruct (OUT w Hw) as (i & j & _ & _ & ->); reflexivity).
  destruct (fold_fmax2_spec us u (NN u (or_introl eq_refl)) (fun w Hw => NN w (or_intror Hw))) as (_ & MI & ML).
  destruct (OUT _ MI) as (ti & tj & Hti & Htj & Et). rewrite Et in *. set (top := v ti tj) in *.
  assert (T1 : fadd (fof_nat top) (Fin 1) = fof_nat (top + 1)).
  { unfold fadd, fof_nat, Qplus, inject_Z. cbn [Qnum Qden]. f_equal. f_equal. lia. }
  rewrite T1. eexists. exists top. split; [reflexivity|]. split; [exact Ex|]. split; [exact Ey|]. split; [exists ti, tj; auto|].
  intros i j Hi Hj. split.
  - specialize (ML _ (IN i j Hi Hj)). unfold fof_nat in ML. apply fle_Fin in ML. rewrite <- Zle_Qle in ML. lia.
  - specialize (V i j Hi Hj). rewrite get2_nat in V by lia. rewrite get2_nat by (cbn; lia). unfold at2 in *. cbn [a2x a2y a2d]. rewrite <- Ed.
    rewrite nth_error_map. destruct (nth_error (a2d mask) (i * a2y mask + j)); [|discriminate]. injection V as ->. reflexivity.
Qed.

Section Statements.
Context (color : Type) (cmap : fnum -> color) (is_black : color -> bool) (choice : Z -> nat -> Z -> res (list Z)).
Context (score : arr2 fnum -> list Z -> res fnum) (samples : arr2 fnum -> list Z -> res (list fnum)).
Context (pad : nat -> nat -> nat) (noise : nat -> nat -> fnum -> fnum -> fnum) (measure : list fnum -> list fnum -> fnum) (junk : fnum).
Local Notation program := (cluster_region cmap is_black choice score samples pad noise measure junk).

(** numpy's choice without replacement, and what scikit-learn accepts: at least two different labels, and fewer than there are points *)
Definition draws (n : nat) (s k : Z) : Prop :=
  exists start, choice s n k = Ok start /\ Z.of_nat (length start) = k /\ NoDup start /\ forall m, In m start -> (0 <= m < Z.of_nat n)%Z.
Definition scores : Prop := forall m labels, 2 <= length (nodup Z.eq_dec labels) < length labels ->
  exists v vs, score m labels = Ok v /\ samples m labels = Ok vs /\ length vs = length labels.

Theorem C141_best_clustering : forall x_len y_len series_len options ks seeds,
  valid_pads pad -> 7 <= series_len -> options <> [] -> 0 < x_len -> 0 < y_len -> scores ->
  (forall s k, In s seeds -> In k ks -> (2 <= k <= 7)%Z /\ (k < Z.of_nat (x_len * y_len))%Z /\ draws (x_len * y_len) s k) ->
  exists spt mask X, alternating_functions_2d pad noise junk x_len y_len series_len options = Ok (spt, mask) /\ own_series spt X /\
    ((forall a b, In a X -> In b X -> is_nan (measure a b) = false) -> (forall a, In a X -> feqb (measure a a) (Fin 0) = true) ->
     (forall i j a b, nth_error X i = Some a -> nth_error X j = Some b -> i <> j -> flt (Fin 0) (measure a b) = true) ->
     exists m medoids labels avg, own_matrix measure spt m /\
       (forall s k, In s seeds -> In k ks ->
          nearest_clusters measure X (Z.to_nat k) (medoids s k) (labels s k) /\ score m (map Z.of_nat (labels s k)) = Ok (avg s k)) /\
       (((forall s k, In s seeds -> In k ks -> flt (Fin (-1)) (avg s k) = false) /\ program x_len y_len series_len options ks seeds = Raise TypeError) \/
        exists s k picture top, first_best (all_runs seeds ks) avg s k /\
          program x_len y_len series_len options ks seeds =
            Ok (Outcome picture (SBest (avg s k) k (Some s) (Some (map Z.of_nat (medoids s k))) (Some (labels s k)))
                  (map (fun '(s, k) => graph_file "plots/silhouette" k s) (all_runs seeds ks))
                  (map (fun '(series, l) => (series, nth l ["b"; "g"; "r"; "c"; "m"; "y"; "k"] ""))%string (combine X (labels s k)))) /\
          a2x picture = x_len /\ a2y picture = y_len /\
          (exists i j, i < x_len /\ j < y_len /\ i * j mod length options = top) /\
          forall i j, i < x_len -> j < y_len -> i * j mod length options <= top /\
            get2 picture (Z.of_nat i) (Z.of_nat j) = Ok (cmap (fdiv (fof_nat (i * j mod length options)) (fof_nat (top + 1)))))).
Proof.
  intros x y len options ks seeds Hp Hl Ho Hx Hy Hsc Hd.
  destruct (C140_region pad noise junk x y len options Hp Hl Ho) as (spt & mask & E & W & Et & Ex & Ey & Wm & Mx & My & V).
  set (X := map (t_ser (TPlain spt)) (grid (a3x spt) (a3y spt))).
  exists spt, mask, X. split; [exact E|]. split; [apply own_series_map, W|]. intros HN H0 Hpos.
  assert (LX : length X = x * y) by (unfold X; rewrite map_length, grid_length; congruence).
  assert (LS : forall a, In a X -> length a = len).
  { intros a Ha. apply in_map_iff in Ha. destruct Ha as (p & <- & Hg). apply in_grid_iff in Hg. unfold t_ser. cbn [series_at t_data].
    destruct (series3_ok spt (fst p) (snd p) W (proj1 Hg) (proj2 Hg)) as (a & Ea & La & _). rewrite Ea. congruence. }
  destruct (mask_picture cmap mask x y (fun i j => i * j mod length options) Hx Hy Wm Mx My) as (picture & top & EP & P1 & P2 & P3 & P4).
  { intros i j Hi Hj. destruct (V i j Hi Hj) as (f & s & _ & _ & _ & G). exact G. }
  assert (EM : matrix_of_region measure junk (TPlain spt) = Ok (all_distances measure X)).
  { rewrite region_matrix_eq by exact W. unfold all_distances. rewrite LX, Ex, Ey. f_equal. f_equal. unfold X. rewrite map_map, Ex, Ey. apply map_ext. intros p. rewrite map_map. reflexivity. }
  set (m := arr2_of_mat (all_distances measure X)). set (md := default_silhouette ks seeds).
  assert (PROG : program x y len options ks seeds =
    ('(best, files) <- do_silhouette_analysis cmap is_black choice score samples X (Some m) (fun _ => Raise AssertionError) md x y ;;
     match b_labels best with None => Raise TypeError | Some labels => drawn <- plot_series_group_by_color X len (map Z.of_nat labels) ;; Ok (Outcome picture best files drawn) end)).
  { unfold cluster_region. rewrite E. cbn [bind]. rewrite EP. cbn [bind]. rewrite plain_as_list by exact W. cbn [bind]. fold X. unfold plot_series_group.
    replace (forallb (fun s => length s =? len) X) with true by (symmetry; apply forallb_forall; intros s Hs; apply Nat.eqb_eq, LS, Hs).
    cbn [bind]. rewrite EM. reflexivity. }
  (* every run *)
  assert (RUN : forall s k, In s seeds -> In k ks -> exists a ms ls, one_run cmap is_black choice score samples X m md x y s k = Ok (a, map Z.of_nat ms, ls) /\
            nearest_clusters measure X (Z.to_nat k) ms ls /\ (forall l, In l ls -> l < 7) /\ score m (map Z.of_nat ls) = Ok a).
  { intros s k Hs Hk. destruct (Hd s k Hs Hk) as (K1 & K2 & start & D1 & D2 & D3 & D4).
    destruct (kmedoids_found measure X HN H0 Hpos (choice s) (Z.to_nat k) start) as (r & ms & Er & Em & NC & LT); try lia; auto.
    { rewrite LX, Z2Nat.id by lia. exact D1. } { rewrite LX. exact D4. }
    rewrite Z2Nat.id in Er by lia. pose proof NC as (_ & _ & _ & Ll & Lu & _).
    pose proof (labels_are_nat _ _ Lu LT) as LA. pose proof (labels_count _ _ LA) as LC.
    destruct (Hsc m (map Z.of_nat (c_labels (r_cost r)))) as (a & vs & S1 & S2 & S3); [rewrite LC, map_length; lia|].
    exists a, ms, (c_labels (r_cost r)). split; [|split; [exact NC|split; [intros l Hin; specialize (LT l Hin); lia|exact S1]]].
    unfold one_run, single_kmedoids. cbn [md default_silhouette sm_initial sm_mode sm_max_iter sm_tol sm_verbose]. fold m in Er. rewrite Er. cbn [bind].
    unfold single_silhouette. cbn [md default_silhouette sm_show sm_save].
    unfold plot_2d_clusters, create_from_1d, reshape2. rewrite map_length, Ll, LX, Nat.eqb_refl. cbn [bind s_data]. unfold plot_labels, label_colors. cbn [a2d].
    assert (KP : 0 < Z.to_nat k) by lia. rewrite (labels_max _ _ KP LA). cbn [bind].
    destruct (C100_bands color cmap (score m) (samples m) (a2x m) (map Z.of_nat (c_labels (r_cost r))) a vs S1 S2 S3) as (calls & -> & _).
    { rewrite map_length, Ll. unfold m. destruct (arr2_of_square _ _ (all_square measure X)) as (_ & -> & _). reflexivity. }
    cbn [bind]. rewrite Em. reflexivity. }
  assert (FUN : exists avg medoids labels, forall s k, In s seeds -> In k ks -> one_run cmap is_black choice score samples X m md x y s k = Ok (avg s k, map Z.of_nat (medoids s k), labels s k) /\
            nearest_clusters measure X (Z.to_nat k) (medoids s k) (labels s k) /\ (forall l, In l (labels s k) -> l < 7) /\ score m (map Z.of_nat (labels s k)) = Ok (avg s k)).
  { set (out := fun s k => match one_run cmap is_black choice score samples X m md x y s k with Ok r => r | Raise _ => (NaN, [], []) end).
    exists (fun s k => fst (fst (out s k))), (fun s k => map Z.to_nat (snd (fst (out s k)))), (fun s k => snd (out s k)).
    intros s k Hs Hk. destruct (RUN s k Hs Hk) as (a & ms & ls & R1 & R2 & R3 & R4). unfold out. rewrite R1. cbn [fst snd].
    assert (B : map Z.to_nat (map Z.of_nat ms) = ms) by (rewrite map_map; erewrite map_ext; [apply map_id|intros; apply Nat2Z.id]). rewrite B. auto. }
  destruct FUN as (avg & medoids & labels & F). exists m, medoids, labels, avg.
  split; [apply (own_matrix_of measure junk); [exact W|exact EM]|].
  split; [intros s k Hs Hk; destruct (F s k Hs Hk) as (_ & A & _ & B); auto|].
  destruct (C99_best_run color cmap is_black choice score samples X (Some m) (fun _ => Raise AssertionError) m md x y avg (fun s k => map Z.of_nat (medoids s k)) labels)
    as (b & files & EA & EF & B); [left; reflexivity|intros; apply F; auto|].
  cbn [md default_silhouette sm_seeds sm_ks sm_save] in *. rewrite PROG, EA. cbn [bind].
  destruct B as [(B1 & B2 & B3 & B4 & B5)|(l1 & s & k & l2 & R & B1 & B2 & B3 & B4 & B5 & G1 & G2 & G3)].
  - left. split; [intros s k Hs Hk; apply B5, in_runs; auto|]. rewrite B4. reflexivity.
  - right. assert (IR : In s seeds /\ In k ks) by (apply in_runs; rewrite R; apply in_app_iff; right; left; reflexivity).
    destruct (F s k (proj1 IR) (proj2 IR)) as (_ & NC & L7 & _). pose proof NC as (_ & _ & _ & Ll & _).
    exists s, k, picture, top. split; [exists l1, l2; auto|]. rewrite B4.
    rewrite (colors_of X len (labels s k) 7); [|lia|exact Ll|exact LS|exact L7]. cbn [bind].
    split; [|auto]. f_equal. rewrite EF. destruct b; cbn in *. subst. f_equal; auto. apply map_ext. intros [s' k']. reflexivity.
Qed.

(** nothing is clustered without functions, without points, or with series shorter than seven *)
Theorem C141_refusals : forall x_len y_len series_len options ks seeds,
  (options = [] -> 0 < x_len -> 0 < y_len -> program x_len y_len series_len options ks seeds = Raise ZeroDivisionError) /\
  (options <> [] -> 0 < x_len -> 0 < y_len -> series_len < 7 -> program x_len y_len series_len options ks seeds = Raise ValueError) /\
  (options <> [] -> valid_pads pad -> x_len = 0 \/ y_len = 0 -> 7 <= series_len -> program x_len y_len series_len options ks seeds = Raise ValueError).
Proof.
  intros x y len options ks seeds. unfold cluster_region. split; [|split].
  - intros Ho Hx Hy. destruct (C140_refusals pad noise junk 1 x y len options ltac:(lia) Hx Hy) as (H & _). destruct (H Ho) as (_ & ->). reflexivity.
  - intros Ho Hx Hy Hl. destruct (C140_refusals pad noise junk 1 x y len options ltac:(lia) Hx Hy) as (_ & H). destruct (H Ho Hl) as (_ & ->). reflexivity.
  - intros Ho Hp H0 Hl. destruct (C140_region pad noise junk x y len options Hp Hl Ho) as (spt & mask & -> & _ & _ & _ & _ & Wm & Mx & My & _).
    cbn [bind]. unfold mask_colors. red in Wm. destruct (a2d mask); [reflexivity|]. cbn in Wm. nia.
Qed.
End Statements.

(** the program itself: the region of eight by eight points, with two, three and four clusters *)
Theorem C141_example_program : forall color (cmap : fnum -> color) is_black choice score samples pad noise measure junk sin2pi pdf,
  valid_pads pad -> scores score samples -> draws choice 64 1 2 -> draws choice 64 1 3 -> draws choice 64 1 4 ->
  exists spt mask X, alternating_functions_2d pad noise junk 8 8 200 (function_options sin2pi pdf) = Ok (spt, mask) /\ own_series spt X /\
    ((forall a b, In a X -> In b X -> is_nan (measure a b) = false) -> (forall a, In a X -> feqb (measure a a) (Fin 0) = true) ->
     (forall i j a b, nth_error X i = Some a -> nth_error X j = Some b -> i <> j -> flt (Fin 0) (measure a b) = true) ->
     example2d cmap is_black choice score samples pad noise measure junk sin2pi pdf = Raise TypeError \/
     exists o, example2d cmap is_black choice score samples pad noise measure junk sin2pi pdf = Ok o /\
       o_files o = ["plots/silhouette_k2_seed1.eps"; "plots/silhouette_k3_seed1.eps"; "plots/silhouette_k4_seed1.eps"]%string /\ length (o_drawn o) = 64).
Proof.
  intros color cmap is_black choice score samples pad noise measure junk sin2pi pdf Hp Hs D2 D3 D4.
  destruct (C141_best_clustering color cmap is_black choice score samples pad noise measure junk 8 8 200 (function_options sin2pi pdf) [2; 3; 4]%Z [1]%Z Hp) as (spt & mask & X & E & OS & H);
    [lia|discriminate|lia|lia|exact Hs| |].
  { intros s k [<-|[]] Hk. change (8 * 8) with 64. destruct Hk as [<-|[<-|[<-|[]]]]; (split; [lia|split; [lia|assumption]]). }
  exists spt, mask, X. split; [exact E|]. split; [exact OS|]. intros HN H0 Hpos.
  assert (LX : length X = 64).
  { destruct (C140_region pad noise junk 8 8 200 (function_options sin2pi pdf) Hp ltac:(lia) ltac:(discriminate)) as (spt' & mask' & E' & _ & _ & Ex & Ey & _).
    rewrite E in E'. injection E' as <- <-. destruct OS as (L & _). rewrite L, Ex, Ey. reflexivity. }
  destruct (H HN H0 Hpos) as (m & medoids & labels & avg & _ & NC & [(_ & P)|(s & k & picture & top & (l1 & l2 & R & _) & P & _)]); [left; exact P|].
  right. eexists. split; [exact P|]. split; [reflexivity|]. cbn [o_drawn].
  assert (I : In (s, k) (all_runs [1]%Z [2; 3; 4]%Z)) by (rewrite R; apply in_app_iff; right; left; reflexivity). apply in_runs in I.
  destruct (NC s k (proj1 I) (proj2 I)) as ((_ & _ & _ & Ll & _) & _). rewrite map_length, combine_length, Ll, LX. reflexivity.
Qed.

(** an example: a region of two by three points, two functions, two and three clusters *)
Definition ex141_score (m : arr2 fnum) (labels : list Z) : res fnum := Ok (fdiv (Fin 1) (fof_nat (length (nodup Z.eq_dec labels)))).
Definition ex141_samples (m : arr2 fnum) (labels : list Z) : res (list fnum) := Ok (repeat (Fin 0) (length labels)).
Definition ex141_choice (s : Z) (n : nat) (k : Z) : res (list Z) := Ok (zrange 0 k).
Example C141_ex : valid_pads (fun _ _ => 0) /\ scores ex141_score ex141_samples /\ draws ex141_choice 6 1 2 /\ draws ex141_choice 6 1 3 /\
  exists o X, cluster_region (fun v => v) (fun _ => false) ex141_choice ex141_score ex141_samples (fun _ _ => 0) ex140_noise ex140_measure NaN 2 3 7
                [(fun _ _ => Fin 0); (fun _ _ => Fin 1)] [2; 3]%Z [1]%Z = Ok o /\
    b_k (o_best o) = 2%Z /\ b_labels (o_best o) = Some [0; 0; 0; 0; 1; 0] /\ map fst (o_drawn o) = X /\
    o_files o = ["plots/silhouette_k2_seed1.eps"; "plots/silhouette_k3_seed1.eps"]%string /\
    (forall a b, In a X -> In b X -> is_nan (ex140_measure a b) = false) /\ (forall a, In a X -> feqb (ex140_measure a a) (Fin 0) = true) /\
    forallb (fun i => forallb (fun j => (i =? j) || flt (Fin 0) (ex140_measure (nth i X []) (nth j X []))) (seq 0 6)) (seq 0 6) = true.
Proof.
  split; [intros c n H; exact H|]. split.
  { intros m labels H. eexists _, _. split; [reflexivity|]. split; [reflexivity|]. apply repeat_length. }
  split; [exists [0; 1]%Z; split; [reflexivity|]; split; [reflexivity|]; split; [repeat constructor; cbn; intuition discriminate|]; intros z Hz; cbn in Hz; lia|].
  split; [exists [0; 1; 2]%Z; split; [reflexivity|]; split; [reflexivity|]; split; [repeat constructor; cbn; intuition discriminate|]; intros z Hz; cbn in Hz; lia|].
  do 2 eexists. split; [vm_compute; reflexivity|]. split; [reflexivity|]. split; [reflexivity|]. split; [reflexivity|]. split; [reflexivity|].
  cbn [o_drawn map fst]. split; [|split].
  - intros a b Ha Hb. repeat (destruct Ha as [<-|Ha]; [repeat (destruct Hb as [<-|Hb]; [reflexivity|]); destruct Hb|]). destruct Ha.
  - intros a Ha. repeat (destruct Ha as [<-|Ha]; [reflexivity|]). destruct Ha.
  - vm_compute. reflexivity.
Qed.
Print Assumptions C141_refusals.
Print Assumptions C141_example_program.
Print Assumptions C141_best_clustering.
