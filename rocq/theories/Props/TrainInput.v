(** Training data for the classifier: choosing medoids (C61, C62), random points (C63, C64), the rows of the training
    files (C82, C83) and the prediction error as penalty (C84). *)
From Coq Require Import String Permutation ZifyBool ZifyNat.
From Verif Require Import Base.Py Base.PyFacts Base.Arr Base.ArrFacts Base.Str Base.Dict Base.Float Base.FloatFacts Model.Region Model.Errors Model.Models Model.Distance
  Model.Clustering Model.Solver Model.SolverFiles Model.Results Model.TrainInput
  Spec.Grid Spec.Partition Spec.Rect Spec.Solver Spec.SolverFiles Spec.Results Spec.TrainInput
  Proofs.ClusteringFacts Proofs.WarpingFacts Proofs.PartitionFacts Proofs.SolverFacts Proofs.RegionFacts Proofs.SubsetFacts Proofs.ResultsFacts Proofs.TrainInputFacts Props.Solver Props.Results.
From Coq Require Import QArith.
Local Close Scope Q_scope. Local Open Scope nat_scope.
Local Notation length := List.length.

(** C61: the chosen medoid has a finite penalty, not above that of any other medoid that may be chosen, and below that of
    those earlier in the suite; without a finite penalty the choice fails with ValueError and the histogram is unchanged. *)
Theorem C61_least_penalty : forall penalties sr pt threshold h, penalties_fit penalties sr pt -> threshold = 0%Z \/ within threshold h ->
  match choose_medoid penalties sr pt threshold h with
  | (Ok (r, i, m), h') => exists n k v, i = Z.of_nat k /\ candidate penalties sr pt threshold h n k r m v /\ (exists q, v = Fin q) /\
      forall n' k' r' m' v', candidate penalties sr pt threshold h n' k' r' m' v' ->
        fle v v' = true /\ (before n' k' n k -> flt v v' = true)
  | (Raise e, h') => e = ValueError /\ h' = h /\ forall n k r m v, candidate penalties sr pt threshold h n k r m v -> v = PInf
  end.
Proof.
  intros penalties sr pt threshold h Hf Hw. destruct (choose_result penalties pt threshold h Hw sr Hf) as [(n & k & r & m & v & E & C & Q & P)|[E P]]; rewrite E.
  - exists n, k, v. auto.
  - auto.
Qed.
Print Assumptions C61_least_penalty.

(** C61: a choice is made exactly if some medoid has a finite penalty. *)
Theorem C61_chooses_iff : forall penalties sr pt threshold h, penalties_fit penalties sr pt -> threshold = 0%Z \/ within threshold h ->
  ((exists n k r m q, candidate penalties sr pt threshold h n k r m (Fin q)) <->
   exists c, fst (choose_medoid penalties sr pt threshold h) = Ok c).
Proof.
  intros penalties sr pt threshold h Hf Hw. destruct (choose_result penalties pt threshold h Hw sr Hf) as [(n & k & r & m & v & E & C & [q ->] & P)|[E P]]; rewrite E; cbn [fst].
  - split; intros _; eauto 6.
  - split; [|intros [c H]; discriminate]. intros (n & k & r & m & q & C). apply P in C. discriminate.
Qed.
Print Assumptions C61_chooses_iff.

(** C61, not true with missing penalties: a clustering in which one medoid has a NaN is passed over, so a medoid that is
    not the least is chosen. *)
Definition ex_pen (r : string) (ms : list point) (p : point) : res (list fnum) :=
  if String.eqb r "a" then Ok [NaN; Fin 1] else Ok [Fin 5].
Definition ex_suite : suite := [("a", [(0, 0); (0, 1)]); ("b", [(2, 2)])]%Z%string.
Theorem C61_missing_penalty_refuted :
  penalties_fit ex_pen ex_suite (1, 1)%Z /\
  fst (choose_medoid ex_pen ex_suite (1, 1)%Z 0 []) = Ok ("b"%string, 0%Z, (2, 2)%Z) /\
  ex_pen "b" [(2, 2)%Z] (1, 1)%Z = Ok [Fin 5] /\
  (exists ps, ex_pen "a" [(0, 0); (0, 1)]%Z (1, 1)%Z = Ok ps /\ nth_error ps 1 = Some (Fin 1)) /\ flt (Fin 1) (Fin 5) = true.
Proof.
  split; [|repeat split; try reflexivity; eexists; split; reflexivity].
  intros r ms [E|[E|[]]]; assert (r = fst (r, ms) /\ ms = snd (r, ms)) as [Er Em] by auto; rewrite <- E in Er, Em; cbn in Er, Em; subst;
    (split; [discriminate|]); eexists; (split; [reflexivity|]); (split; [reflexivity|]); intros v Hv; cbn in Hv; intuition congruence.
Qed.
Print Assumptions C61_missing_penalty_refuted.
(** the hypotheses with a tie and a full medoid: the first of the ties that is left is chosen *)
Example C61_example : penalties_fit (fun r _ _ => if String.eqb r "a" then Ok [Fin 2; Fin 2] else Ok [Fin 2]) ex_suite (1, 1)%Z /\
  within 1 [(("a", 0%Z), 1%Z)]%string /\
  choose_medoid (fun r _ _ => if String.eqb r "a" then Ok [Fin 2; Fin 2] else Ok [Fin 2]) ex_suite (1, 1)%Z 1 [(("a", 0%Z), 1%Z)]%string
    = (Ok ("a"%string, 1%Z, (0, 1)%Z), [(("a", 0%Z), 1%Z); (("a", 1%Z), 1%Z)]%string).
Proof.
  split; [|split].
  - intros r ms [E|[E|[]]]; assert (r = fst (r, ms) /\ ms = snd (r, ms)) as [Er Em] by auto; rewrite <- E in Er, Em; cbn in Er, Em; subst;
    (split; [discriminate|]); eexists; (split; [reflexivity|]); (split; [reflexivity|]); intros v Hv; cbn in Hv; intuition congruence.
  - intros k. unfold hist_get. cbn [dict_get]. destruct (key_eqb ("a"%string, 0%Z) k); lia.
  - reflexivity.
Qed.

(** C62: over any sequence of choices with one positive threshold, whatever suites, points and penalties: the histogram
    holds how often each medoid was chosen, its total is the number of successes, no medoid is chosen more than
    [threshold] times, and the assertion never fails. *)
Theorem C62_histogram : forall threshold calls rs h, (0 < threshold)%Z -> choices threshold calls [] = (rs, h) ->
  length rs = length calls /\
  (forall k, hist_get h k = Z.of_nat (count_if (chose k) rs)) /\
  (forall k, (Z.of_nat (count_if (chose k) rs) <= threshold)%Z) /\
  hist_total h = Z.of_nat (count_if succeeded rs) /\
  ((forall c r ms, In c calls -> In (r, ms) (c_suite c) -> c_penalties c r ms (c_point c) <> Raise AssertionError) ->
     ~ In (Raise AssertionError) rs).
Proof.
  intros threshold calls rs h Ht E. destruct (choices_facts threshold calls Ht [] rs h (within_empty threshold Ht) E) as (L & W & G & T & A).
  split; auto. assert (G' : forall k, hist_get h k = Z.of_nat (count_if (chose k) rs)) by (intros k; rewrite G; unfold hist_get; cbn; lia).
  split; auto. split; [intros k; rewrite <- G'; apply W|]. split; auto.
Qed.
Print Assumptions C62_histogram.

(** C62: without a threshold the histogram still counts the choices. *)
Theorem C62_no_threshold : forall threshold calls rs h, choices threshold calls [] = (rs, h) ->
  (forall k, hist_get h k = Z.of_nat (count_if (chose k) rs)) /\ hist_total h = Z.of_nat (count_if succeeded rs).
Proof.
  intros threshold calls rs h E. destruct (choices_counts threshold calls [] rs h E) as [G T]. split.
  - intros k. rewrite G. unfold hist_get. cbn. lia.
  - rewrite T. cbn. lia.
Qed.
Print Assumptions C62_no_threshold.

(** C62: with finite penalties, choices from one suite succeed until every medoid has been chosen [threshold] times; from
    then on they fail with ValueError. *)
Theorem C62_capacity : forall sr threshold calls rs h, (0 < threshold)%Z -> NoDup (map fst sr) ->
  (forall c, In c calls -> c_suite c = sr /\ penalties_fit (c_penalties c) sr (c_point c) /\
     forall r ms ps v, In (r, ms) sr -> c_penalties c r ms (c_point c) = Ok ps -> In v ps -> exists q, v = Fin q) ->
  choices threshold calls [] = (rs, h) ->
  forall i x, nth_error rs i = Some x ->
    ((Z.of_nat i < threshold * Z.of_nat (suite_size sr))%Z -> succeeded x = true) /\
    ((threshold * Z.of_nat (suite_size sr) <= Z.of_nat i)%Z -> x = Raise ValueError).
Proof.
  intros sr threshold calls rs h Ht Hn Hc E i x Hx.
  destruct (choices_capacity sr threshold calls Ht Hn Hc [] rs h (within_empty threshold Ht) E i x Hx) as [P Q].
  assert (Z0 : hsum [] (keys sr) = 0%Z). { induction (keys sr) as [|a l IH]; cbn [hsum fold_right]; auto. }
  rewrite Z0 in P, Q. auto.
Qed.
Print Assumptions C62_capacity.
Definition ex_pen2 (r : string) (ms : list point) (p : point) : res (list fnum) := Ok (map (fun m => Fin (inject_Z (fst p - fst m))) ms).
Definition ex_calls : list call := map (fun p => Call ex_suite p ex_pen2) [(1, 1); (2, 0); (1, 2); (0, 0)]%Z.
Example C62_example : (forall c, In c ex_calls -> c_suite c = ex_suite /\ penalties_fit (c_penalties c) ex_suite (c_point c) /\
     forall r ms ps v, In (r, ms) ex_suite -> c_penalties c r ms (c_point c) = Ok ps -> In v ps -> exists q, v = Fin q) /\
  NoDup (map fst ex_suite) /\
  choices 1 ex_calls [] = ([Ok ("b", 0, (2, 2)); Ok ("a", 0, (0, 0)); Ok ("a", 1, (0, 1)); Raise ValueError],
                           [(("b", 0), 1); (("a", 0), 1); (("a", 1), 1)])%Z%string.
Proof.
  split; [|split; [repeat constructor; cbn; intuition discriminate|reflexivity]].
  intros c Hc. unfold ex_calls in Hc. apply in_map_iff in Hc. destruct Hc as (p & <- & _). cbn [c_suite c_penalties c_point]. split; auto.
  assert (A : forall r ms ps v, ex_pen2 r ms p = Ok ps -> In v ps -> exists q, v = Fin q).
  { intros r ms ps v H Hv. unfold ex_pen2 in H. assert (ps = map (fun m => Fin (inject_Z (fst p - fst m))) ms) by congruence. subst ps.
    apply in_map_iff in Hv. destruct Hv as (m & <- & _). eauto. }
  split; [|intros r ms ps v _; eauto]. intros r ms Hin. split.
  - unfold ex_suite in Hin. cbn in Hin. intuition congruence.
  - eexists. split; [reflexivity|]. split; [apply map_length|]. intros v Hv. apply in_map_iff in Hv. destruct Hv as (m & <- & _). discriminate.
Qed.

(** C62: a negative threshold fails at the first medoid. *)
Theorem C62_negative_threshold : forall penalties r m ms sr pt threshold ps, (threshold < 0)%Z -> penalties r (m :: ms) pt = Ok ps ->
  choose_medoid penalties ((r, m :: ms) :: sr) pt threshold [] = (Raise AssertionError, []).
Proof.
  intros penalties r m ms sr pt threshold ps Ht E. unfold choose_medoid. cbn [foldM]. unfold choose_step. rewrite E. cbn [bind].
  unfold supress_medoids, enumerate. replace (threshold =? 0)%Z with false by lia. cbn [length seq combine foldM].
  unfold hist_get at 1. cbn [dict_get]. replace (0 <=? threshold)%Z with false by lia. reflexivity.
Qed.
Print Assumptions C62_negative_threshold.

(** C63: whatever numpy draws and in whatever order a set is listed, random_integers_with_blacklist gives [n] different
    integers of the range, none blacklisted; it fails with ValueError exactly if there are fewer than [n] of those (or
    [n] is negative); taking all of them leaves none out. *)
Theorem C63_random_integers : forall set_order choice n lo hi blacklist allowed, draws choice -> any_order set_order ->
  NoDup allowed -> (forall v, In v allowed <-> (lo <= v <= hi)%Z /\ ~ In v blacklist) ->
  ((0 <= n <= Z.of_nat (length allowed))%Z ->
     exists r, random_integers_with_blacklist set_order choice n lo hi blacklist = Ok r /\ Z.of_nat (length r) = n /\ NoDup r /\
       (forall v, In v r -> (lo <= v <= hi)%Z /\ ~ In v blacklist) /\
       (n = Z.of_nat (length allowed) -> forall v, In v allowed -> In v r)) /\
  (~ (0 <= n <= Z.of_nat (length allowed))%Z -> random_integers_with_blacklist set_order choice n lo hi blacklist = Raise ValueError).
Proof.
  intros set_order choice n lo hi bl allowed Hd Ho Na Ha.
  destruct (random_total set_order choice Hd Ho n lo hi bl allowed Na Ha) as [T1 T2]. split; [|exact T2].
  intros Hn. destruct (T1 Hn) as [r E]. exists r. split; auto.
  destruct (random_ok set_order choice Hd Ho n lo hi bl r E) as (L & Nd & Hin & Hall). repeat split; auto; try apply Hin; auto.
  intros Hm v Hv. apply Ha in Hv. apply Hall; try tauto. rewrite L, Hm. f_equal. apply Permutation_length, NoDup_Permutation; auto using open_nodup.
  intros w. rewrite Ha, in_open. tauto.
Qed.
Print Assumptions C63_random_integers.

(** C63: the random points are different points of the region, none with a blacklisted index. *)
Theorem C63_random_points : forall set_order choice n blacklist x_len y_len pts, draws choice -> any_order set_order -> 0 < y_len ->
  random_points_different_to_medoids set_order choice n blacklist x_len y_len = Ok pts ->
  Z.of_nat (length pts) = n /\ NoDup pts /\
  forall p, In p pts -> in_grid x_len y_len p /\ ~ In (fst p * Z.of_nat y_len + snd p)%Z blacklist.
Proof. intros set_order choice n bl x_len y_len pts Hd Ho. apply random_points_ok; auto. Qed.
Print Assumptions C63_random_points.

(** a choice and an order in the sense of the theorems *)
Definition ex_choice (l : list Z) (n : Z) : res (list Z) :=
  if ((0 <=? n) && (n <=? Z.of_nat (length l)))%Z then Ok (firstn (Z.to_nat n) (rev l)) else Raise ValueError.
Lemma ex_draws : draws ex_choice.
Proof.
  intros l n. unfold ex_choice. destruct ((0 <=? n) && (n <=? Z.of_nat (length l)))%Z eqn:E; split; intros H; try lia.
  - exists (firstn (Z.to_nat n) (rev l)), (skipn (Z.to_nat n) (rev l)). split; auto. split.
    + rewrite firstn_length, rev_length. lia.
    + rewrite firstn_skipn. apply Permutation_sym, Permutation_rev.
  - reflexivity.
Qed.
Example C63_example : draws ex_choice /\ any_order (@rev Z) /\
  random_integers_with_blacklist (@rev Z) ex_choice 3 0 5 [1; 2; 9]%Z = Ok [0; 3; 4]%Z /\
  random_integers_with_blacklist (@rev Z) ex_choice 5 0 5 [1; 2; 9]%Z = Raise ValueError /\
  random_points_different_to_medoids (@rev Z) ex_choice 3 [1; 2]%Z 2 3 = Ok [(0, 0); (1, 0); (1, 1)]%Z.
Proof. split; [apply ex_draws|]. split; [intros l; apply Permutation_sym, Permutation_rev|]. repeat split. Qed.

(** C64: if the medoids lie in a region that starts at (0, 0), no random point is a medoid. *)
Theorem C64_zero_offset : forall set_order point_order choice n sr x_len y_len pts, draws choice -> any_order set_order -> any_order point_order ->
  0 < y_len -> (forall m, In m (flat_map snd sr) -> in_grid x_len y_len m) ->
  random_points_different_to_medoids set_order choice n (extract_all_medoid_indices point_order sr y_len) x_len y_len = Ok pts ->
  forall r ms m, In (r, ms) sr -> In m ms -> ~ In m pts.
Proof.
  intros set_order point_order choice n sr x_len y_len pts Hd Ho Hp Hy Hm E r ms m Hin Hms Hpt.
  destruct (random_points_ok set_order choice Hd Ho n _ x_len y_len pts Hy E) as (_ & _ & P). destruct (P m Hpt) as [_ N]. apply N.
  apply in_extract; auto. apply in_flat_map. exists (r, ms). auto.
Qed.
Print Assumptions C64_zero_offset.

(** C64, not true in general: if the region starts at least as far to the right as it is wide, the blacklist never has an
    effect: asking for as many points as the region has gives, whatever is drawn, every medoid. *)
Theorem C64_offset_refuted : forall set_order point_order choice sr g x_len y_len pts, draws choice -> any_order set_order -> any_order point_order ->
  0 < y_len -> (Z.of_nat x_len <= x1 g)%Z -> (0 <= y1 g)%Z ->
  (forall m, In m (flat_map snd sr) -> in_grid x_len y_len (fst m - x1 g, snd m - y1 g)%Z) ->
  random_points_different_to_medoids set_order choice (Z.of_nat (x_len * y_len)) (extract_all_medoid_indices point_order sr y_len) x_len y_len = Ok pts ->
  forall r ms m, In (r, ms) sr -> In m ms -> In (fst m - x1 g, snd m - y1 g)%Z pts.
Proof.
  intros set_order point_order choice sr g x_len y_len pts Hd Ho Hp Hy Hx1 Hy1 Hm E r ms m Hin Hms.
  apply (random_points_all set_order choice Hd Ho (extract_all_medoid_indices point_order sr y_len) x_len y_len pts Hy); auto.
  - intros b Hb. apply extract_in in Hb; auto. destruct Hb as (m' & Hm' & ->). right. destruct (Hm m' Hm') as [A B]. cbn [fst snd] in *. nia.
  - apply Hm. apply in_flat_map. exists (r, ms). auto.
Qed.
Print Assumptions C64_offset_refuted.
(** such a draw exists: the four points of a 2 by 2 region at (2, 0), with the medoid (2, 0) among them *)
Example C64_example : random_points_different_to_medoids (@rev Z) ex_choice (Z.of_nat (2 * 2))
    (extract_all_medoid_indices (@rev point) [("a", [(2, 0)])]%Z%string 2) 2 2 = Ok [(0, 0); (0, 1); (1, 0); (1, 1)]%Z /\
  random_points_different_to_medoids (@rev Z) ex_choice 3
    (extract_all_medoid_indices (@rev point) [("a", [(1, 0)])]%Z%string 2) 2 2 = Ok [(0, 0); (0, 1); (1, 1)]%Z.
Proof. split; reflexivity. Qed.

(** C82: the training file.  There is one row for each random point, in order; a row has the region, the values of the
    metadata of the clustering of the chosen medoid, its index and position, and the series of the random point; the
    choices are those of [choices], point after point; the histogram file has each chosen medoid once with the
    number of rows that name it. *)
Theorem C82_training_file : forall set_order point_order choice penalties sr region_id R count threshold header rows histogram,
  draws choice -> any_order set_order -> 0 < t_y R ->
  evaluate_score_of_random_points set_order point_order choice penalties sr region_id R count threshold = Ok (header, rows, histogram) ->
  exists pts picks h, Z.of_nat (length pts) = count /\ length picks = length pts /\ NoDup pts /\ (forall p, In p pts -> in_grid (t_x R) (t_y R) p) /\
    choices threshold (map (fun p => Call sr p penalties) pts) [] = (map Ok picks, h) /\
    Forall2 (fun '(p, (r, i, m)) row => exists md s, factory_from_repr r = Ok md /\ series_at R p = Ok s /\
       row = ([FStr region_id] ++ map snd (as_dict md) ++ [FInt i; FInt (fst m); FInt (snd m)] ++ map (FNum 3) s)%list)
      (combine pts picks) rows /\
    hd [] histogram = ["clustering_repr"; "cluster_index"; "count"]%string /\
    exists entries, tl histogram = map (fun '(r, i, n) => [r; str_int i; str_int n]) entries /\ NoDup (map fst entries) /\
      (forall r i n, In (r, i, n) entries <-> (0 < n)%Z /\ n = Z.of_nat (count_if (fun '(r', i', _) => key_eqb (r', i') (r, i)) picks)).
Proof.
  intros set_order point_order choice penalties sr region_id R count threshold header rows histogram Hd Ho Hy. unfold evaluate_score_of_random_points.
  set (idx := extract_all_medoid_indices point_order sr (t_y R)).
  destruct (random_points_different_to_medoids set_order choice count idx (t_x R) (t_y R)) as [pts|] eqn:Ep; cbn [bind]; [|discriminate].
  destruct (csv_header sr (t_len R)) as [hd0|] eqn:Eh; cbn [bind]; [|discriminate].
  destruct (random_point_rows penalties sr region_id R threshold pts) as [[rows0 h]|] eqn:Er; cbn [bind]; [|discriminate].
  intros E. assert (rows0 = rows /\ histogram = histogram_rows h) as [-> ->] by (split; congruence). clear E.
  unfold random_point_rows in Er. apply rows_fold in Er. destruct Er as (picks & new & -> & Ec & L & F). cbn [app] in F.
  destruct (random_points_ok set_order choice Hd Ho count idx (t_x R) (t_y R) pts Hy Ep) as (Lp & Np & Ip).
  exists pts, picks, h. split; auto. split; auto. split; auto. split; [intros p Hp; apply Ip; auto|]. split; auto. split; auto. split; [reflexivity|].
  assert (K : NoDup (map fst h) /\ (forall k, In k (map fst h) -> (0 < hist_get h k)%Z) /\ (forall k, 0 <= hist_get h k)%Z).
  { apply (choices_keys threshold _ _ _ _ Ec); [constructor|intros k []|]. intros k. unfold hist_get. cbn. lia. }
  destruct K as (Nk & Pk & Zk). destruct (choices_counts threshold _ _ _ _ Ec) as [G _].
  assert (G' : forall r i, hist_get h (r, i) = Z.of_nat (count_if (fun '(r', i', _) => key_eqb (r', i') (r, i)) picks)).
  { intros r i. rewrite G. unfold hist_get at 1. cbn [dict_get]. unfold count_if. clear. induction picks as [|[[r' i'] m] picks IH]; cbn [map filter]; [reflexivity|].
    cbn [chose]. destruct (key_eqb (r', i') (r, i)); cbn [length]; lia. }
  exists h. split.
  - cbn [histogram_rows tl]. apply map_ext. intros [[r i] n]. reflexivity.
  - split; auto. intros r i n. rewrite <- G'. split.
    + intros Hin. rewrite (hist_get_in h (r, i) n Nk Hin). split; auto. rewrite <- (hist_get_in h (r, i) n Nk Hin). apply Pk.
      apply in_map_iff. exists (r, i, n). auto.
    + intros [Hp ->]. apply hist_in_get. lia.
Qed.
Print Assumptions C82_training_file.

(** C82: the header names the columns of every row, if all clusterings of the suite have the same kind of metadata (a
    suite has a single kind). *)
Theorem C82_header : forall sr (R : stregion fnum) header region_id r i m md s row, csv_header sr (t_len R) = Ok header ->
  (forall r' ms md', In (r', ms) sr -> factory_from_repr r' = Ok md' -> map fst (as_dict md') = map fst (as_dict md)) ->
  factory_from_repr r = Ok md -> length s = t_len R -> medoid_row region_id r i m s = Ok row ->
  length header = length row /\
  header = (["region_id"%string] ++ map fst (as_dict md) ++ ["cluster_index"; "medoid_x"; "medoid_y"]%string ++ map (fun k => ("s" ++ str_int (Z.of_nat k))%string) (seq 0 (t_len R)))%list.
Proof.
  intros sr R header region_id r i m md s row Eh Hk Ef Ls Er. unfold csv_header in Eh.
  destruct (getitem (map fst sr) 0) as [r0|] eqn:E0; cbn [bind] in Eh; [|discriminate].
  destruct (factory_from_repr r0) as [md0|] eqn:E1; cbn [bind] in Eh; [|discriminate].
  assert (In0 : exists ms, In (r0, ms) sr). { destruct sr as [|[r' ms] sr]; [discriminate|]. cbn in E0. exists ms. left. congruence. }
  destruct In0 as [ms In0]. rewrite (Hk r0 ms md0 In0 E1) in Eh. unfold medoid_row in Er. rewrite Ef in Er. cbn [bind] in Er.
  assert (H : header = (["region_id"%string] ++ map fst (as_dict md) ++ ["cluster_index"; "medoid_x"; "medoid_y"]%string ++ map (fun k => ("s" ++ str_int (Z.of_nat k))%string) (seq 0 (t_len R)))%list) by congruence.
  split; auto. rewrite H. assert (Hr : row = ([FStr region_id] ++ map snd (as_dict md) ++ [FInt i; FInt (fst m); FInt (snd m)] ++ map (FNum 3) s)%list) by congruence.
  rewrite Hr, !app_length, !map_length, seq_length. cbn [length]. lia.
Qed.
Print Assumptions C82_header.

(** a distance matrix that has been computed: a number for each pair of points, not below every number *)
Definition matrix_covers (M : mat) (n : nat) : Prop :=
  forall i j, (0 <= i < Z.of_nat n)%Z -> (0 <= j < Z.of_nat n)%Z -> exists v, m_get M i j = Ok v /\ is_nan v = false /\ v <> NInf.
(** the distance between the point [p] of the region and the medoid [m], given in coordinates of the dataset *)
Definition distance_to_medoid (M : mat) (g : rect) (y_len : nat) (p m : point) : res fnum :=
  m_get M (fst p * Z.of_nat y_len + snd p)%Z ((fst m - x1 g) * Z.of_nat y_len + (snd m - y1 g))%Z.
Lemma grid_index x_len y_len p : in_grid x_len y_len p -> (0 <= fst p * Z.of_nat y_len + snd p < Z.of_nat (x_len * y_len))%Z.
Proof. intros [A B]. rewrite Nat2Z.inj_mul. split; [nia|]. assert ((fst p + 1) * Z.of_nat y_len <= Z.of_nat x_len * Z.of_nat y_len)%Z by (apply Z.mul_le_mono_nonneg_r; lia). lia. Qed.

Lemma min_distance_ok M g x_len y_len r ms p : matrix_covers M (x_len * y_len) -> in_grid x_len y_len p ->
  (forall m, In m ms -> in_grid x_len y_len (fst m - x1 g, snd m - y1 g)%Z) ->
  exists ps, min_distance_penalties M g y_len r ms p = Ok ps /\ length ps = length ms /\ (forall v, In v ps -> is_nan v = false /\ v <> NInf) /\
    forall k m, nth_error ms k = Some m -> exists v, nth_error ps k = Some v /\ distance_to_medoid M g y_len p m = Ok v.
Proof.
  intros HM Hp. unfold min_distance_penalties, distance_to_medoid, encode_point. pose proof (grid_index _ _ _ Hp) as Ip.
  induction ms as [|m ms IH]; intros Hm; cbn [map mapM].
  - exists []. split; auto. split; auto. split; [intros v []|]. intros [|k] m E; discriminate.
  - pose proof (grid_index _ _ _ (Hm m (or_introl eq_refl))) as Im. cbn [fst snd] in Im.
    destruct (HM _ _ Ip Im) as (v & Ev & Nv & Iv). rewrite Ev. cbn [bind].
    destruct IH as (ps & E & L & N & D); [intros m' Hm'; apply Hm; right; auto|]. rewrite E. cbn [bind].
    exists (v :: ps). split; auto. cbn [length]. split; [lia|]. split.
    + intros w [<-|Hw]; auto.
    + intros [|k] m' Hk; cbn in Hk; [|apply D; auto]. assert (m' = m) by congruence. subst m'. exists v. auto.
Qed.

(** C82: with the distance as penalty and no threshold, the medoid chosen for a point has the least distance to it over all
    medoids of the suite. *)
Theorem C82_least_distance : forall M g x_len y_len sr p h, matrix_covers M (x_len * y_len) -> in_grid x_len y_len p ->
  (forall r ms, In (r, ms) sr -> ms <> [] /\ forall m, In m ms -> in_grid x_len y_len (fst m - x1 g, snd m - y1 g)%Z) ->
  forall r i m h', choose_medoid (min_distance_penalties M g y_len) sr p 0 h = (Ok (r, i, m), h') ->
  (exists ms, In (r, ms) sr /\ nth_error ms (Z.to_nat i) = Some m /\ (0 <= i)%Z) /\
  exists v, distance_to_medoid M g y_len p m = Ok v /\
    forall r' ms' m', In (r', ms') sr -> In m' ms' -> exists v', distance_to_medoid M g y_len p m' = Ok v' /\ fle v v' = true.
Proof.
  intros M g x_len y_len sr p h HM Hp Hs r i m h' E.
  assert (Hf : penalties_fit (min_distance_penalties M g y_len) sr p).
  { intros r0 ms0 Hin. destruct (Hs r0 ms0 Hin) as [Hne Hg]. split; auto.
    destruct (min_distance_ok M g x_len y_len r0 ms0 p HM Hp Hg) as (ps & E0 & L & N & _). exists ps. split; auto. split; auto. intros v Hv. apply N; auto. }
  pose proof (C61_least_penalty _ sr p 0 h Hf (or_introl eq_refl)) as C. rewrite E in C.
  destruct C as (n & k & v & -> & (ms & ps & E1 & E2 & E3 & E4 & _) & _ & Hle). pose proof (nth_error_In _ _ E1) as Hin. split.
  - exists ms. rewrite Nat2Z.id. repeat split; auto. lia.
  - destruct (Hs r ms Hin) as [_ Hg]. destruct (min_distance_ok M g x_len y_len r ms p HM Hp Hg) as (ps0 & E0 & _ & _ & D).
    assert (ps0 = ps) by congruence. subst ps0. destruct (D k m E2) as (v0 & Ev0 & Ed). assert (v0 = v) by congruence. subst v0. exists v. split; auto.
    intros r' ms' m' Hin' Hm'. destruct (Hs r' ms' Hin') as [_ Hg']. destruct (min_distance_ok M g x_len y_len r' ms' p HM Hp Hg') as (ps' & E' & _ & N' & D').
    destruct (In_nth_error _ _ Hin') as [n' En']. destruct (In_nth_error _ _ Hm') as [k' Ek']. destruct (D' k' m' Ek') as (v' & Ev' & Ed').
    exists v'. split; auto. apply (Hle n' k' r' m' v'). exists ms', ps'. repeat split; auto. left; auto.
    intros j w Hj _. apply N'. eapply nth_error_In; eauto.
Qed.
Print Assumptions C82_least_distance.

(** C82: the whole training file by distance: with finite distances, known clusterings and no threshold it is always
    written. *)
Theorem C82_succeeds : forall M g (d : arr3 fnum) sc sr region_id pts,
  wf3 d -> matrix_covers M (a3x d * a3y d) -> (forall i j v, m_get M i j = Ok v -> exists q, v = Fin q) -> sr <> [] ->
  (forall r ms, In (r, ms) sr -> ms <> [] /\ (exists md, factory_from_repr r = Ok md) /\ forall m, In m ms -> in_grid (a3x d) (a3y d) (fst m - x1 g, snd m - y1 g)%Z) ->
  (forall p, In p pts -> in_grid (a3x d) (a3y d) p) ->
  exists rows h, random_point_rows (min_distance_penalties M g (a3y d)) sr region_id (qregion d sc) 0 pts = Ok (rows, h) /\ length rows = length pts.
Proof.
  intros M g d sc sr region_id pts Hw HM Hq Hne Hs. unfold random_point_rows.
  assert (G : forall (rows0 : list (list field)) (h0 : hist), (forall p, In p pts -> in_grid (a3x d) (a3y d) p) ->
    exists rows h, foldM (fun '(rows, h) random_point =>
           let '(result, h) := choose_medoid (min_distance_penalties M g (a3y d)) sr random_point 0 h in
           '(r, i, m) <- result ;;
           _ <- factory_from_repr r ;;
           series <- series_at (qregion d sc) random_point ;;
           row <- medoid_row region_id r i m series ;;
           Ok (rows ++ [row], h)%list) pts (rows0, h0) = Ok (rows, h) /\ length rows = length rows0 + length pts).
  { induction pts as [|p pts IH]; intros rows0 h0 Hp; cbn [foldM]; [eexists _, _; split; [reflexivity|cbn; lia]|].
    assert (Hf : penalties_fit (min_distance_penalties M g (a3y d)) sr p).
    { intros r0 ms0 Hin. destruct (Hs r0 ms0 Hin) as (Hn & _ & Hg). split; auto.
      destruct (min_distance_ok M g _ _ r0 ms0 p HM (Hp p (or_introl eq_refl)) Hg) as (ps & E0 & L & N & _). exists ps. split; auto. split; auto. intros v Hv. apply N; auto. }
    destruct (choose_result _ p 0 h0 (or_introl eq_refl) sr Hf) as [(n & k & r & m & v & E & (ms & ps & E1 & _) & _)|[_ Hno]].
    - rewrite E. cbn [bind]. destruct (Hs r ms (nth_error_In _ _ E1)) as (_ & (md & Emd) & _). unfold medoid_row at 1. rewrite Emd. cbn [bind].
      rewrite q_series_at. destruct (ser_ok d p Hw (Hp p (or_introl eq_refl))) as (s & Es & _). rewrite Es. cbn [bind].
      match goal with |- context [foldM _ pts (?a, ?b)] => destruct (IH a b (fun q H => Hp q (or_intror H))) as (rows & h & E' & L') end.
      rewrite E'. exists rows, h. split; auto. rewrite L', app_length. cbn. lia.
    - exfalso. destruct sr as [|[r ms] sr']; [contradiction|]. destruct (Hs r ms (or_introl eq_refl)) as (Hm & _ & Hg).
      destruct ms as [|m ms]; [contradiction|].
      destruct (min_distance_ok M g _ _ r (m :: ms) p HM (Hp p (or_introl eq_refl)) Hg) as (ps & E0 & L & N & D).
      destruct (D 0 m eq_refl) as (v & Ev & Ed). assert (v = PInf).
      { apply (Hno 0 0 r m v). exists (m :: ms), ps. repeat split; auto. left; auto. intros j w Hj _. apply N. eapply nth_error_In; eauto. }
      subst v. destruct (Hq _ _ _ Ed) as [q Eq]. discriminate. }
  intros Hp. destruct (G [] [] Hp) as (rows & h & E & L). exists rows, h. auto.
Qed.
Print Assumptions C82_succeeds.
(** a 1 by 3 region at (2, 5); the medoids are its first and last point *)
Definition ex_mat : mat := Mat 3 (map (map (fun z => Fin (inject_Z z))) [[0; 1; 7]; [1; 0; 4]; [7; 4; 0]]%Z).
Definition ex_suite3 : suite := [("regular_k1", [(2, 5)]); ("kmedoids_k2_seed0_lite", [(2, 7); (2, 5)])]%Z%string.
Definition ex_d3 : arr3 fnum := mk3 2 1 3 (map (fun z => Fin (inject_Z z)) [1; 2; 3; 4; 5; 6]%Z).
Example C82_example : matrix_covers ex_mat 3 /\
  random_point_rows (min_distance_penalties ex_mat (Rect 2 3 5 8) 3) ex_suite3 "reg" (TPlain ex_d3) 0 [(0, 1)]%Z
   = Ok ([[FStr "reg"; FStr "regular"; FInt 1; FInt 0; FInt 2; FInt 5; FNum 3 (Fin 2); FNum 3 (Fin 5)]], [(("regular_k1", 0), 1)]%Z%string)%string /\
  random_point_rows (min_distance_penalties ex_mat (Rect 2 3 5 8) 3) ex_suite3 "reg" (TPlain ex_d3) 1 [(0, 1); (0, 0); (0, 1)]%Z
   = Ok ([[FStr "reg"; FStr "regular"; FInt 1; FInt 0; FInt 2; FInt 5; FNum 3 (Fin 2); FNum 3 (Fin 5)];
          [FStr "reg"; FStr "kmedoids"; FInt 2; FInt 0; FStr "lite"; FInt 1; FInt 2; FInt 5; FNum 3 (Fin 1); FNum 3 (Fin 4)];
          [FStr "reg"; FStr "kmedoids"; FInt 2; FInt 0; FStr "lite"; FInt 0; FInt 2; FInt 7; FNum 3 (Fin 2); FNum 3 (Fin 5)]],
         [(("regular_k1", 0), 1); (("kmedoids_k2_seed0_lite", 1), 1); (("kmedoids_k2_seed0_lite", 0), 1)]%Z)%string.
Proof.
  split; [|split; reflexivity].
  intros i j Hi Hj. assert (i = 0 \/ i = 1 \/ i = 2)%Z as [ -> | [ -> | -> ] ] by lia; assert (j = 0 \/ j = 1 \/ j = 2)%Z as [ -> | [ -> | -> ] ] by lia;
    (eexists; split; [reflexivity|]; split; [reflexivity|discriminate]).
Qed.

(** C83: the file of medoid series.  If the region holds the rectangle [g] of a dataset and the medoids lie in it, the file
    has a row for each medoid of each clustering, in order, with its index, its position and the series that the dataset
    has at that position. *)
Theorem C83_medoid_series : forall (full : arr3 fnum) g R region_id sr, wf3 full -> rect_in g (a3x full) (a3y full) ->
  t_region_subset (TPlain full) g = Ok R -> sr <> [] ->
  (forall r ms, In (r, ms) sr -> (exists md, factory_from_repr r = Ok md) /\ forall m, In m ms -> (x1 g <= fst m < x2 g /\ y1 g <= snd m < y2 g)%Z) ->
  exists header rows, medoid_series_csv g region_id sr R = Ok (header, rows) /\
    Forall2 (fun '(r, i, m) row => exists md s, factory_from_repr r = Ok md /\ series_at (TPlain full) m = Ok s /\
        row = ([FStr region_id] ++ map snd (as_dict md) ++ [FInt (Z.of_nat i); FInt (fst m); FInt (snd m)] ++ map (FNum 3) s)%list)
      (flat_map (fun '(r, ms) => map (fun '(i, m) => (r, i, m)) (combine (seq 0 (length ms)) ms)) sr) rows.
Proof.
  intros full g R region_id sr Hw Hg ER Hne Hs.
  destruct (region_subset_plain full g Hw Hg) as (d & Ed & Wd & Td & Xd & Yd & Sd). assert (R = TPlain d) by congruence. subst R. clear ER.
  assert (Sm : forall m, (x1 g <= fst m < x2 g /\ y1 g <= snd m < y2 g)%Z -> exists s, series_at (TPlain d) (fst m - x1 g, snd m - y1 g)%Z = Ok s /\ series_at (TPlain full) m = Ok s).
  { intros [mx my] Hm. cbn [fst snd] in *. rewrite Sd by lia. replace (x1 g + (mx - x1 g))%Z with mx by lia. replace (y1 g + (my - y1 g))%Z with my by lia.
    destruct Hg as (G1 & G2 & G3 & G4). destruct (ser_ok full (mx, my) Hw) as (s & Es & _); [split; cbn [fst snd]; lia|]. exists s. auto. }
  destruct (medoid_data_ok g sr (TPlain d)) as (data & Edata & F).
  { intros r ms m Hin Hm. destruct (Hs r ms Hin) as [_ H]. destruct (Sm m (H m Hm)) as (s & E & _). eauto. }
  unfold medoid_series_csv. rewrite Edata. cbn [bind].
  assert (Eh : exists header, csv_header sr (t_len (TPlain d)) = Ok header).
  { destruct sr as [|[r ms] sr']; [contradiction|]. destruct (Hs r ms (or_introl eq_refl)) as [(md & Em) _].
    unfold csv_header. change (getitem (map fst ((r, ms) :: sr')) 0) with (Ok r). cbn [bind]. rewrite Em. cbn [bind]. eauto. }
  destruct Eh as [header Eh]. rewrite Eh. cbn [bind].
  assert (Er : exists rows, mapM (fun '(clustering_repr, entries) => mapM (fun '(i, m, s) => medoid_row region_id clustering_repr i m s) entries) data = Ok rows /\
    Forall2 (fun '(r, i, m) row => exists md s, factory_from_repr r = Ok md /\ series_at (TPlain full) m = Ok s /\
        row = ([FStr region_id] ++ map snd (as_dict md) ++ [FInt (Z.of_nat i); FInt (fst m); FInt (snd m)] ++ map (FNum 3) s)%list)
      (flat_map (fun '(r, ms) => map (fun '(i, m) => (r, i, m)) (combine (seq 0 (length ms)) ms)) sr) (List.concat rows)).
  { clear Edata Eh Hne. induction F as [|[r ms] [r' entries] sr' data' [-> Fe] F IH]; cbn [mapM flat_map]; [eexists; split; [reflexivity|constructor]|].
    destruct (Hs r ms (or_introl eq_refl)) as [(md & Em) Hm].
    assert (A : exists rows, mapM (fun '(i, m, s) => medoid_row region_id r i m s) entries = Ok rows /\
      Forall2 (fun '(r, i, m) row => exists md s, factory_from_repr r = Ok md /\ series_at (TPlain full) m = Ok s /\
        row = ([FStr region_id] ++ map snd (as_dict md) ++ [FInt (Z.of_nat i); FInt (fst m); FInt (snd m)] ++ map (FNum 3) s)%list)
      (map (fun '(i, m) => (r, i, m)) (combine (seq 0 (length ms)) ms)) rows).
    { assert (Hin : forall i m, In (i, m) (enumerate ms) -> In m ms) by (intros i m H; eapply in_combine_r; exact H).
      unfold enumerate in *. revert Fe Hin. generalize (combine (seq 0 (length ms)) ms) as l. intros l Fe Hin.
      induction Fe as [|[i m] [[i' m'] s] l entries' (-> & -> & Es) Fe IHe]; cbn [mapM map]; [eexists; split; [reflexivity|constructor]|].
      unfold medoid_row at 1. rewrite Em. cbn [bind]. destruct IHe as (rows & E & Fr); [intros; eapply Hin; right; eauto|]. rewrite E. cbn [bind].
      eexists. split; [reflexivity|]. constructor; auto. exists md, s. split; auto. split; auto.
      destruct (Sm m (Hm m (Hin i m (or_introl eq_refl)))) as (s' & E1 & E2). congruence. }
    destruct A as (rows & E & Fr). rewrite E. cbn [bind]. destruct IH as (rows' & E' & Fr'); [intros r0 ms0 H; apply Hs; right; auto|]. rewrite E'. cbn [bind].
    eexists. split; [reflexivity|]. cbn [List.concat]. apply Forall2_app; auto. }
  destruct Er as (rows & Er & Fr). rewrite Er. cbn [bind]. exists header, (List.concat rows). auto.
Qed.
Print Assumptions C83_medoid_series.
Example C83_example : medoid_series_csv (Rect 0 1 1 3) "reg" [("regular_k2", [(0, 1); (0, 2)])]%Z%string (TPlain (mk3 2 1 2 (map (fun z => Fin (inject_Z z)) [2; 3; 5; 6]%Z))) =
  Ok (["region_id"; "type"; "k"; "cluster_index"; "medoid_x"; "medoid_y"; "s0"; "s1"],
      [[FStr "reg"; FStr "regular"; FInt 2; FInt 0; FInt 0; FInt 1; FNum 3 (Fin 2); FNum 3 (Fin 5)];
       [FStr "reg"; FStr "regular"; FInt 2; FInt 1; FInt 0; FInt 2; FNum 3 (Fin 3); FNum 3 (Fin 6)]])%string /\
  rect_in (Rect 0 1 1 3) 1 3 /\ t_region_subset (TPlain ex_d3) (Rect 0 1 1 3) = Ok (TPlain (mk3 2 1 2 (map (fun z => Fin (inject_Z z)) [2; 3; 5; 6]%Z))).
Proof. split; [reflexivity|]. split; [unfold rect_in; cbn; lia|reflexivity]. Qed.
(** C83, why the medoids must lie in the region: one just left of it silently gets the series of the last column (numpy
    counts negative indices from the end). *)
Theorem C83_foreign_medoid_refuted :
  medoid_series_csv (Rect 0 1 1 3) "reg" [("regular_k1", [(0, 0)])]%Z%string (TPlain (mk3 2 1 2 (map (fun z => Fin (inject_Z z)) [2; 3; 5; 6]%Z))) =
  Ok (["region_id"; "type"; "k"; "cluster_index"; "medoid_x"; "medoid_y"; "s0"; "s1"],
      [[FStr "reg"; FStr "regular"; FInt 1; FInt 0; FInt 0; FInt 0; FNum 3 (Fin 3); FNum 3 (Fin 6)]])%string /\
  series_at (TPlain ex_d3) (0, 0)%Z = Ok [Fin 1; Fin 4].
Proof. split; reflexivity. Qed.
Print Assumptions C83_foreign_medoid_refuted.

(** C84: the prediction error as penalty.  For a trained solver whose partition has one cluster for each medoid, all
    penalties are infinite but that of the medoid whose cluster holds the point; there it is the error, against the last
    samples of the point, of what the model of that medoid forecasts. *)
Theorem C84_penalties : forall {P M} (kind : model_kind P M) solver_of mp cluster d sc tl et s p medoids m dist c repr clustering ms pt ps,
  forecasts_fit kind -> qwf d sc -> tl <= a3t d -> cluster (qregion d sc) = Ok (p, medoids) ->
  valid_partition p (a3x d) (a3y d) -> medoids_of p (a3x d) (a3y d) medoids -> length ms = length medoids ->
  solver_train kind (full2 (a3x d) (a3y d) (Some mp)) (default_refitter kind (full2 (a3x d) (a3y d) (Some mp)))
    cluster (qregion d sc) (Z.of_nat tl) et = Ok s ->
  sm_test_len m = Z.of_nat tl -> sm_kind m = SClustering c repr -> solver_of clustering = Ok (s, m) -> in_grid (a3x d) (a3y d) pt ->
  min_error_penalties kind solver_of dist (is_scaled sc) (qregion d sc) clustering ms pt = Ok ps ->
  length ps = length ms /\
  exists k medoid series own model forecast f o t func e, label_at p pt (Z.of_nat k) /\ nth_error medoids k = Some medoid /\ nth_error ps k = Some e /\
    (forall j, j < length ps -> j <> k -> nth_error ps j = Some PInf) /\
    series3 d (fst medoid) (snd medoid) = Ok series /\ series3 d (fst pt) (snd pt) = Ok own /\
    training_function kind mp (firstn (length series - tl) series) = Ok model /\ forecast_by kind model tl = Ok forecast /\
    shown sc pt forecast f /\ shown sc pt (skipn (length own - tl) own) o /\ shown sc pt (firstn (length own - tl) own) t /\
    get_error_func et = Ok func /\ func f o (Some t) = Ok e.
Proof.
  intros P M kind solver_of mp cluster d sc tl et s p medoids m dist c repr clustering ms pt ps Hfit Hq Htl Hcl Hv Hmed Lms Htr Etl Ek Es Hg H.
  unfold min_error_penalties in H. rewrite Es in H. cbn [bind] in H.
  set (g := Rect (fst pt) (fst pt + 1) (snd pt) (snd pt + 1)) in *.
  assert (Rg : rect_in g (a3x d) (a3y d)). { destruct Hg. unfold rect_in, g. cbn. lia. }
  destruct (solver_result kind s m dist (is_scaled sc) (qregion d sc) g 0) as [r|] eqn:Er; cbn [bind] in H; [|discriminate].
  destruct (C59_solver_results kind mp cluster d sc tl et s p medoids m dist c repr g 0 r Hfit Hq Htl Hcl Hv Hmed Htr Rg Etl Ek Er)
    as (q & inner & Eq & Ew & _ & Hin). cbn zeta in Ew, Hin. destruct Hin as [[Bad _]|[_ (test & Et & Ei)]]; [lia|]. subst inner r.
  unfold prediction_error_at in H. cbn [base_of rb_errors] in H.
  destruct (value_at (pr_errors q) (0, 0)%Z) as [e0|] eqn:Ee; cbn [bind] in H; [|discriminate].
  destruct (C58_in_sample kind mp cluster d sc tl et s p medoids g 0 q Hfit Hq Htl Rg ltac:(lia) Hcl Hv Hmed Htr Eq)
    as (test' & func & Et' & Ef & _ & _ & _ & Sp).
  assert (D0 : in_domain g (0, 0)%Z = pt). { unfold in_domain, g. destruct pt as [a b]. cbn [fst snd x1 y1]. f_equal; lia. }
  assert (G0 : in_grid (Z.to_nat (x2 g - x1 g)) (Z.to_nat (y2 g - y1 g)) (0, 0)%Z). { unfold g. split; cbn [fst snd x1 x2 y1 y2]; lia. }
  destruct (C58_every_point_represented p _ _ medoids pt Hv Hmed Hg) as (medoid & Hrep & _).
  pose proof Hrep as (cl & Lab & Cpos & Emed).
  destruct (proj2 Hmed (Z.to_nat cl) medoid Emed) as [Gm _].
  destruct (ser_ok d medoid (proj1 Hq) Gm) as (series & Eseries & _). destruct (ser_ok d pt (proj1 Hq) Hg) as (own & Eown & _).
  specialize (Sp (0, 0)%Z medoid series own G0). rewrite D0 in Sp. destruct (Sp Hrep Eseries Eown) as (model & forecast & f & o & t & e & S1 & S2 & S3 & _ & S5 & _ & S7 & S8 & S9).
  assert (e0 = e) by congruence. subst e0.
  destruct (solver_train_spec kind mp _ cluster d sc tl et s p medoids _ Hfit Hq Htl Hcl Hv Hmed (default_refits kind mp d sc tl medoids Hq) Htr) as (Ep & _).
  rewrite Ep in H. destruct (cluster_index_ok p _ _ pt Hv Hg) as (cl' & Ecl & Lab'). unfold cluster_index_of in Ecl.
  assert (cl' = cl) by (unfold label_at in *; congruence). subst cl'. rewrite Ecl in H. cbn [bind] in H.
  assert (Kk : Z.to_nat cl < length medoids) by (apply nth_error_Some; congruence).
  rewrite <- (Z2Nat.id cl Cpos) in H. apply setitem_nat_inv in H. destruct H as [_ ->]. rewrite replace_nth_length, repeat_length. split; auto.
  exists (Z.to_nat cl), medoid, series, own, model, forecast, f, o, t, func, e. rewrite Z2Nat.id by auto.
  split; auto. split; auto. split; [apply replace_nth_same; rewrite repeat_length; lia|]. split.
  - intros j Hj Nj. rewrite replace_nth_other by lia. apply nth_error_repeat. auto.
  - repeat (split; auto).
Qed.
Print Assumptions C84_penalties.

(** C84: so whatever the suite, the medoid chosen for a point is the one whose cluster holds it in the partition of its
    clustering. *)
Theorem C84_own_cluster : forall {P M} (kind : model_kind P M) solver_of dist scaled R sr pt threshold h r i m h',
  penalties_fit (min_error_penalties kind solver_of dist scaled R) sr pt -> threshold = 0%Z \/ within threshold h ->
  choose_medoid (min_error_penalties kind solver_of dist scaled R) sr pt threshold h = (Ok (r, i, m), h') ->
  exists s md c, solver_of r = Ok (s, md) /\ cluster_index_of (so_partition s) pt = Ok c /\ ((0 <= c)%Z -> c = i).
Proof.
  intros P M kind solver_of dist scaled R sr pt threshold h r i m h' Hf Hw E.
  pose proof (C61_least_penalty _ sr pt threshold h Hf Hw) as C. rewrite E in C.
  destruct C as (n & k & v & -> & (ms & ps & E1 & E2 & E3 & E4 & _) & (q & ->) & _).
  unfold min_error_penalties in E3. destruct (solver_of r) as [[s md]|] eqn:Es; cbn [bind] in E3; [|discriminate].
  destruct (solver_result kind s md dist scaled R _ 0) as [res|]; cbn [bind] in E3; [|discriminate].
  destruct (prediction_error_at res (0, 0)%Z) as [e|]; cbn [bind] in E3; [|discriminate].
  exists s, md. unfold cluster_index_of. destruct (l <- membership_of_points (so_partition s) [pt] ;; getitem l 0) as [c|]; cbn [bind] in E3; [|discriminate].
  exists c. split; auto. split; auto. intros Hc. rewrite <- (Z2Nat.id c Hc) in E3. apply setitem_nat_inv in E3. destruct E3 as [L ->].
  destruct (Nat.eq_dec (Z.to_nat c) k) as [<-|N]; [lia|]. rewrite replace_nth_other in E4 by auto.
  apply nth_error_In, repeat_spec in E4. discriminate.
Qed.
Print Assumptions C84_own_cluster.
(** the solver of Props/Solver.v as the only one: its partition has one cluster *)
Example C84_example :
  (s <- solver_train mean_kind (full2 1 2 (Some 2%Z)) (default_refitter mean_kind (full2 1 2 (Some 2%Z))) ex_cluster (qregion ex_d ex_sc) 2 "MSE" ;;
   min_error_penalties mean_kind (fun _ => Ok (s, ex_meta)) (ByDTW ex_dtw) true (qregion ex_d ex_sc) "regular_k1" [(40, 80)]%Z (0, 1)%Z)
  = Ok [Fin (1425920000 # 32)].
Proof. vm_compute. reflexivity. Qed.
