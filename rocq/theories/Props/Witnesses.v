(** Further concrete cases that meet the hypotheses of theorems: each theorem is applied to them. *)
From Coq Require Import String QArith Lia Lqa.
From Verif Require Import Base.Py Base.PyFacts Base.Str Base.Arr Base.ArrFacts Base.Float Base.FloatFacts Spec.Grid Model.Region Model.Arrays Model.FuzzyMask Model.Distance
  Model.Errors Model.Forecast Model.Optimize Model.Clustering Model.Algorithms Model.SolverFiles Spec.Partition Spec.Regions Spec.Distance Spec.Optimize Spec.Forecast Spec.Solver
  Props.Basics Props.Fuzzy Props.Forecast Props.Optimize Props.Clustering Props.Distance Props.Algorithms.
From Coq Require Import ZifyBool ZifyNat.
Local Notation length := List.length.
Local Close Scope Q_scope.
Local Open Scope nat_scope.

(* C105: two models, one faster, one with a smaller error *)
Definition two_models : list (list fnum) := [[Fin 5; Fin 1; Fin 4]; [Fin 6; Fin 2; Fin 2]]%Q.
Lemma two_measured : measured_results two_models.
Proof.
  intros row [ <- | [ <- | [] ] ].
  - exists 1%Q, 4%Q. split; [ exists [Fin 5]; auto | ]. lra.
  - exists 2%Q, 2%Q. split; [ exists [Fin 6]; auto | ]. lra.
Qed.
Example C105_ex_sweep : exists l, sweep_cost_factors two_models = Ok l /\ length l = 10 /\
  exists sw, nth_error l 0 = Some sw /\ s_best sw <> [].
Proof.
  destruct (C105_sweep two_models two_measured) as (l & E & L & H).
  - exists [Fin 5; Fin 1; Fin 4], 1%Q, 4%Q. split; [ left; reflexivity | ]. split; [ exists [Fin 5]; reflexivity | lra ].
  - exists [Fin 5; Fin 1; Fin 4], 1%Q, 4%Q. split; [ left; reflexivity | ]. split; [ exists [Fin 5]; reflexivity | lra ].
  - exists l. split; [ exact E | ]. split; [ exact L | ]. destruct (nth_error l 0) as [ sw | ] eqn:En; [ | apply nth_error_None in En; lia ].
    exists sw. split; [ reflexivity | ]. destruct (H 0 sw En) as (a & b & _ & _ & _ & _ & B & _). exact B.
Qed.
Example C105_ex_nothing_missed : exists row' t' e', In row' two_models /\ has_perf row' t' e' /\ (t' <= 4)%Q /\ (e' <= 3)%Q.
Proof.
  apply (C105_nothing_missed pareto_filter rows3 two_models [Fin 7; Fin 4; Fin 3] 4 3 pareto_filter_contract (proj1 C105_example) (proj2 C105_example)).
  - right. right. left. reflexivity.
  - exists [Fin 7]. reflexivity.
Qed.

(* C33: a missing membership, and the threshold one *)
Definition gap_u : arr3 fnum := mk3 2 1 2 [Fin (1 # 2); NaN; Fin (1 # 2); Fin 1]%Q.
Example C33_ex_missing : exists m, mk_fmask gap_u 1 (Fin 1) = Ok m /\ fmask_is_member m (Some (0, 1)%Z) = Ok false /\ fmask_is_member m (Some (0, 0)%Z) = Ok true.
Proof.
  eexists. split; [ reflexivity | ]. split.
  - apply (C33_missing_membership gap_u 1 (Fin 1) _ 0 1 [NaN; Fin 1%Q]); try reflexivity; [ split; cbn; lia | left; reflexivity ].
  - apply (C33_threshold_one gap_u 1 _ 0 0 [Fin (1 # 2); Fin (1 # 2)]%Q); try reflexivity; [ split; cbn; lia | ].
    intros v [ <- | [ <- | [] ] ]; split; reflexivity.
Qed.

(* C116: the regular partition of three points without a matrix of distances *)
Example C116_ex_no_matrix : exists p, with_regular_partition 3 1 3 = Ok p /\
  regular_partition_impl ex_env 3 None (qregion ex_d None) true (fresh PlainDTW) = Raise ValueError /\
  regular_partition_impl ex_env 3 None (qregion ex_d None) false (fresh PlainDTW) = Ok (p, None).
Proof.
  destruct (with_regular_partition 3 1 3) as [ p | ] eqn:E; [ | vm_compute in E; discriminate ]. exists p. split; [ reflexivity | ].
  destruct (load_distance_matrix_md ex_env None (fresh PlainDTW)) as [ [ M | e ] o' ] eqn:El; [ vm_compute in El; discriminate | ].
  apply (C116_regular_needs_matrix _ _ _ ex_d None 1 3 3 p e o'); try reflexivity; try lia; [ split; [ exact ex_wf | exact I ] | exact E | exact El ].
Qed.

(* C39: costs that are missing, and a repeated number of clusters *)
Definition wk (k seed : Z) := CKmedoids (kmeta_default k seed "lite").
Example C39_ex_nan : find_cost_elbow_given_order [(wk 2 1, Fin 4%Q); (wk 3 1, NaN); (wk 4 1, Fin 1%Q)] [wk 2 1; wk 3 1; wk 4 1] = Ok (wk 4 1).
Proof.
  apply (C39_nan_costs_return_last _ _ [Fin 4%Q; NaN; Fin 1%Q]); try reflexivity.
  - repeat constructor; cbn; lia.
  - repeat constructor.
  - intros i H1 H2. cbn in H2. assert (i = 1) as -> by lia. exists 1. split; [ lia | reflexivity ].
Qed.
