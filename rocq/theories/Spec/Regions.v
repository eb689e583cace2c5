(** The regions a user builds: an array; the scaled form of one; or one cluster of a partition of such a region. *)
From Verif Require Import Base.Py Base.Arr Model.Region Spec.Grid.

Fixpoint unclustered {A} (r : stregion A) : bool :=
  match r with TPlain _ => true | TCluster _ _ _ => false | TScaled r' _ _ => unclustered r' end.
Definition s_unclustered {A} (r : sregion A) : bool := match r with SPlain _ => true | SCluster _ _ _ => false end.

(** the labels of a partition cover the grid of the region *)
Definition covers (p : crisp) (x y : nat) : Prop := wf2 (labels p) /\ a2x (labels p) = x /\ a2y (labels p) = y.

Inductive proper_s {A} : sregion A -> Prop :=
| proper_s_plain d : wf2 d -> proper_s (SPlain d)
| proper_s_cluster d p c : wf2 d -> covers p (a2x d) (a2y d) -> proper_s (SCluster (SPlain d) p c).

Inductive proper_st {A} : stregion A -> Prop :=
| proper_plain d : wf3 d -> proper_st (TPlain d)
| proper_scaled r mn mx : proper_st r -> proper_s mn -> proper_s mx ->
    s_x mn = t_x r -> s_y mn = t_y r -> s_x mx = t_x r -> s_y mx = t_y r -> proper_st (TScaled r mn mx)
| proper_cluster r p c : proper_st r -> unclustered r = true -> covers p (t_x r) (t_y r) -> proper_st (TCluster r p c).
