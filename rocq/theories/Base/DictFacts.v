(** Facts about Base.Dict. *)
From Verif Require Import Base.Py Base.PyFacts Base.Dict.

(** key comparisons that are equivalence relations *)
Definition key_equiv {K} (eqb : K -> K -> bool) : Prop :=
  (forall a, eqb a a = true) /\ (forall a b, eqb a b = eqb b a) /\
  (forall a b c, eqb a b = true -> eqb b c = true -> eqb a c = true).

Lemma Z_key : key_equiv Z.eqb.
Proof.
  split; [|split].
  - apply Z.eqb_refl.
  - apply Z.eqb_sym.
  - intros a b c. rewrite !Z.eqb_eq. congruence.
Qed.

Section D.
Context {K V : Type} (eqb : K -> K -> bool) (HK : key_equiv eqb).
Implicit Types d : list (K * V).

Lemma dict_get_set k k' v d : dict_get eqb k (dict_set eqb k' v d) = if eqb k' k then Ok v else dict_get eqb k d.
Proof using HK.
  destruct HK as (R & S & T).
  induction d as [|[k1 v1] d IH]; cbn; auto.
  destruct (eqb k1 k') eqn:E; cbn.
  - destruct (eqb k1 k) eqn:E2, (eqb k' k) eqn:E3; auto.
    + rewrite S in E. rewrite (T _ _ _ E E2) in E3. discriminate.
    + rewrite (T _ _ _ E E3) in E2. discriminate.
  - rewrite IH. destruct (eqb k1 k) eqn:E2, (eqb k' k) eqn:E3; auto.
    rewrite S in E3. rewrite (T _ _ _ E2 E3) in E. discriminate.
Qed.

Lemma dict_set_fresh k v d : dict_in eqb k d = false -> dict_set eqb k v d = d ++ [(k, v)].
Proof using.
  unfold dict_in. induction d as [|[k1 v1] d IH]; cbn; auto. intros H. apply orb_false_iff in H. destruct H as [-> H].
  f_equal; auto.
Qed.

Lemma dict_in_app k d d' : dict_in eqb k (d ++ d') = dict_in eqb k d || dict_in eqb k d'.
Proof using. apply existsb_app. Qed.

Lemma dict_set_app_r k v d d' : dict_in eqb k d = false -> dict_set eqb k v (d ++ d') = d ++ dict_set eqb k v d'.
Proof using.
  unfold dict_in. induction d as [|[k1 v1] d IH]; cbn; auto. intros H. apply orb_false_iff in H. destruct H as [-> H].
  f_equal; auto.
Qed.

Lemma dict_get_not_in k d : dict_in eqb k d = false -> dict_get eqb k d = Raise KeyError.
Proof using.
  unfold dict_in. induction d as [|[k1 v1] d IH]; cbn; auto. intros H. apply orb_false_iff in H. destruct H as [-> H]. auto.
Qed.

Lemma dict_get_in k d : dict_in eqb k d = true -> exists v, dict_get eqb k d = Ok v.
Proof using.
  unfold dict_in. induction d as [|[k1 v1] d IH]; cbn; [discriminate|]. destruct (eqb k1 k); eauto.
Qed.

Lemma dict_in_set k k' v d : dict_in eqb k (dict_set eqb k' v d) = eqb k' k || dict_in eqb k d.
Proof using HK.
  destruct HK as (R & S & T).
  unfold dict_in. induction d as [|[k1 v1] d IH]; cbn; auto.
  destruct (eqb k1 k') eqn:E; cbn.
  - destruct (eqb k1 k) eqn:E2; cbn; [rewrite orb_true_r; auto|].
    destruct (eqb k' k) eqn:E3; auto. rewrite (T _ _ _ E E3) in E2. discriminate.
  - rewrite IH. destruct (eqb k1 k), (eqb k' k); auto.
Qed.
End D.
