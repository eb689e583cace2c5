(** The best models, for C105. *)
From Coq Require Import QArith.
From Verif Require Import Base.Py Base.Float.
Local Close Scope Q_scope.
Local Open Scope nat_scope.

(** the results of a model: its parameters, the computing time t and the prediction error e *)
Definition has_perf (row : list fnum) (t e : Q) : Prop := exists params, row = params ++ [Fin t; Fin e].

(** (t, e) is better than (t', e'): nowhere worse and somewhere better *)
Definition beats (t e t' e' : Q) : Prop := (t <= t')%Q /\ (e <= e')%Q /\ ((t < t')%Q \/ (e < e')%Q).

(** what the external package promises: the places of the values that no other value dominates, each once *)
Definition dominates (a b : fnum * fnum) : Prop :=
  fle (fst b) (fst a) = true /\ fle (snd b) (snd a) = true /\ (flt (fst b) (fst a) = true \/ flt (snd b) (snd a) = true).
Definition pareto_contract (pareto : list (fnum * fnum) -> list nat) : Prop :=
  forall ws, (forall w, In w ws -> is_nan (fst w) = false /\ is_nan (snd w) = false) ->
    NoDup (pareto ws) /\
    forall i, In i (pareto ws) <-> exists w, nth_error ws i = Some w /\ ~ exists w', In w' ws /\ dominates w' w.
