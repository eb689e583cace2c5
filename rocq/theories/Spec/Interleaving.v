(** Programs that run at the same time. *)
From Verif Require Import Base.Py.

(** [schedule] runs the steps of all the [programs] to their end, each program's steps in its order *)
Inductive interleaving {A} : list (list A) -> list A -> Prop :=
| All_done : forall programs, (forall p, In p programs -> p = []) -> interleaving programs []
| One_step : forall before a p after schedule,
    interleaving (before ++ p :: after) schedule -> interleaving (before ++ (a :: p) :: after) (a :: schedule).
