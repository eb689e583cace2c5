(** spta/util/parallel_old.py: a queue of tasks over the positions of a matrix, worked off by processes that may raise or
    be killed at any moment.  Model/Pool.v has the same queue without kills.  The queue and the array are objects of a
    multiprocessing Manager: one operation on them happens at once. *)
From Verif Require Import Base.Py Base.Arr Base.Float.

(** parallel_old.py:9-36 a Parallel2DTask without the array it shares with the others *)
Record task2d := Task2D { td_i : nat; td_j : nat; td_row_len : nat }.

(** parallel_old.py:59-65 the task number [k] of a matrix with [n] columns; [int(k / n)] is exact below 2^53 *)
Definition task_of (n k : nat) : task2d := Task2D (k / n) (k mod n) n.
Definition all_tasks (m n : nat) : list task2d := map (task_of n) (seq 0 (m * n)).

(** parallel_old.py:30 the place of a task in the shared array *)
Definition task_slot (t : task2d) : nat := td_i t * td_row_len t + td_j t.

(** a process of parallel_old.py:92-124: about to ask the queue (l.104), with a task (l.114-117), with the value of its
    task before the assignment (l.31), ended by the empty queue (l.106-108), ended by an exception, killed *)
Inductive proc :=
| PAsk
| PTask (t : task2d)
| PValue (t : task2d) (v : fnum)
| PEnded
| PRaised
| PKilled.
Definition stopped (p : proc) : bool := match p with PEnded | PRaised | PKilled => true | _ => false end.

(** the tasks left, the shared array, the processes, and the calls of the function so far *)
Record q2state := Q2State { s_queue : list task2d; s_shared : list fnum; s_procs : list proc; s_calls : list (nat * nat) }.

(** parallel_old.py:46-79: every task in the queue, an array of zeros, the processes started; range() of a negative
    number of processes is empty *)
Definition q2_start (num_proc : Z) (m n : nat) : q2state :=
  Q2State (all_tasks m n) (repeat (Fin 0) (m * n)) (repeat PAsk (Z.to_nat num_proc)) [].

(** what happens next: process [w] does its next step, or it is killed *)
Inductive event := Step (w : nat) | Kill (w : nat).

Section Queue.
Context (task_func : nat -> nat -> res fnum).

(** a stopped process, or one that does not exist, does nothing *)
Definition q2_step (s : q2state) (e : event) : q2state :=
  match e with
  | Step w =>
      match nth_error (s_procs s) w with
      | Some PAsk =>
          match s_queue s with
          | t :: q => Q2State q (s_shared s) (replace_nth (s_procs s) w (PTask t)) (s_calls s)
          | [] => Q2State [] (s_shared s) (replace_nth (s_procs s) w PEnded) (s_calls s)
          end
      | Some (PTask t) =>
          let calls := s_calls s ++ [(td_i t, td_j t)] in
          match task_func (td_i t) (td_j t) with
          | Ok v => Q2State (s_queue s) (s_shared s) (replace_nth (s_procs s) w (PValue t v)) calls
          | Raise _ => Q2State (s_queue s) (s_shared s) (replace_nth (s_procs s) w PRaised) calls
          end
      | Some (PValue t v) =>
          Q2State (s_queue s) (replace_nth (s_shared s) (task_slot t) v) (replace_nth (s_procs s) w PAsk) (s_calls s)
      | _ => s
      end
  | Kill w =>
      match nth_error (s_procs s) w with
      | Some p => if stopped p then s else Q2State (s_queue s) (s_shared s) (replace_nth (s_procs s) w PKilled) (s_calls s)
      | None => s
      end
  end.
Definition q2_run (s : q2state) (schedule : list event) : q2state := fold_left q2_step schedule s.

(** parallel_old.py:81-83: every process has been joined *)
Definition q2_joined (s : q2state) : bool := forallb stopped (s_procs s).

(** parallel_old.py:68-88 execute_func_on_2D under a schedule; None: the processes have not all stopped yet *)
Definition execute_func_on_2D (num_proc : Z) (m n : nat) (schedule : list event) : option (res (arr2 fnum)) :=
  let s := q2_run (q2_start num_proc m n) schedule in
  if q2_joined s then Some (reshape2 (s_shared s) m n) else None.
End Queue.
