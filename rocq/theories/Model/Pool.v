(** multiprocessing.Pool.map over tasks that write a shared array under its lock: spta/util/parallel.py and
    spta/model/error_parallel.py; and the older queue of spta/util/parallel_old.py.  The tasks, their slots in the
    shared array and their results are parameters.  Worker processes that die are not modelled. *)
From Verif Require Import Base.Py Base.Arr Base.Float.

(** multiprocessing.pool.Pool._get_tasks: consecutive chunks of [size] tasks (the last may be shorter) *)
Fixpoint chunks_fuel {T} (fuel size : nat) (l : list T) : list (list T) :=
  match fuel, l with
  | O, _ | _, [] => []
  | S f, _ => firstn size l :: chunks_fuel f size (skipn size l)
  end.
Definition chunks {T} (size : nat) (l : list T) : list (list T) := chunks_fuel (length l) size l.

Section Pool.
Context {T : Type} (slot : T -> nat) (run : T -> res fnum).

(** What a worker is doing with the rest of its chunk: nothing, about to start a task, having computed a result
    (util/parallel.py:58-59), inside [with get_lock()] before the assignment (l.66-68), after it (l.71). *)
Inductive wstate :=
| Idle
| Todo (rest : list T)
| Computed (t : T) (v : fnum) (rest : list T)
| Holding (t : T) (v : fnum) (rest : list T)
| Written (rest : list T).

(** the chunks nobody has taken, the workers, the holder of the lock, the shared array, and the exception of the
    first chunk reported as failed *)
Record pstate := PState { p_queue : list (list T); p_workers : list wstate; p_lock : option nat;
                          p_out : list fnum; p_failed : option exn }.

(** util/parallel.py:145-155, model/error_parallel.py:117-135: the pool before any worker has run; mp.Pool raises
    ValueError for fewer than one process *)
Definition pool_start (num_proc chunksize : nat) (tasks : list T) (out : list fnum) : pstate :=
  PState (chunks chunksize tasks) (repeat Idle num_proc) None out None.

(** One step of one worker [w]; the scheduler picks any of the possible steps. *)
Inductive pstep : pstate -> pstate -> Prop :=
(* a free worker takes the next chunk of the queue *)
| st_take c q ws lk out f w :
    nth_error ws w = Some Idle ->
    pstep (PState (c :: q) ws lk out f) (PState q (replace_nth ws w (Todo c)) lk out f)
(* the chunk is finished and reported *)
| st_finish q ws lk out f w :
    nth_error ws w = Some (Todo []) ->
    pstep (PState q ws lk out f) (PState q (replace_nth ws w Idle) lk out f)
(* util/parallel.py:58-59, error_parallel.py:56-62: the wrapped function is evaluated *)
| st_compute q ws lk out f w t v rest :
    nth_error ws w = Some (Todo (t :: rest)) -> run t = Ok v ->
    pstep (PState q ws lk out f) (PState q (replace_nth ws w (Computed t v rest)) lk out f)
(* ... or raises: the rest of the chunk is abandoned, the failure is reported to map *)
| st_raise q ws lk out f w t e rest :
    nth_error ws w = Some (Todo (t :: rest)) -> run t = Raise e ->
    pstep (PState q ws lk out f)
          (PState q (replace_nth ws w Idle) lk out (match f with None => Some e | Some e0 => Some e0 end))
(* util/parallel.py:66, error_parallel.py:71: waiting for the lock of the shared array ends *)
| st_acquire q ws out f w t v rest :
    nth_error ws w = Some (Computed t v rest) ->
    pstep (PState q ws None out f) (PState q (replace_nth ws w (Holding t v rest)) (Some w) out f)
(* util/parallel.py:71, error_parallel.py:78: the assignment *)
| st_write q ws lk out f w t v rest :
    nth_error ws w = Some (Holding t v rest) ->
    pstep (PState q ws lk out f) (PState q (replace_nth ws w (Written rest)) lk (replace_nth out (slot t) v) f)
(* leaving the with block *)
| st_release q ws lk out f w rest :
    nth_error ws w = Some (Written rest) ->
    pstep (PState q ws lk out f) (PState q (replace_nth ws w (Todo rest)) None out f).

(** any number of steps *)
Inductive psteps : pstate -> pstate -> Prop :=
| ps_refl s : psteps s s
| ps_step s s' s'' : psteps s s' -> pstep s' s'' -> psteps s s''.

(** pool.map returns (or raises) when every chunk has been reported *)
Definition pool_done (s : pstate) : Prop := p_queue s = [] /\ forall w, In w (p_workers s) -> w = Idle.

(** the result of pool.map followed by reading the shared array *)
Definition pool_outcome (s : pstate) : res (list fnum) :=
  match p_failed s with None => Ok (p_out s) | Some e => Raise e end.

(* ---------- util/parallel_old.py ---------- *)

(** a process of process_one_task (l.92-120): asking the queue, working on one task, finished *)
Inductive qwstate := QAsk | QBusy (t : T) | QDone.
Record qstate := QState { q_queue : list T; q_workers : list qwstate; q_out : list fnum }.

(** util/parallel_old.py:46-83: the queue with every task, one process per num_proc *)
Definition queue_start (num_proc : nat) (tasks : list T) (out : list fnum) : qstate :=
  QState tasks (repeat QAsk num_proc) out.

Inductive qstep : qstate -> qstate -> Prop :=
(* get_nowait (l.104) returns the first task *)
| qst_get t q ws out w :
    nth_error ws w = Some QAsk ->
    qstep (QState (t :: q) ws out) (QState q (replace_nth ws w (QBusy t)) out)
(* ... or raises queue.Empty (l.106-108): the process ends *)
| qst_empty ws out w :
    nth_error ws w = Some QAsk ->
    qstep (QState [] ws out) (QState [] (replace_nth ws w QDone) out)
(* work (l.26-31): the item of the managed array is assigned *)
| qst_work q ws out w t v :
    nth_error ws w = Some (QBusy t) -> run t = Ok v ->
    qstep (QState q ws out) (QState q (replace_nth ws w QAsk) (replace_nth out (slot t) v))
(* an exception ends the process; execute_func_on_2D does not look at exit codes *)
| qst_raise q ws out w t e :
    nth_error ws w = Some (QBusy t) -> run t = Raise e ->
    qstep (QState q ws out) (QState q (replace_nth ws w QDone) out).

Inductive qsteps : qstate -> qstate -> Prop :=
| qs_refl s : qsteps s s
| qs_step s s' s'' : qsteps s s' -> qstep s' s'' -> qsteps s s''.

(** l.80-82: every process has been joined; with num_proc = 0 this holds at once *)
Definition queue_done (s : qstate) : Prop := forall w, In w (q_workers s) -> w = QDone.
End Pool.
Arguments wstate T : clear implicits.
Arguments pstate T : clear implicits.
Arguments qwstate T : clear implicits.
Arguments qstate T : clear implicits.
