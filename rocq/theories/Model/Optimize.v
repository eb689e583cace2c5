(** spta/arima/optimize.py: the models with the best computing time and prediction error. *)
From Coq Require Import QArith.
From Verif Require Import Base.Py Base.Float Model.Variance.
Local Close Scope Q_scope.
Local Open Scope nat_scope.

(** optimize.py:22-25 the last two columns of a row of the results *)
Definition perf_point (row : list fnum) : list fnum := skipn (length row - 2) row.
Definition perf_pair (row : list fnum) : res (fnum * fnum) :=
  time <- getitem (perf_point row) 0 ;;
  error <- getitem (perf_point row) 1 ;;
  Ok (time, error).

(** optimize.py:14-69 find_best_models; [pareto ws] is what the external package answers with allindices after the values ws are
    added in order.  The scatter plot and the log are left out *)
Definition find_best_models (pareto : list (fnum * fnum) -> list nat) (results : list (list fnum)) : res (list (list fnum)) :=
  ws <- mapM (fun row => '(time, error) <- perf_pair row ;; Ok (fdiv (Fin 1) time, fdiv (Fin 1) error)) results ;;
  mapM (fun i => getitem results (Z.of_nat i)) (pareto ws).

(** optimize.py:72-81 scale_perf_values: each column divided by its maximum *)
Definition scale_perf_values (perf : list (fnum * fnum)) : res (list (fnum * fnum) * (fnum * fnum)) :=
  mt <- np_max (map fst perf) ;;
  me <- np_max (map snd perf) ;;
  Ok (map (fun p => (fdiv (fst p) mt, fdiv (snd p) me)) perf, (mt, me)).

(** one step of the sweep as it is logged: alpha and beta, the cost of every model, the best models and the cost logged for them *)
Record sweep := Sweep { s_alpha : fnum; s_beta : fnum; s_costs : list fnum; s_best : list (list fnum); s_best_cost : fnum }.

(** optimize.py:101-122 the loop body for gamma = step / 10; np.min is the value at argmin; [cost] is left from the last model (l.112-115) *)
Definition sweep_step (optimal : list (list fnum)) (scaled : list (fnum * fnum)) (factors : fnum * fnum) (step : nat) : res sweep :=
  let gamma := Fin (inject_Z (Z.of_nat step) / 10) in
  let rest := fsub (Fin 1) gamma in
  let costs := map (fun p => fadd (fmul gamma (fst p)) (fmul rest (snd p))) scaled in
  least <- np_argmin costs ;;
  least_cost <- getitem costs (Z.of_nat least) ;;
  last_cost <- getitem costs (-1) ;;
  Ok (Sweep (fdiv gamma (fst factors)) (fdiv rest (snd factors)) costs
            (map fst (filter (fun p => feqb (snd p) least_cost) (combine optimal costs))) last_cost).

(** optimize.py:84-122 sweep_cost_factors, COST_STEPS = 10 *)
Definition sweep_cost_factors (optimal : list (list fnum)) : res (list sweep) :=
  perf <- mapM perf_pair optimal ;;
  '(scaled, factors) <- scale_perf_values perf ;;
  mapM (sweep_step optimal scaled factors) (seq 0 10).
