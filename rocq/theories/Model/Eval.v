(** eval/eval.cc: running a trader over a history, and evaluating it over periods. *)

From Coq Require Import ZArith Bool List String.
From Verif.Model Require Import Outcome Machine Types Account History SideInput Indicators TimeUtil.
Import ListNotations.

Section Eval.
  Context {M : machine}.
  Local Open Scope flt_scope.

  (** base/trader.h:41-77: a Trader (its state, Update and GetInternalState) together
      with the TraderEmitter that creates it.  Update may abort (asserts). *)
  Record trader_emitter : Type := TraderEmitter {
    te_name : string;                     (* GetName *)
    te_state : Type;
    te_new : te_state;                    (* NewTrader *)
    te_update : te_state -> ohlc_tick -> list flt -> flt -> flt -> outcome (te_state * list order);
    te_show : te_state -> string          (* GetInternalState *)
  }.

  (** logging/logger.h:13-28 Logger: any object with these three methods. *)
  Record logger : Type := Logger {
    lg_state : Type;
    lg_tick : lg_state -> ohlc_tick -> account -> lg_state;             (* LogExchangeState *)
    lg_order : lg_state -> ohlc_tick -> account -> order -> lg_state;   (* LogExchangeState *)
    lg_trader : lg_state -> string -> lg_state                          (* LogTraderState *)
  }.

  (** base/base.h:36 *)
  Definition kSecondsPerDay : Z := 24 * 60 * 60.

  Section Execute.
    Context (cfg : account_config) (side : option side_input) (fast : bool)
            (te : trader_emitter) (lg : logger) (has_logger : bool).

    (** The local variables of ExecuteTrader (eval.cc:47-62), the trader's state and
        the logger's state. *)
    Record exec_state : Type := ExecState {
      x_account : account;
      x_signals : list flt;
      x_prev_index : Z;
      x_orders : list order;
      x_executed : Z;
      x_base_vol : volatility;
      x_trader_vol : volatility;
      x_trader : te_state te;
      x_log : lg_state lg
    }.

    (** "if (logger != nullptr) logger->..." *)
    Definition log_if (f : lg_state lg -> lg_state lg) (l : lg_state lg) : lg_state lg :=
      if has_logger then f l else l.

    (** eval.cc:66-79: the side input signals for this tick. *)
    Definition side_input_part (t : ohlc_tick) (signals : list flt) (prev : Z)
      : outcome (list flt * Z) :=
      match side with
      | None => Done (signals, prev)
      | Some si =>
        do idx <- GetSideInputIndexHint si (timestamp_sec t) prev ;
        if (idx >=? 0)%Z then
          do sts <- GetSideInputTimestamp si idx ;
          do sig <- GetSideInputSignals si idx [] ;
          Done (sig ++ [fofZ (timestamp_sec t - sts)], idx)
        else Done (signals, prev)
      end.

    (** eval.cc:89-99: executing one order and logging it if it succeeded. *)
    Definition order_step (t : ohlc_tick) (s : account * Z * lg_state lg) (o : order)
      : outcome (account * Z * lg_state lg) :=
      let '(a, n, l) := s in
      do '(success, a') <- ExecuteOrder cfg o t a ;
      if (success : bool)
      then Done (a', (n + 1)%Z, log_if (fun l => lg_order lg l t a' o) l)
      else Done (a', n, l).

    (** eval.cc:63-121: one iteration of the loop over the ticks. *)
    Definition tick_step (s : exec_state) (t : ohlc_tick) : outcome exec_state :=
      do '(signals, prev) <- side_input_part t (x_signals s) (x_prev_index s) ;
      let l1 := log_if (fun l => lg_tick lg l t (x_account s)) (x_log s) in
      do '(a, n, l2) <- foldM (order_step t) (x_account s, x_executed s, l1) (x_orders s) ;
      if volume t =? #0 then
        Done {| x_account := a; x_signals := signals; x_prev_index := prev;
                x_orders := x_orders s; x_executed := n; x_base_vol := x_base_vol s;
                x_trader_vol := x_trader_vol s; x_trader := x_trader s; x_log := l2 |}
      else
        do '(ts, orders) <- te_update te (x_trader s) t signals (base_balance a) (quote_balance a) ;
        let l3 := log_if (fun l => lg_trader lg l (te_show te ts)) l2 in
        do bv <- (if fast then Done (x_base_vol s)
                  else vol_Update kSecondsPerDay (x_base_vol s) t #1 #0) ;
        do tv <- (if fast then Done (x_trader_vol s)
                  else vol_Update kSecondsPerDay (x_trader_vol s) t (base_balance a) (quote_balance a)) ;
        Done {| x_account := a; x_signals := signals; x_prev_index := prev;
                x_orders := orders; x_executed := n; x_base_vol := bv;
                x_trader_vol := tv; x_trader := ts; x_log := l3 |}.

    (** eval.cc:47-62: the initial values. *)
    Definition exec_init (l : lg_state lg) : outcome exec_state :=
      do bv <- NewVolatility 0 kSecondsPerDay ;
      do tv <- NewVolatility 0 kSecondsPerDay ;
      Done {| x_account := InitAccount cfg; x_signals := []; x_prev_index := -1;
              x_orders := []; x_executed := 0; x_base_vol := bv; x_trader_vol := tv;
              x_trader := te_new te; x_log := l |}.

    (** "GetVolatility() * std::sqrt(365)": a double product, narrowed to float
        (eval.cc:135-138). *)
    Definition annualize (v : flt) : flt := d2f (dmul (f2d v) (dsqrt (dofZ 365))).

    (** eval.cc:122-140: the result. [first], [last_] are the first and last tick. *)
    Definition exec_result (s : exec_state) (first last_ : ohlc_tick) : execution_result :=
      let a := x_account s in
      let start_price := close first in
      let end_price := close last_ in
      {| r_start_base_balance := start_base_balance cfg;
         r_start_quote_balance := start_quote_balance cfg;
         r_end_base_balance := base_balance a;
         r_end_quote_balance := quote_balance a;
         r_start_price := start_price;
         r_end_price := end_price;
         r_start_value := start_quote_balance cfg + start_price * start_base_balance cfg;
         r_end_value := quote_balance a + end_price * base_balance a;
         r_total_executed_orders := x_executed s;
         r_total_fee := total_fee a;
         r_base_volatility := if fast then None else Some (annualize (vol_Get (x_base_vol s)));
         r_trader_volatility := if fast then None else Some (annualize (vol_Get (x_trader_vol s))) |}.

    (** eval.cc:38-141 ExecuteTrader on the ticks of the range [begin, end).  The
        trader is a fresh one (eval.cc:169-172 is the only caller). *)
    Definition ExecuteTrader (ticks : list ohlc_tick) (l : lg_state lg)
      : outcome (execution_result * lg_state lg) :=
      match ticks with
      | [] => Done (empty_execution_result, l)
      | first :: _ =>
        do s0 <- exec_init l ;
        do s <- foldM tick_step s0 ticks ;
        Done (exec_result s first (last ticks first), x_log s)
      end.
  End Execute.

  (** eval.cc:10-21 GetAverage ("sum += selector(element)" starting from 0). *)
  Definition GetAverage {A} (container : list A) (selector : A -> flt) : flt :=
    match container with
    | [] => #0
    | _ => fold_left (fun sum e => sum + selector e) container #0
           / fofZ (Z.of_nat (List.length container))
    end.

  (** eval.cc:23-35 GetGeometricAverage. *)
  Definition GetGeometricAverage {A} (container : list A) (selector : A -> flt) : outcome flt :=
    match container with
    | [] => Done #0
    | _ =>
      let mul := fold_left (fun mul e => dmul mul (f2d (selector e))) container (dofZ 1) in
      assert_ (dleb (dofZ 0) mul) ;;
      Done (d2f (dpow mul (ddiv (dofZ 1) (dofZ (Z.of_nat (List.length container))))))
    end.

  Section Evaluate.
    Context (cfg : account_config) (ec : evaluation_config) (history : list ohlc_tick)
            (side : option side_input) (te : trader_emitter) (lg : logger) (has_logger : bool).

    (** The local state of the loop eval.cc:153-184: month_offset, the periods added so
        far (in order) and the logger's state. *)
    Definition eval_state : Type := Z * list period * lg_state lg.

    (** eval.cc:154-160: start and end of the evaluation window for a month offset. *)
    Definition eval_window (month_offset : Z) : Z * Z :=
      let start := AddMonthsToTimestampSec (ec_start_timestamp_sec ec) month_offset in
      let end_ := if (evaluation_period_months ec >? 0)%Z
                  then AddMonthsToTimestampSec start (evaluation_period_months ec)
                  else ec_end_timestamp_sec ec in
      (start, end_).

    (** eval.cc:153-184: one iteration; [inl] = go on, [inr] = break.  A subset with
        first after second (possible when start > end > 0) is not a range: iterating
        from first never meets second, which is undefined behaviour. *)
    Definition eval_step (s : eval_state) : outcome (eval_state + (list period * lg_state lg)) :=
      let '(k, periods, l) := s in
      let (start, end_) := eval_window k in
      if (end_ >? ec_end_timestamp_sec ec)%Z then Done (inr (periods, l)) else
      let (b, e) := HistorySubset timestamp_sec history start end_ in
      if (b =? e)%nat then Done (inl ((k + 1)%Z, periods, l)) else
      if (e <? b)%nat then Undefined else
      do '(result, l) <- ExecuteTrader cfg side (fast_eval ec) te lg has_logger
                                        (range history b e) l ;
      assert_ (r_start_value result >? #0) ;;
      assert_ ((r_start_price result >? #0) && (r_end_price result >? #0)) ;;
      let p := {| p_start_timestamp_sec := start; p_end_timestamp_sec := end_;
                  p_result := result;
                  p_final_gain := r_end_value result / r_start_value result;
                  p_base_final_gain := r_end_price result / r_start_price result |} in
      if (evaluation_period_months ec =? 0)%Z
      then Done (inr (periods ++ [p], l))
      else Done (inl ((k + 1)%Z, periods ++ [p], l)).

    (** The for(;;) loop, run for at most [fuel] iterations. *)
    Fixpoint eval_loop (fuel : nat) (s : eval_state) : outcome (list period * lg_state lg) :=
      match fuel with
      | O => Diverged
      | S fuel' =>
        do r <- eval_step s ;
        match r with
        | inl s' => eval_loop fuel' s'
        | inr res => Done res
        end
      end.

    (** eval.cc:185-205: score and averages. *)
    Definition eval_summary (periods : list period) : outcome evaluation_result :=
      do score <- GetGeometricAverage periods (fun p => p_final_gain p / p_base_final_gain p) ;
      Done {| er_account_config := cfg; er_eval_config := ec; er_name := te_name te;
              er_period := periods;
              er_score := score;
              er_avg_gain := GetAverage periods p_final_gain;
              er_avg_base_gain := GetAverage periods p_base_final_gain;
              er_avg_total_executed_orders :=
                GetAverage periods (fun p => fofZ (r_total_executed_orders (p_result p)));
              er_avg_total_fee := GetAverage periods (fun p => r_total_fee (p_result p)) |}.

    (** eval.cc:143-206 EvaluateTrader: [fuel] bounds the number of loop iterations;
        [Diverged] means that more are needed. *)
    Definition EvaluateTrader (fuel : nat) (l : lg_state lg)
      : outcome (evaluation_result * lg_state lg) :=
      do '(periods, l) <- eval_loop fuel (0%Z, [], l) ;
      do r <- eval_summary periods ;
      Done (r, l).
  End Evaluate.

  (** A logger that is never called (nullptr is passed, eval.cc:221). *)
  Definition null_logger : logger :=
    Logger unit (fun _ _ _ => tt) (fun _ _ _ _ => tt) (fun _ _ => tt).

  (** * EvaluateBatchOfTraders (eval.cc:208-228)

      One task per emitter, started by std::async; the tasks share only constant data
      (captured const references), each has its own local state.  A schedule is a
      sequence of task numbers: at each point one task runs one iteration of its
      EvaluateTrader loop.  Results are collected in emitter order by future::get. *)
  Section Batch.
    Context (cfg : account_config) (ec : evaluation_config) (history : list ohlc_tick)
            (side : option side_input).

    Inductive task : Type :=
    | Running (te : trader_emitter) (s : eval_state null_logger)
    | Finished (r : outcome evaluation_result).

    (** eval.cc:214-222: the task as std::async starts it. *)
    Definition new_task (te : trader_emitter) : task := Running te (0%Z, [], tt).

    Definition task_step (t : task) : task :=
      match t with
      | Finished r => Finished r
      | Running te s =>
        match eval_step cfg ec history side te null_logger false s with
        | Done (inl s') => Running te s'
        | Done (inr (periods, _)) => Finished (eval_summary cfg ec te periods)
        | AssertFail => Finished AssertFail
        | Undefined => Finished Undefined
        | Thrown => Finished Thrown
        | Diverged => Finished Diverged
        end
      end.

    (** One scheduling decision: task number i makes a step. *)
    Fixpoint step_nth (i : nat) (ts : list task) : list task :=
      match ts, i with
      | [], _ => []
      | t :: ts', O => task_step t :: ts'
      | t :: ts', S i' => t :: step_nth i' ts'
      end.

    Definition run_schedule (sched : list nat) (ts : list task) : list task :=
      fold_left (fun ts i => step_nth i ts) sched ts.

    (** eval.cc:224-226: future::get for each task in order; an abort, undefined
        behaviour or exception of a task becomes the outcome of the whole batch. *)
    Fixpoint collect (ts : list task) : outcome (list evaluation_result) :=
      match ts with
      | [] => Done []
      | Running _ _ :: _ => Diverged          (* still waiting *)
      | Finished r :: ts' => do x <- r ; do xs <- collect ts' ; Done (x :: xs)
      end.

    Definition EvaluateBatchOfTraders (emitters : list trader_emitter) (sched : list nat)
      : outcome (list evaluation_result) :=
      collect (run_schedule sched (map new_task emitters)).
  End Batch.
End Eval.
