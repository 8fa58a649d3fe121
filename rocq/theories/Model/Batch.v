(** eval/eval.cc:208-228 EvaluateBatchOfTraders as a process of several threads, with
    preemption inside EvaluateTrader and ExecuteTrader.

    [Eval.EvaluateBatchOfTraders] interleaves whole iterations of the evaluation loop.  Here
    a thread can be preempted between any two of: the choice of the window, the creation of
    the trader, the side-input lookup for a tick, each single order, the trader's Update,
    each of the two volatility updates, and the final computation of the period.  The main
    thread takes part too: it starts the tasks one after the other (while earlier ones already run)
    and then waits for their results in order.  std::async without a launch policy may run
    a task in a new thread or defer it to the call of future::get; both are possible, and the
    schedule chooses.

    Simplifications: a step is atomic and sequentially consistent (the tasks only
    read the shared data: const references captured by the lambda, eval.cc:217-218); starting a
    thread does not fail (std::system_error is not modelled). *)

From Coq Require Import ZArith Bool List String.
From Verif.Model Require Import Outcome Machine Types Account History SideInput Indicators TimeUtil Eval.
Import ListNotations.

Section Batch.
  Context {M : machine}.
  Local Open Scope flt_scope.
  Context (cfg : account_config) (ec : evaluation_config) (history : list ohlc_tick)
          (side : option side_input).

  Section Thread.
    Context (te : trader_emitter).
    Local Notation xstate := (exec_state te null_logger).

    (** The local variables of EvaluateTrader (eval.cc:149-165) that are live while
        ExecuteTrader runs on a window, and the first and the last tick of the window
        (eval.cc:126-127). *)
    Record window : Type := Window {
      w_offset : Z;
      w_periods : list period;
      w_start : Z;
      w_end : Z;
      w_first : ohlc_tick;
      w_last : ohlc_tick
    }.

    (** Where the thread is. *)
    Inductive thread : Type :=
    | Top (k : Z) (periods : list period)                   (* eval.cc:153, top of the for(;;) *)
    | Ticks (w : window) (x : xstate) (rest : list ohlc_tick)        (* eval.cc:63, top of the tick loop *)
    | Orders (w : window) (x : xstate) (t : ohlc_tick) (signals : list flt) (prev : Z)
             (a : account) (n : Z) (todo : list order) (rest : list ohlc_tick)  (* eval.cc:89, top of the order loop *)
    | BaseVol (w : window) (x : xstate) (t : ohlc_tick) (rest : list ohlc_tick)    (* eval.cc:116-117 *)
    | TraderVol (w : window) (x : xstate) (t : ohlc_tick) (rest : list ohlc_tick)  (* eval.cc:118-119 *)
    | Closing (k : Z) (periods : list period) (start end_ : Z) (res : execution_result)  (* eval.cc:173 *)
    | Ended (r : outcome evaluation_result).                (* returned, or stopped *)

    (** A failure ends the thread. *)
    Definition or_fail {A} (o : outcome A) (k : A -> thread) : thread :=
      match o with
      | Done a => k a
      | AssertFail => Ended AssertFail
      | Undefined => Ended Undefined
      | Thrown => Ended Thrown
      | Diverged => Ended Diverged
      end.

    (** eval.cc:154-172: the choice of the window and the start of ExecuteTrader (eval.cc:43-62). *)
    Definition top_step (k : Z) (periods : list period) : thread :=
      let (start, end_) := eval_window ec k in
      if (end_ >? ec_end_timestamp_sec ec)%Z then Ended (eval_summary cfg ec te periods) else
      let (b, e) := HistorySubset timestamp_sec history start end_ in
      if (b =? e)%nat then Top (k + 1)%Z periods else
      if (e <? b)%nat then Ended Undefined else
      match range history b e with
      | [] => Closing k periods start end_ empty_execution_result
      | first :: more =>
        or_fail (exec_init cfg te null_logger tt) (fun x =>
          Ticks {| w_offset := k; w_periods := periods; w_start := start; w_end := end_;
                   w_first := first; w_last := last (first :: more) first |} x (first :: more))
      end.

    (** eval.cc:100-111: after the orders of a tick: nothing more if the tick has no volume,
        else the trader's Update. *)
    Definition update_step (w : window) (x : xstate) (t : ohlc_tick) (signals : list flt) (prev : Z)
               (a : account) (n : Z) (rest : list ohlc_tick) : thread :=
      if volume t =? #0 then
        Ticks w {| x_account := a; x_signals := signals; x_prev_index := prev;
                   x_orders := x_orders te _ x; x_executed := n; x_base_vol := x_base_vol te _ x;
                   x_trader_vol := x_trader_vol te _ x; x_trader := x_trader te _ x;
                   x_log := x_log te _ x |} rest
      else
        or_fail (te_update te (x_trader te _ x) t signals (base_balance a) (quote_balance a)) (fun '(ts, orders) =>
          let x' := {| x_account := a; x_signals := signals; x_prev_index := prev;
                       x_orders := orders; x_executed := n; x_base_vol := x_base_vol te _ x;
                       x_trader_vol := x_trader_vol te _ x; x_trader := ts;
                       x_log := x_log te _ x |} in
          if fast_eval ec then Ticks w x' rest else BaseVol w x' t rest).

    (** eval.cc:173-183: the asserts and the period. *)
    Definition closing_step (k : Z) (periods : list period) (start end_ : Z) (result : execution_result) : thread :=
      or_fail (assert_ (r_start_value result >? #0) ;;
               assert_ ((r_start_price result >? #0) && (r_end_price result >? #0))) (fun _ =>
        let p := {| p_start_timestamp_sec := start; p_end_timestamp_sec := end_;
                    p_result := result;
                    p_final_gain := r_end_value result / r_start_value result;
                    p_base_final_gain := r_end_price result / r_start_price result |} in
        if (evaluation_period_months ec =? 0)%Z
        then Ended (eval_summary cfg ec te (periods ++ [p]))
        else Top (k + 1)%Z (periods ++ [p])).

    (** One step of the thread. *)
    Definition thread_step (th : thread) : thread :=
      match th with
      | Top k periods => top_step k periods
      | Ticks w x [] =>
        Closing (w_offset w) (w_periods w) (w_start w) (w_end w)
                (exec_result cfg (fast_eval ec) te null_logger x (w_first w) (w_last w))
      | Ticks w x (t :: rest) =>
        or_fail (side_input_part side t (x_signals te _ x) (x_prev_index te _ x)) (fun '(signals, prev) =>
          Orders w x t signals prev (x_account te _ x) (x_executed te _ x) (x_orders te _ x) rest)
      | Orders w x t signals prev a n [] rest => update_step w x t signals prev a n rest
      | Orders w x t signals prev a n (o :: todo) rest =>
        or_fail (ExecuteOrder cfg o t a) (fun '(success, a') =>
          Orders w x t signals prev a' (if (success : bool) then n + 1 else n)%Z todo rest)
      | BaseVol w x t rest =>
        or_fail (vol_Update kSecondsPerDay (x_base_vol te _ x) t #1 #0) (fun bv =>
          TraderVol w {| x_account := x_account te _ x; x_signals := x_signals te _ x;
                         x_prev_index := x_prev_index te _ x; x_orders := x_orders te _ x;
                         x_executed := x_executed te _ x; x_base_vol := bv;
                         x_trader_vol := x_trader_vol te _ x; x_trader := x_trader te _ x;
                         x_log := x_log te _ x |} t rest)
      | TraderVol w x t rest =>
        or_fail (vol_Update kSecondsPerDay (x_trader_vol te _ x) t
                            (base_balance (x_account te _ x)) (quote_balance (x_account te _ x))) (fun tv =>
          Ticks w {| x_account := x_account te _ x; x_signals := x_signals te _ x;
                     x_prev_index := x_prev_index te _ x; x_orders := x_orders te _ x;
                     x_executed := x_executed te _ x; x_base_vol := x_base_vol te _ x;
                     x_trader_vol := tv; x_trader := x_trader te _ x;
                     x_log := x_log te _ x |} rest)
      | Closing k periods start end_ res => closing_step k periods start end_ res
      | Ended r => Ended r
      end.
  End Thread.

  (** A started task: its emitter, where it is, and whether std::async deferred it. *)
  Record slot : Type := Slot {
    s_emitter : trader_emitter;
    s_deferred : bool;
    s_thread : thread s_emitter
  }.

  (** The state of the call (eval.cc:212-213): the emitters not started yet, the futures and the results. *)
  Record process : Type := Process {
    p_todo : list trader_emitter;
    p_slots : list slot;
    p_results : list evaluation_result
  }.

  (** Running, or over: returned a vector, aborted, undefined, or left by an exception. *)
  Inductive batch_state : Type :=
  | Alive (p : process)
  | Over (o : outcome (list evaluation_result)).

  (** A scheduling decision: the main thread makes a step (if it starts a task: deferred or
      not), or task number i makes a step. *)
  Inductive decision : Type :=
  | MainTurn (deferred : bool)
  | TaskTurn (i : nat).

  (** eval.cc:214-222: the task as std::async starts it. *)
  Definition new_slot (te : trader_emitter) (deferred : bool) : slot :=
    {| s_emitter := te; s_deferred := deferred; s_thread := Top te 0%Z [] |}.

  Definition slot_step (s : slot) : slot :=
    {| s_emitter := s_emitter s; s_deferred := s_deferred s; s_thread := thread_step (s_emitter s) (s_thread s) |}.

  Fixpoint set_nth {A} (i : nat) (x : A) (l : list A) : list A :=
    match l, i with
    | [], _ => []
    | _ :: l', O => x :: l'
    | y :: l', S i' => y :: set_nth i' x l'
    end.

  (** Task i of p makes a step.  A failed assert (std::abort) or undefined behaviour in any thread is one of the
      whole process at once; an exception stays in the future until get. *)
  Definition run_slot (p : process) (i : nat) (s : slot) : batch_state :=
    let s' := slot_step s in
    match s_thread s' with
    | Ended _ AssertFail => Over AssertFail
    | Ended _ Undefined => Over Undefined
    | _ => Alive {| p_todo := p_todo p; p_slots := set_nth i s' (p_slots p); p_results := p_results p |}
    end.

  (** eval.cc:214-227 as the main thread sees it. *)
  Definition main_step (deferred : bool) (p : process) : batch_state :=
    match p_todo p with
    | te :: tes =>
      Alive {| p_todo := tes; p_slots := p_slots p ++ [new_slot te deferred]; p_results := p_results p |}
    | [] =>
      match nth_error (p_slots p) (List.length (p_results p)) with
      | None => Over (Done (p_results p))                      (* return eval_results *)
      | Some s =>
        match s_thread s with
        | Ended _ (Done r) =>
          Alive {| p_todo := []; p_slots := p_slots p; p_results := p_results p ++ [r] |}
        | Ended _ Thrown => Over Thrown                          (* get rethrows *)
        | Ended _ AssertFail => Over AssertFail                  (* not reached, see run_slot *)
        | Ended _ Undefined => Over Undefined                    (* not reached, see run_slot *)
        | Ended _ Diverged => Alive p                            (* waits for ever *)
        | _ => if s_deferred s then run_slot p (List.length (p_results p)) s   (* get runs it *)
               else Alive p                                      (* get waits *)
        end
      end
    end.

  (** A new thread runs on its own; a deferred task only inside get. *)
  Definition task_turn (i : nat) (p : process) : batch_state :=
    match nth_error (p_slots p) i with
    | None => Alive p
    | Some s =>
      if s_deferred s then Alive p else
      match s_thread s with
      | Ended _ _ => Alive p
      | _ => run_slot p i s
      end
    end.

  Definition batch_step (d : decision) (st : batch_state) : batch_state :=
    match st with
    | Over o => Over o
    | Alive p => match d with
                 | MainTurn deferred => main_step deferred p
                 | TaskTurn i => task_turn i p
                 end
    end.

  (** eval.cc:208-213: the call. *)
  Definition batch_start (emitters : list trader_emitter) : batch_state :=
    Alive {| p_todo := emitters; p_slots := []; p_results := [] |}.

  Definition batch_run (sched : list decision) (st : batch_state) : batch_state :=
    fold_left (fun st d => batch_step d st) sched st.
End Batch.
