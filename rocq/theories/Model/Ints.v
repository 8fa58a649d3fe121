(** The signed integer arithmetic of the code with its C++ ranges.

    The other model files compute with unbounded integers.  Here are the functions that add,
    subtract, multiply or divide signed integers once more, with every such operation checked: int64_t and int
    (32 bits) overflow is undefined behaviour.  size_t arithmetic (indices, container sizes)
    does not overflow and is not repeated here.  Of AddMonthsToTimestampSec only the one int addition is in this
    code base; the rest is absl.  Not repeated: the row and record counters of the readers in convert.cc
    (one increment per row) and the lookahead counters of RemoveOutliers (at most 10). *)

From Coq Require Import ZArith Bool String List.
From Verif.Model Require Import Outcome Machine Types Account Search History SideInput Indicators TimeUtil Eval Traders.
Import ListNotations.

(** The ranges of int64_t and int. *)
Definition fits64 (z : Z) : bool := ((- 2 ^ 63 <=? z) && (z <? 2 ^ 63))%Z.
Definition fits32 (z : Z) : bool := ((- 2 ^ 31 <=? z) && (z <? 2 ^ 31))%Z.

(** The value of an operation, or undefined behaviour. *)
Definition int64 (z : Z) : outcome Z := if fits64 z then Done z else Undefined.
Definition int32 (z : Z) : outcome Z := if fits32 z then Done z else Undefined.

(** "rate * (timestamp / rate)" (history.cc:146-147, last_n_ohlc_ticks.cc:29-30). *)
Definition round_down (rate timestamp : Z) : outcome Z :=
  if (rate =? 0)%Z then Undefined else
  do q <- int64 (Z.quot timestamp rate) ; int64 (rate * q)%Z.

(** util/time.cc:37-48: "cs.month() + months" is an int. *)
Definition AddMonthsToTimestampSec_int (t months : Z) : outcome Z :=
  let cs := ToCivilSecond t in
  do m <- int32 (cs_month cs + months) ;
  Done (FromCivil (cs_year cs) m (cs_day cs) (cs_hour cs) (cs_minute cs) (cs_second cs)).

Section Ints.
  Context {M : machine}.
  Local Open Scope flt_scope.

  (** history.cc:148-162. *)
  Fixpoint fill_loop_int (fuel : nat) (rate down : Z) (ticks : list ohlc_tick)
    : outcome (list ohlc_tick) :=
    match ticks with
    | [] => Done []
    | t :: _ =>
      do next <- int64 (timestamp_sec t + rate) ;
      if (next <? down)%Z then
        match fuel with
        | O => Diverged
        | S fuel' => fill_loop_int fuel' rate down (flat_tick t rate :: ticks)
        end
      else Done ticks
    end.

  (** history.cc:146-182. *)
  Definition resample_step_int (rate : Z) (ticks : list ohlc_tick) (r : price_record)
    : outcome (list ohlc_tick) :=
    do down <- round_down rate (pr_timestamp_sec r) ;
    do ticks <- fill_loop_int (fill_fuel rate down ticks) rate down ticks ;
    let new_tick :=
      {| timestamp_sec := down; open := pr_price r; high := pr_price r; low := pr_price r;
         close := pr_price r; volume := pr_volume r |} in
    match ticks with
    | [] => Done [new_tick]
    | t :: older =>
      if (timestamp_sec t <? down)%Z then Done (new_tick :: ticks)
      else
        assert_ (timestamp_sec t =? down)%Z ;;
        Done ({| timestamp_sec := timestamp_sec t; open := open t;
                 high := fmax (high t) (pr_price r);
                 low := fmin (low t) (pr_price r);
                 close := pr_price r;
                 volume := volume t + pr_volume r |} :: older)
    end.

  (** history.cc:142-185 Resample. *)
  Definition Resample_int (l : list price_record) (sampling_rate_sec : Z) : outcome (list ohlc_tick) :=
    omap (@rev _) (foldM (resample_step_int sampling_rate_sec) [] l).

  (** history.cc:25-29 gap_cmp: "lhs.second - lhs.first - rhs.second + rhs.first". *)
  Definition gap_cmp_int (lhs rhs : history_gap) : outcome bool :=
    do a <- int64 (snd lhs - fst lhs) ;
    do b <- int64 (a - snd rhs) ;
    do length_delta <- int64 (b + fst rhs) ;
    Done ((length_delta >? 0)%Z || ((length_delta =? 0)%Z && (fst lhs <? fst rhs)%Z)).

  (** A push onto the priority queue may compare any of its elements, in either order; so may
      a later pop. *)
  Definition pq_push_int (q : list history_gap) (g : history_gap) : outcome (list history_gap) :=
    let q' := pq_push q g in
    foldM (fun _ lhs => foldM (fun _ rhs => do _ <- gap_cmp_int lhs rhs ; Done tt) tt q') tt q' ;;
    Done q'.

  (** history.cc:36-45. *)
  Fixpoint gaps_loop_int (top_n : nat) (prev : option price_record) (l : list price_record)
           (q : list history_gap) : outcome (option price_record * list history_gap) :=
    match l with
    | [] => Done (prev, q)
    | r :: l' =>
      do q' <- match prev with
               | Some p => do q1 <- pq_push_int q (pr_timestamp_sec p, pr_timestamp_sec r) ;
                           Done (pq_trim top_n q1)
               | None => Done q
               end ;
      gaps_loop_int top_n (Some r) l' q'
    end.

  (** history.cc:17-58 GetPriceHistoryGaps. *)
  Definition GetPriceHistoryGaps_int (l : list price_record)
             (start_timestamp_sec end_timestamp_sec : Z) (top_n : nat) : outcome (list history_gap) :=
    match l with
    | [] => Done []
    | first :: _ =>
      do q0 <- (if (start_timestamp_sec >? 0)%Z
                then pq_push_int [] (start_timestamp_sec, pr_timestamp_sec first) else Done []) ;
      do '(prev, q1) <- gaps_loop_int top_n None l q0 ;
      do q2 <- (if (end_timestamp_sec >? 0)%Z
                then match prev with
                     | Some p => do q <- pq_push_int q1 (pr_timestamp_sec p, end_timestamp_sec) ;
                                 Done (pq_trim top_n q)
                     | None => Done q1
                     end
                else Done q1) ;
      Done (gap_sort (pq_drain (length q2) q2))
    end.

  (** history.cc:81-83: "price_record.timestamp_sec() - price_record_prev.timestamp_sec()". *)
  Definition is_outlier_int (dev : flt) (prev r : price_record) (rest : list price_record) : outcome bool :=
    do duration <- int64 (pr_timestamp_sec r - pr_timestamp_sec prev) ;
    Done (is_outlier dev {| pr_timestamp_sec := 0; pr_price := pr_price prev; pr_volume := pr_volume prev |}
                     {| pr_timestamp_sec := duration; pr_price := pr_price r; pr_volume := pr_volume r |} rest).

  (** history.cc:67-118. *)
  Fixpoint outliers_loop_int (dev : flt) (l : list price_record) (i : Z)
           (clean : list price_record) (idx : option (list Z))
    : outcome (list price_record * option (list Z)) :=
    match l with
    | [] => Done (clean, idx)
    | r :: rest =>
      if malformed r then outliers_loop_int dev rest (i + 1)%Z clean (push_index idx i)
      else
        match clean with
        | [] => outliers_loop_int dev rest (i + 1)%Z (r :: clean) idx
        | prev :: _ =>
          do outlier <- is_outlier_int dev prev r rest ;
          if (outlier : bool)
          then outliers_loop_int dev rest (i + 1)%Z clean (push_index idx i)
          else outliers_loop_int dev rest (i + 1)%Z (r :: clean) idx
        end
    end.

  (** history.cc:60-120 RemoveOutliers. *)
  Definition RemoveOutliers_int (l : list price_record) (max_price_deviation_per_min : flt)
             (outlier_indices : option (list Z)) : outcome (list price_record * option (list Z)) :=
    do '(clean, idx) <- outliers_loop_int max_price_deviation_per_min l 0 [] outlier_indices ;
    Done (rev clean, idx).

  (** side_input.cc:30-37: "side_input_index * num_signals_" and "offset + signal_index" are ints. *)
  Fixpoint signals_loop_int (s : side_input) (n : nat) (offset i : Z) (acc : list flt) : outcome (list flt) :=
    match n with
    | O => Done acc
    | S n' =>
      do pos <- int32 (offset + i) ;
      do x <- at_ (data s) pos ;
      do i' <- int32 (i + 1) ;
      signals_loop_int s n' offset i' (acc ++ [x])
    end.

  Definition GetSideInputSignals_int (s : side_input) (side_input_index : Z)
             (side_input_signals : list flt) : outcome (list flt) :=
    assert_ ((side_input_index >=? 0) && (side_input_index <? GetNumberOfRecords s))%Z ;;
    do offset <- int32 (side_input_index * num_signals s) ;
    signals_loop_int s (Z.to_nat (num_signals s)) offset 0 side_input_signals.

  (** side_input.cc:39-43: the iterator difference returned as an int. *)
  Definition GetSideInputIndex_int (s : side_input) (t : Z) : outcome Z :=
    int32 (Z.of_nat (upper_bound_from (timestamp_sec_history s) 0 t) - 1).

  (** side_input.cc:45-63: "prev_side_input_index + 1", "+ 2" are ints. *)
  Definition GetSideInputIndexHint_int (s : side_input) (t prev : Z) : outcome Z :=
    let l := timestamp_sec_history s in
    let size := Z.of_nat (length l) in
    if (prev <? 0)%Z then GetSideInputIndex_int s t else
    (if asserts_on then do x <- at_ l prev ; assert_ (t >=? x)%Z else Done tt) ;;
    do c1 <- (if (prev =? (size - 1) mod 2 ^ 64)%Z then Done true
              else do i <- int32 (prev + 1) ; do x <- at_ l i ; Done (t <? x)%Z) ;
    if (c1 : bool) then Done prev else
    do c2 <- (if (prev =? (size - 2) mod 2 ^ 64)%Z then Done true
              else do i <- int32 (prev + 2) ; do x <- at_ l i ; Done (t <? x)%Z) ;
    if (c2 : bool) then int32 (prev + 1)%Z else
    if (size <? prev + 2)%Z then Undefined else
    int32 (Z.of_nat (upper_bound_from l (Z.to_nat (prev + 2)) t) - 1)%Z.

  Section LastN.
    (** The owner of a LastNOhlcTicks and the largest of its int counters. *)
    Context {S : Type} (handler : S -> list ohlc_tick -> tick_event -> outcome S) (count : S -> Z).

    (** The callbacks for a new tick increment each of their counters once: num_values_ (util.cc:42, 49, 65, 83, 98),
        num_ohlc_ticks_ (moving_average_convergence_divergence.cc:74, relative_strength_index.cc:69,
        stochastic_oscillator.cc:64, volatility.cc:34, 46).  Undefined if that would overflow
        (also if the callback would abort before it gets there). *)
    Definition handler_int (s : S) (ticks : list ohlc_tick) (e : tick_event) : outcome S :=
      match e with
      | TickUpdated _ _ => handler s ticks e
      | _ => do _ <- int32 (count s + 1) ; handler s ticks e
      end.

    (** last_n_ohlc_ticks.cc:31-46. *)
    Fixpoint lastn_fill_int (fuel : nat) (n period adjusted : Z) (ticks : list ohlc_tick) (s : S)
      : outcome (list ohlc_tick * S) :=
      match ticks with
      | [] => Done ([], s)
      | t :: _ =>
        do next <- int64 (timestamp_sec t + period) ;
        if (next <? adjusted)%Z then
          match fuel with
          | O => Diverged
          | Datatypes.S fuel' =>
            do '(ticks', s') <- NewOhlcTickAdded handler_int n (flat_tick t period :: ticks) s ;
            lastn_fill_int fuel' n period adjusted ticks' s'
          end
        else Done (ticks, s)
      end.

    (** last_n_ohlc_ticks.cc:28-62 Update. *)
    Definition LastN_Update_int (n period : Z) (st : list ohlc_tick * S) (tick : ohlc_tick)
      : outcome (list ohlc_tick * S) :=
      let (ticks, s) := st in
      do adjusted <- round_down period (timestamp_sec tick) ;
      do '(ticks, s) <- lastn_fill_int (fill_fuel period adjusted ticks) n period adjusted ticks s ;
      let new_tick :=
        {| timestamp_sec := adjusted; open := open tick; high := high tick; low := low tick;
           close := close tick; volume := volume tick |} in
      match ticks with
      | [] => NewOhlcTickAdded handler_int n [new_tick] s
      | t :: older =>
        if (timestamp_sec t <? adjusted)%Z then NewOhlcTickAdded handler_int n (new_tick :: ticks) s
        else
          assert_ (timestamp_sec t =? adjusted)%Z ;;
          let t' :=
            {| timestamp_sec := timestamp_sec t; open := open t;
               high := fmax (high t) (high tick);
               low := fmin (low t) (low tick);
               close := close tick;
               volume := volume t + volume tick |} in
          do s <- handler_int s (t' :: older) (TickUpdated t t') ;
          Done (t' :: older, s)
      end.
  End LastN.

  (** The int counters of the indicators. *)
  Definition ema_count (h : ema_helper) : Z := ema_num_values h.
  Definition macd_count (s : macd_state) : Z :=
    Z.max (macd_num s) (Z.max (ema_num_values (fast_ema s)) (Z.max (ema_num_values (slow_ema s)) (ema_num_values (signal_ema s)))).
  Definition rsi_count (s : rsi_state) : Z :=
    Z.max (rsi_num s) (Z.max (ema_num_values (upward_mma s)) (ema_num_values (downward_mma s))).
  Definition stoch_count (s : stoch_state) : Z :=
    Z.max (st_num s) (Z.max (mv_num_values (st_fast s)) (Z.max (mv_num_values (st_slow s))
      (Z.max (sm_num_values (st_min s)) (sm_num_values (st_max s))))).
  Definition vol_count (s : vol_state) : Z := Z.max (vl_num s) (mv_num_values (vl_variance s)).

  (** volatility.cc:57-62 Update. *)
  Definition vol_Update_int (period : Z) (s : volatility) (t : ohlc_tick) (base quote : flt)
    : outcome volatility :=
    let v := snd s in
    LastN_Update_int vol_handler vol_count 2 period
      (fst s, VolState base quote (vl_portfolio v) (vl_variance v) (vl_num v)) t.

  (** stop_trader.cc:43-44: "timestamp_sec - last_timestamp_sec_"; stop_trader.cc:21:
      "last_timestamp_sec_ + max_allowed_gap_sec_". *)
  Definition stop_update_int (c : stop_config) (s : stop_state) (t : ohlc_tick)
             (side_input_signals : list flt) (base_balance quote_balance : flt)
    : outcome (stop_state * list order) :=
    let ts := timestamp_sec t in
    let price := close t in
    assert_ (ts >? sp_timestamp s)%Z ;;
    assert_ (price >? #0) ;;
    assert_ ((base_balance >? #0) || (quote_balance >? #0)) ;;
    let m := stop_mode price base_balance quote_balance in
    do gap_end <- int64 (sp_timestamp s + max_allowed_gap_sec) ;
    do stop <-
      (if ((ts >=? gap_end)%Z || negb (mode_eqb m (sp_mode s))) then
         match m with
         | LONG => Done ((#1 - stop_order_margin c) * price)
         | _ => assert_ (mode_eqb m CASH) ;; Done ((#1 + stop_order_margin c) * price)
         end
       else
         assert_ (mode_eqb m (sp_mode s)) ;;
         do age <- int64 (ts - sp_timestamp s) ;
         UpdateStopOrderPrice c s m (sp_timestamp s + age) price) ;
    let s' := StopState base_balance quote_balance ts price m stop in
    do orders <- EmitStopOrder s' ;
    Done (s', orders).

  Section Execute.
    Context (cfg : account_config) (side : option side_input) (fast : bool)
            (te : trader_emitter) (lg : logger) (has_logger : bool).
    (** The trader's Update, with checked integer arithmetic (of the traders here only StopTrader has any). *)
    Context (update_int : te_state te -> ohlc_tick -> list flt -> flt -> flt -> outcome (te_state te * list order)).

    (** eval.cc:66-79; the age of the signals is an int64_t difference. *)
    Definition side_input_part_int (t : ohlc_tick) (signals : list flt) (prev : Z)
      : outcome (list flt * Z) :=
      match side with
      | None => Done (signals, prev)
      | Some si =>
        do idx <- GetSideInputIndexHint_int si (timestamp_sec t) prev ;
        if (idx >=? 0)%Z then
          do sts <- GetSideInputTimestamp si idx ;
          do sig <- GetSideInputSignals_int si idx [] ;
          do age <- int64 (timestamp_sec t - sts) ;
          Done (sig ++ [fofZ age], idx)
        else Done (signals, prev)
      end.

    (** eval.cc:89-99: "++total_executed_orders". *)
    Definition order_step_int (t : ohlc_tick) (s : account * Z * lg_state lg) (o : order)
      : outcome (account * Z * lg_state lg) :=
      let '(a, n, l) := s in
      do '(success, a') <- ExecuteOrder cfg o t a ;
      if (success : bool)
      then do n' <- int32 (n + 1) ;
           Done (a', n', log_if lg has_logger (fun l => lg_order lg l t a' o) l)
      else Done (a', n, l).

    (** eval.cc:63-121. *)
    Definition tick_step_int (s : exec_state te lg) (t : ohlc_tick) : outcome (exec_state te lg) :=
      do '(signals, prev) <- side_input_part_int t (x_signals te lg s) (x_prev_index te lg s) ;
      let l1 := log_if lg has_logger (fun l => lg_tick lg l t (x_account te lg s)) (x_log te lg s) in
      do '(a, n, l2) <- foldM (order_step_int t) (x_account te lg s, x_executed te lg s, l1) (x_orders te lg s) ;
      if volume t =? #0 then
        Done {| x_account := a; x_signals := signals; x_prev_index := prev;
                x_orders := x_orders te lg s; x_executed := n; x_base_vol := x_base_vol te lg s;
                x_trader_vol := x_trader_vol te lg s; x_trader := x_trader te lg s; x_log := l2 |}
      else
        do '(ts, orders) <- update_int (x_trader te lg s) t signals (base_balance a) (quote_balance a) ;
        let l3 := log_if lg has_logger (fun l => lg_trader lg l (te_show te ts)) l2 in
        do bv <- (if fast then Done (x_base_vol te lg s)
                  else vol_Update_int kSecondsPerDay (x_base_vol te lg s) t #1 #0) ;
        do tv <- (if fast then Done (x_trader_vol te lg s)
                  else vol_Update_int kSecondsPerDay (x_trader_vol te lg s) t (base_balance a) (quote_balance a)) ;
        Done {| x_account := a; x_signals := signals; x_prev_index := prev;
                x_orders := orders; x_executed := n; x_base_vol := bv;
                x_trader_vol := tv; x_trader := ts; x_log := l3 |}.

    (** eval.cc:38-141 ExecuteTrader. *)
    Definition ExecuteTrader_int (ticks : list ohlc_tick) (l : lg_state lg)
      : outcome (execution_result * lg_state lg) :=
      match ticks with
      | [] => Done (empty_execution_result, l)
      | first :: _ =>
        do s0 <- exec_init cfg te lg l ;
        do s <- foldM tick_step_int s0 ticks ;
        Done (exec_result cfg fast te lg s first (last ticks first), x_log te lg s)
      end.
  End Execute.

  Section Evaluate.
    Context (cfg : account_config) (ec : evaluation_config) (history : list ohlc_tick)
            (side : option side_input) (te : trader_emitter) (lg : logger) (has_logger : bool).

    Context (update_int : te_state te -> ohlc_tick -> list flt -> flt -> flt -> outcome (te_state te * list order)).

    (** eval.cc:154-160. *)
    Definition eval_window_int (month_offset : Z) : outcome (Z * Z) :=
      do start <- AddMonthsToTimestampSec_int (ec_start_timestamp_sec ec) month_offset ;
      do end_ <- (if (evaluation_period_months ec >? 0)%Z
                  then AddMonthsToTimestampSec_int start (evaluation_period_months ec)
                  else Done (ec_end_timestamp_sec ec)) ;
      Done (start, end_).

    (** eval.cc:153-184: "++month_offset" is an int. *)
    Definition eval_step_int (s : eval_state lg) : outcome (eval_state lg + (list period * lg_state lg)) :=
      let '(k, periods, l) := s in
      do '(start, end_) <- eval_window_int k ;
      if (end_ >? ec_end_timestamp_sec ec)%Z then Done (inr (periods, l)) else
      let (b, e) := HistorySubset timestamp_sec history start end_ in
      if (b =? e)%nat then do k' <- int32 (k + 1) ; Done (inl (k', periods, l)) else
      if (e <? b)%nat then Undefined else
      do '(result, l) <- ExecuteTrader_int cfg side (fast_eval ec) te lg has_logger update_int
                                            (range history b e) l ;
      assert_ (r_start_value result >? #0) ;;
      assert_ ((r_start_price result >? #0) && (r_end_price result >? #0)) ;;
      let p := {| p_start_timestamp_sec := start; p_end_timestamp_sec := end_;
                  p_result := result;
                  p_final_gain := r_end_value result / r_start_value result;
                  p_base_final_gain := r_end_price result / r_start_price result |} in
      if (evaluation_period_months ec =? 0)%Z
      then Done (inr (periods ++ [p], l))
      else do k' <- int32 (k + 1) ; Done (inl (k', periods ++ [p], l)).

    Fixpoint eval_loop_int (fuel : nat) (s : eval_state lg) : outcome (list period * lg_state lg) :=
      match fuel with
      | O => Diverged
      | S fuel' =>
        do r <- eval_step_int s ;
        match r with
        | inl s' => eval_loop_int fuel' s'
        | inr res => Done res
        end
      end.

    (** eval.cc:143-206 EvaluateTrader. *)
    Definition EvaluateTrader_int (fuel : nat) (l : lg_state lg)
      : outcome (evaluation_result * lg_state lg) :=
      do '(periods, l) <- eval_loop_int fuel (0%Z, [], l) ;
      do r <- eval_summary cfg ec te periods ;
      Done (r, l).
  End Evaluate.
End Ints.
