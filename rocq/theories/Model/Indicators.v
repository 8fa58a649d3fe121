(** indicators/: sliding window helpers, the last-N-ticks aggregator and the
    indicators built on it. *)

From Coq Require Import ZArith Bool List.
From Verif.Model Require Import Outcome Machine Types History.
Import ListNotations.

Section Indicators.
  Context {M : machine}.
  Local Open Scope flt_scope.

  (** * SlidingWindowMeanAndVariance (indicators/util.h:15-59, util.cc:7-61) *)

  (** util.h:48-58: the fields.  [mv_window] is the deque, front first. *)
  Record mean_var : Type := MeanVar {
    mv_window_size : Z;
    mv_current : flt;
    mv_window : list flt;
    mv_sum : flt;
    mv_sum2 : flt;
    mv_num_values : Z
  }.

  (** util.h:19-20 constructor. *)
  Definition NewMeanVar (window_size : Z) : mean_var :=
    MeanVar window_size #0 [] #0 #0 0.

  (** util.cc:28-33 GetWindowSize. *)
  Definition mv_GetWindowSize (s : mean_var) : Z :=
    if (mv_window_size s =? 0)%Z then mv_num_values s
    else Z.min (mv_num_values s) (mv_window_size s).

  (** util.cc:7-12 GetMean. *)
  Definition mv_GetMean (s : mean_var) : flt :=
    if (mv_num_values s =? 0)%Z then #0
    else (mv_current s + mv_sum s) / fofZ (mv_GetWindowSize s).

  (** util.cc:14-22 GetVariance.  std::pow(float, int) is a double, so the sum, the
      quotient and the difference are computed in double and narrowed on return. *)
  Definition mv_GetVariance (s : mean_var) : flt :=
    if (mv_num_values s =? 0)%Z then #0
    else
      let window_size := mv_GetWindowSize s in
      let mean := (mv_current s + mv_sum s) / fofZ window_size in
      d2f (dsub (ddiv (dadd (dsquare (mv_current s)) (f2d (mv_sum2 s))) (dofZ window_size))
                (dsquare mean)).

  (** util.cc:24-26 GetStandardDeviation. *)
  Definition mv_GetStandardDeviation (s : mean_var) : flt := fsqrt (mv_GetVariance s).

  (** "window_sum_2_ += std::pow(x, 2)": float += double. *)
  Definition add_square (s2 x : flt) : flt := d2f (dadd (f2d s2) (dsquare x)).
  Definition sub_square (s2 x : flt) : flt := d2f (dsub (f2d s2) (dsquare x)).

  (** util.cc:35-56 AddNewValue. *)
  Definition mv_AddNewValue (s : mean_var) (value : flt) : mean_var :=
    if (mv_num_values s =? 0)%Z || (mv_window_size s <=? 1)%Z then
      let (sum, sum2) :=
        if (mv_window_size s =? 0)%Z
        then (mv_sum s + mv_current s, add_square (mv_sum2 s) (mv_current s))
        else (mv_sum s, mv_sum2 s) in
      MeanVar (mv_window_size s) value (mv_window s) sum sum2 (mv_num_values s + 1)
    else
      let window := mv_window s ++ [mv_current s] in
      let sum := mv_sum s + mv_current s in
      let sum2 := add_square (mv_sum2 s) (mv_current s) in
      if (mv_window_size s <=? Z.of_nat (length window))%Z then
        match window with
        | popped_value :: window' =>
          MeanVar (mv_window_size s) value window' (sum - popped_value)
                  (sub_square sum2 popped_value) (mv_num_values s + 1)
        | [] => MeanVar (mv_window_size s) value window sum sum2 (mv_num_values s + 1)
                (* not reachable: the window is not empty *)
        end
      else MeanVar (mv_window_size s) value window sum sum2 (mv_num_values s + 1).

  (** util.cc:58-61 UpdateCurrentValue. *)
  Definition mv_UpdateCurrentValue (s : mean_var) (value : flt) : outcome mean_var :=
    assert_ (mv_num_values s >=? 1)%Z ;;
    Done (MeanVar (mv_window_size s) value (mv_window s) (mv_sum s) (mv_sum2 s)
                  (mv_num_values s)).

  (** * ExponentialMovingAverageHelper (util.h:63-90, util.cc:63-77) *)

  Record ema_helper : Type := EmaHelper {
    current_ema : flt;
    previous_ema : flt;
    ema_num_values : Z
  }.

  Definition NewEmaHelper : ema_helper := EmaHelper #0 #0 0.

  (** util.cc:69-77 UpdateCurrentValue. *)
  Definition ema_UpdateCurrentValue (s : ema_helper) (value weight : flt) : outcome ema_helper :=
    assert_ (ema_num_values s >? 0)%Z ;;
    Done (EmaHelper
            (if (ema_num_values s =? 1)%Z then value
             else weight * value + (#1 - weight) * previous_ema s)
            (previous_ema s) (ema_num_values s)).

  (** util.cc:63-67 AddNewValue. *)
  Definition ema_AddNewValue (s : ema_helper) (value weight : flt) : outcome ema_helper :=
    ema_UpdateCurrentValue
      (EmaHelper (current_ema s) (current_ema s) (ema_num_values s + 1)) value weight.

  (** * SlidingWindowMinimum (util.h:94-133, util.cc:79-108) *)

  (** [sm_window] is the deque of (value, position), front first. *)
  Record sliding_min : Type := SlidingMin {
    sm_window_size : Z;
    sm_current : flt;
    sm_minimum : flt;
    sm_window : list (flt * Z);
    sm_num_values : Z
  }.

  (** util.h:98-100 constructor. *)
  Definition NewSlidingMin (window_size : Z) : outcome sliding_min :=
    assert_ (window_size >? 0)%Z ;;
    Done (SlidingMin window_size #0 #0 [] 0).

  (** util.h:104-106 *)
  Definition sm_Get (s : sliding_min) : flt := sm_minimum s.
  (** util.h:112 *)
  Definition sm_GetWindowSize (s : sliding_min) : Z := Z.min (sm_num_values s) (sm_window_size s).

  (** util.cc:89-91: while (!empty && back.first >= v) pop_back, on the reversed
      deque (back first). *)
  Fixpoint pop_back_loop (v : flt) (rwindow : list (flt * Z)) : list (flt * Z) :=
    match rwindow with
    | [] => []
    | (x, i) :: rw => if x >=? v then pop_back_loop v rw else rwindow
    end.

  (** util.cc:95-97: while (num - front.second + 1 >= size) pop_front.  front() of an
      empty deque is undefined. *)
  Fixpoint pop_front_loop (num size : Z) (window : list (flt * Z)) : outcome (list (flt * Z)) :=
    match window with
    | [] => Undefined
    | (x, i) :: w =>
      if (size <=? num - i + 1)%Z then pop_front_loop num size w else Done window
    end.

  (** util.cc:102-108 UpdateCurrentValue. *)
  Definition sm_UpdateCurrentValue (s : sliding_min) (value : flt) : outcome sliding_min :=
    assert_ (sm_num_values s >=? 1)%Z ;;
    Done (SlidingMin (sm_window_size s) value
            (match sm_window s with
             | [] => value
             | (x, _) :: _ => fmin x value
             end) (sm_window s) (sm_num_values s)).

  (** util.cc:79-100 AddNewValue. *)
  Definition sm_AddNewValue (s : sliding_min) (value : flt) : outcome sliding_min :=
    if (sm_num_values s =? 0)%Z || (sm_window_size s =? 1)%Z then
      Done (SlidingMin (sm_window_size s) value value (sm_window s) (sm_num_values s + 1))
    else
      let rw := pop_back_loop (sm_current s) (rev (sm_window s)) in
      let window := rev ((sm_current s, sm_num_values s) :: rw) in
      do window <- pop_front_loop (sm_num_values s) (sm_window_size s) window ;
      sm_UpdateCurrentValue
        (SlidingMin (sm_window_size s) (sm_current s) (sm_minimum s) window
                    (sm_num_values s + 1)) value.

  (** * SlidingWindowMaximum (util.h:137-168): the minimum of the negated values. *)
  Definition sx_Get (s : sliding_min) : flt := - sm_Get s.
  Definition sx_AddNewValue (s : sliding_min) (value : flt) : outcome sliding_min :=
    sm_AddNewValue s (- value).
  Definition sx_UpdateCurrentValue (s : sliding_min) (value : flt) : outcome sliding_min :=
    sm_UpdateCurrentValue s (- value).

  (** * LastNOhlcTicks (last_n_ohlc_ticks.h, last_n_ohlc_ticks.cc) *)

  (** The three callbacks (last_n_ohlc_ticks.h:14-34) as one event type. *)
  Inductive tick_event : Type :=
  | TickUpdated (old_tick new_tick : ohlc_tick)
  | TickAdded (new_tick : ohlc_tick)
  | TickAddedRemoved (removed_tick new_tick : ohlc_tick).

  Section LastN.
    (** The owner of the aggregator: its state and its three registered callbacks,
        which may read the deque (given newest first). *)
    Context {S : Type} (handler : S -> list ohlc_tick -> tick_event -> outcome S).

    (** last_n_ohlc_ticks.cc:64-77 NewOhlcTickAdded.  [ticks] is the deque, newest
        first, after the new tick was pushed. *)
    Definition NewOhlcTickAdded (n : Z) (ticks : list ohlc_tick) (s : S)
      : outcome (list ohlc_tick * S) :=
      if (Z.of_nat (length ticks) <=? n)%Z then
        match ticks with
        | [] => Undefined
        | t :: _ => do s <- handler s ticks (TickAdded t) ; Done (ticks, s)
        end
      else
        match ticks with
        | [] => Undefined
        | t :: _ =>
          let removed := last ticks t in
          let ticks' := removelast ticks in
          match ticks' with
          | [] => Undefined                          (* back() of an empty deque *)
          | t' :: _ => do s <- handler s ticks' (TickAddedRemoved removed t') ; Done (ticks', s)
          end
        end.

    (** last_n_ohlc_ticks.cc:31-46: the while loop adding flat ticks. *)
    Fixpoint lastn_fill (fuel : nat) (n period adjusted : Z) (ticks : list ohlc_tick) (s : S)
      : outcome (list ohlc_tick * S) :=
      match ticks with
      | [] => Done ([], s)
      | t :: _ =>
        if (timestamp_sec t + period <? adjusted)%Z then
          match fuel with
          | O => Diverged
          | Datatypes.S fuel' =>
            do '(ticks', s') <- NewOhlcTickAdded n (flat_tick t period :: ticks) s ;
            lastn_fill fuel' n period adjusted ticks' s'
          end
        else Done (ticks, s)
      end.

    (** last_n_ohlc_ticks.cc:28-62 Update. *)
    Definition LastN_Update (n period : Z) (st : list ohlc_tick * S) (tick : ohlc_tick)
      : outcome (list ohlc_tick * S) :=
      let (ticks, s) := st in
      if (period =? 0)%Z then Undefined else
      let adjusted := (period * Z.quot (timestamp_sec tick) period)%Z in
      do '(ticks, s) <- lastn_fill (fill_fuel period adjusted ticks) n period adjusted ticks s ;
      let new_tick :=
        {| timestamp_sec := adjusted; open := open tick; high := high tick; low := low tick;
           close := close tick; volume := volume tick |} in
      match ticks with
      | [] => NewOhlcTickAdded n [new_tick] s
      | t :: older =>
        if (timestamp_sec t <? adjusted)%Z then NewOhlcTickAdded n (new_tick :: ticks) s
        else
          assert_ (timestamp_sec t =? adjusted)%Z ;;
          let t' :=
            {| timestamp_sec := timestamp_sec t; open := open t;
               high := fmax (high t) (high tick);
               low := fmin (low t) (low tick);
               close := close tick;
               volume := volume t + volume tick |} in
          do s <- handler s (t' :: older) (TickUpdated t t') ;
          Done (t' :: older, s)
      end.
  End LastN.

  (** last_n_ohlc_ticks.h:39-43: the constructor's asserts. *)
  Definition LastN_check (n period : Z) : outcome unit :=
    assert_ (n >? 0)%Z ;; assert_ (period >? 0)%Z.

  (** A LastNOhlcTicks object used on its own, with callbacks that just record
      their calls (oldest first). *)
  Definition record_event (s : list tick_event) (_ : list ohlc_tick) (e : tick_event)
    : outcome (list tick_event) := Done (s ++ [e]).

  (** * SimpleMovingAverage (simple_moving_average.cc) *)

  (** simple_moving_average.cc:10-21: the callbacks; the state is sum_close_price_. *)
  Definition sma_handler (sum : flt) (_ : list ohlc_tick) (e : tick_event) : outcome flt :=
    Done match e with
         | TickUpdated old new => sum + (close new - close old)
         | TickAdded new => sum + close new
         | TickAddedRemoved removed new => sum + (close new - close removed)
         end.

  (** A SimpleMovingAverage object: the window (newest first) and sum_close_price_. *)
  Definition sma : Type := list ohlc_tick * flt.
  (** simple_moving_average.cc:7-9 and simple_moving_average.h:43. *)
  Definition NewSma (n period : Z) : outcome sma := LastN_check n period ;; Done ([], #0).
  (** simple_moving_average.cc:36-38 Update. *)
  Definition sma_Update (n period : Z) (s : sma) (t : ohlc_tick) : outcome sma :=
    LastN_Update sma_handler n period s t.
  (** simple_moving_average.cc:32-34. *)
  Definition sma_GetNumOhlcTicks (s : sma) : Z := Z.of_nat (length (fst s)).
  (** simple_moving_average.cc:24-30. *)
  Definition sma_Get (s : sma) : flt :=
    if (sma_GetNumOhlcTicks s =? 0)%Z then #0 else snd s / fofZ (sma_GetNumOhlcTicks s).

  (** * ExponentialMovingAverage (exponential_moving_average.cc) *)

  (** exponential_moving_average.cc:11: the weight. *)
  Definition ema_weight (smoothing : flt) (ema_length : Z) : flt :=
    smoothing / (#1 + fofZ ema_length).

  (** exponential_moving_average.cc:12-31: the callbacks. *)
  Definition ema_handler (weight : flt) (h : ema_helper) (_ : list ohlc_tick) (e : tick_event)
    : outcome ema_helper :=
    match e with
    | TickUpdated _ new =>
      assert_ (ema_num_values h >=? 1)%Z ;; ema_UpdateCurrentValue h (close new) weight
    | TickAdded new =>
      assert_ (ema_num_values h =? 0)%Z ;; ema_AddNewValue h (close new) weight
    | TickAddedRemoved _ new =>
      assert_ (ema_num_values h >=? 1)%Z ;; ema_AddNewValue h (close new) weight
    end.

  Definition ema : Type := list ohlc_tick * ema_helper.
  (** exponential_moving_average.cc:7-12. *)
  Definition NewEma (period : Z) : outcome ema := LastN_check 1 period ;; Done ([], NewEmaHelper).
  (** exponential_moving_average.cc:42-44. *)
  Definition ema_Update (weight : flt) (period : Z) (s : ema) (t : ohlc_tick) : outcome ema :=
    LastN_Update (ema_handler weight) 1 period s t.
  (** exponential_moving_average.cc:34-40. *)
  Definition ema_Get (s : ema) : flt := current_ema (snd s).
  Definition ema_GetNumOhlcTicks (s : ema) : Z := ema_num_values (snd s).

  (** * MovingAverageConvergenceDivergence (moving_average_convergence_divergence.cc) *)

  Record macd_state : Type := MacdState {
    fast_ema : ema_helper;
    slow_ema : ema_helper;
    signal_ema : ema_helper;
    macd_num : Z
  }.

  (** moving_average_convergence_divergence.cc:45-47 GetMACDSeries. *)
  Definition GetMACDSeries_of (fast slow : ema_helper) : flt :=
    current_ema fast - current_ema slow.

  Section Macd.
    Context (fast_weight slow_weight signal_weight : flt).

    (** moving_average_convergence_divergence.cc:65-70 LastTickUpdated. *)
    Definition macd_LastTickUpdated (s : macd_state) (t : ohlc_tick) : outcome macd_state :=
      do f <- ema_UpdateCurrentValue (fast_ema s) (close t) fast_weight ;
      do w <- ema_UpdateCurrentValue (slow_ema s) (close t) slow_weight ;
      do g <- ema_UpdateCurrentValue (signal_ema s) (GetMACDSeries_of f w) signal_weight ;
      Done (MacdState f w g (macd_num s)).

    (** moving_average_convergence_divergence.cc:72-78 NewTickAdded. *)
    Definition macd_NewTickAdded (s : macd_state) (t : ohlc_tick) : outcome macd_state :=
      do f <- ema_AddNewValue (fast_ema s) (close t) fast_weight ;
      do w <- ema_AddNewValue (slow_ema s) (close t) slow_weight ;
      do g <- ema_AddNewValue (signal_ema s) (GetMACDSeries_of f w) signal_weight ;
      Done (MacdState f w g (macd_num s + 1)).

    (** moving_average_convergence_divergence.cc:13-32: the callbacks. *)
    Definition macd_handler (s : macd_state) (_ : list ohlc_tick) (e : tick_event)
      : outcome macd_state :=
      match e with
      | TickUpdated _ new => assert_ (macd_num s >=? 1)%Z ;; macd_LastTickUpdated s new
      | TickAdded new => assert_ (macd_num s =? 0)%Z ;; macd_NewTickAdded s new
      | TickAddedRemoved _ new => assert_ (macd_num s >=? 1)%Z ;; macd_NewTickAdded s new
      end.
  End Macd.

  (** moving_average_convergence_divergence.cc:10-12: the weights 2.0f / (1.0f + length). *)
  Definition macd_weight (length : Z) : flt := #2 / (#1 + fofZ length).

  Definition macd : Type := list ohlc_tick * macd_state.
  (** moving_average_convergence_divergence.cc:7-12. *)
  Definition NewMacd (period : Z) : outcome macd :=
    LastN_check 1 period ;; Done ([], MacdState NewEmaHelper NewEmaHelper NewEmaHelper 0).
  (** moving_average_convergence_divergence.cc:61-63. *)
  Definition macd_Update (fast_length slow_length signal_smoothing period : Z) (s : macd)
             (t : ohlc_tick) : outcome macd :=
    LastN_Update (macd_handler (macd_weight fast_length) (macd_weight slow_length)
                               (macd_weight signal_smoothing)) 1 period s t.
  (** moving_average_convergence_divergence.cc:35-59: the getters. *)
  Definition macd_GetFast (s : macd) : flt := current_ema (fast_ema (snd s)).
  Definition macd_GetSlow (s : macd) : flt := current_ema (slow_ema (snd s)).
  Definition macd_GetSeries (s : macd) : flt := macd_GetFast s - macd_GetSlow s.
  Definition macd_GetSignal (s : macd) : flt := current_ema (signal_ema (snd s)).
  Definition macd_GetDivergence (s : macd) : flt := macd_GetSeries s - macd_GetSignal s.
  Definition macd_GetNumOhlcTicks (s : macd) : Z := macd_num (snd s).

  (** * RelativeStrengthIndex (relative_strength_index.cc) *)

  Record rsi_state : Type := RsiState {
    upward_mma : ema_helper;
    downward_mma : ema_helper;
    rsi_num : Z
  }.

  (** relative_strength_index.cc:76-78 GetModifiedMovingAverageWeight: 1.0f / std::min(int, int). *)
  Definition rsi_weight (num_ohlc_ticks num_periods : Z) : flt :=
    #1 / fofZ (Z.min num_ohlc_ticks num_periods).

  (** relative_strength_index.cc:80-107 GetUpwardDownwardChange ([ticks] newest first; at(0) is the oldest). *)
  Definition GetUpwardDownwardChange (ticks : list ohlc_tick) : outcome (flt * flt) :=
    match ticks with
    | [t] =>
      if close t >=? open t then Done (close t - open t, #0)
      else Done (#0, open t - close t)
    | _ =>
      assert_ (Z.of_nat (length ticks) =? 2)%Z ;;
      match rev ticks with
      | prev :: t :: _ =>
        if close t >=? close prev then Done (close t - close prev, #0)
        else Done (#0, close prev - close t)
      | _ => Thrown
      end
    end.

  Section Rsi.
    Context (num_periods : Z).

    (** relative_strength_index.cc:61-66 LastTickUpdated. *)
    Definition rsi_LastTickUpdated (s : rsi_state) (ticks : list ohlc_tick) : outcome rsi_state :=
      let weight := rsi_weight (rsi_num s) num_periods in
      do change <- GetUpwardDownwardChange ticks ;
      do u <- ema_UpdateCurrentValue (upward_mma s) (fst change) weight ;
      do d <- ema_UpdateCurrentValue (downward_mma s) (snd change) weight ;
      Done (RsiState u d (rsi_num s)).

    (** relative_strength_index.cc:68-74 NewTickAdded. *)
    Definition rsi_NewTickAdded (s : rsi_state) (ticks : list ohlc_tick) : outcome rsi_state :=
      let num := (rsi_num s + 1)%Z in
      let weight := rsi_weight num num_periods in
      do change <- GetUpwardDownwardChange ticks ;
      do u <- ema_AddNewValue (upward_mma s) (fst change) weight ;
      do d <- ema_AddNewValue (downward_mma s) (snd change) weight ;
      Done (RsiState u d num).

    (** relative_strength_index.cc:11-30: the callbacks. *)
    Definition rsi_handler (s : rsi_state) (ticks : list ohlc_tick) (e : tick_event)
      : outcome rsi_state :=
      match e with
      | TickUpdated _ _ => assert_ (rsi_num s >=? 1)%Z ;; rsi_LastTickUpdated s ticks
      | TickAdded _ => assert_ (rsi_num s <=? 1)%Z ;; rsi_NewTickAdded s ticks
      | TickAddedRemoved _ _ => assert_ (rsi_num s >=? 2)%Z ;; rsi_NewTickAdded s ticks
      end.
  End Rsi.

  Definition rsi : Type := list ohlc_tick * rsi_state.
  (** relative_strength_index.cc:7-10. *)
  Definition NewRsi (period : Z) : outcome rsi :=
    LastN_check 2 period ;; Done ([], RsiState NewEmaHelper NewEmaHelper 0).
  (** relative_strength_index.cc:57-59. *)
  Definition rsi_Update (num_periods period : Z) (s : rsi) (t : ohlc_tick) : outcome rsi :=
    LastN_Update (rsi_handler num_periods) 2 period s t.
  (** relative_strength_index.cc:33-39. *)
  Definition rsi_GetUp (s : rsi) : flt := current_ema (upward_mma (snd s)).
  Definition rsi_GetDown (s : rsi) : flt := current_ema (downward_mma (snd s)).
  (** relative_strength_index.cc:41-53 GetRelativeStrengthIndex. *)
  Definition rsi_formula (up down : flt) : flt :=
    if (up <? flit 1 1000000) && (down <? flit 1 1000000) then #50
    else if down <? up * flit 1 1000000 then #100
    else #100 - #100 / (#1 + up / down).
  Definition rsi_Get (s : rsi) : flt := rsi_formula (rsi_GetUp s) (rsi_GetDown s).
  Definition rsi_GetNumOhlcTicks (s : rsi) : Z := rsi_num (snd s).

  (** * StochasticOscillator (stochastic_oscillator.cc) *)

  Record stoch_state : Type := StochState {
    st_min : sliding_min;
    st_max : sliding_min;
    st_fast : mean_var;
    st_slow : mean_var;
    latest_k : flt;
    st_num : Z
  }.

  (** stochastic_oscillator.cc:72-82 UpdateK: the new latest_k_. *)
  Definition stoch_k (num : Z) (price_min price_max latest_price : flt) : outcome flt :=
    assert_ (num >=? 1)%Z ;;
    let price_span := price_max - price_min in
    if price_span <? flit 1 1000000 then Done #50
    else Done (#100 * (latest_price - price_min) / price_span).

  (** stochastic_oscillator.cc:55-61 LastTickUpdated. *)
  Definition stoch_LastTickUpdated (s : stoch_state) (t : ohlc_tick) : outcome stoch_state :=
    do mn <- sm_UpdateCurrentValue (st_min s) (low t) ;
    do mx <- sx_UpdateCurrentValue (st_max s) (high t) ;
    do k <- stoch_k (st_num s) (sm_Get mn) (sx_Get mx) (close t) ;
    do df <- mv_UpdateCurrentValue (st_fast s) k ;
    do ds <- mv_UpdateCurrentValue (st_slow s) (mv_GetMean df) ;
    Done (StochState mn mx df ds k (st_num s)).

  (** stochastic_oscillator.cc:63-70 NewTickAdded. *)
  Definition stoch_NewTickAdded (s : stoch_state) (t : ohlc_tick) : outcome stoch_state :=
    let num := (st_num s + 1)%Z in
    do mn <- sm_AddNewValue (st_min s) (low t) ;
    do mx <- sx_AddNewValue (st_max s) (high t) ;
    do k <- stoch_k num (sm_Get mn) (sx_Get mx) (close t) ;
    let df := mv_AddNewValue (st_fast s) k in
    let ds := mv_AddNewValue (st_slow s) (mv_GetMean df) in
    Done (StochState mn mx df ds k num).

  (** stochastic_oscillator.cc:13-32: the callbacks. *)
  Definition stoch_handler (s : stoch_state) (_ : list ohlc_tick) (e : tick_event)
    : outcome stoch_state :=
    match e with
    | TickUpdated _ new => assert_ (st_num s >=? 1)%Z ;; stoch_LastTickUpdated s new
    | TickAdded new => assert_ (st_num s =? 0)%Z ;; stoch_NewTickAdded s new
    | TickAddedRemoved _ new => assert_ (st_num s >=? 1)%Z ;; stoch_NewTickAdded s new
    end.

  Definition stoch : Type := list ohlc_tick * stoch_state.
  (** stochastic_oscillator.cc:7-12, stochastic_oscillator.h:60-70. *)
  Definition NewStoch (num_periods period : Z) : outcome stoch :=
    LastN_check 1 period ;;
    do mn <- NewSlidingMin num_periods ;
    do mx <- NewSlidingMin num_periods ;
    Done ([], StochState mn mx (NewMeanVar 3) (NewMeanVar 3) #0 0).
  (** stochastic_oscillator.cc:51-53. *)
  Definition stoch_Update (period : Z) (s : stoch) (t : ohlc_tick) : outcome stoch :=
    LastN_Update stoch_handler 1 period s t.
  (** stochastic_oscillator.cc:35-49: the getters. *)
  Definition stoch_GetLow (s : stoch) : flt := sm_Get (st_min (snd s)).
  Definition stoch_GetHigh (s : stoch) : flt := sx_Get (st_max (snd s)).
  Definition stoch_GetK (s : stoch) : flt := latest_k (snd s).
  Definition stoch_GetFastD (s : stoch) : flt := mv_GetMean (st_fast (snd s)).
  Definition stoch_GetSlowD (s : stoch) : flt := mv_GetMean (st_slow (snd s)).
  Definition stoch_GetNumOhlcTicks (s : stoch) : Z := st_num (snd s).

  (** * Volatility (volatility.cc) *)

  (** [vl_portfolio] is the deque portfolio_value_, front first. *)
  Record vol_state : Type := VolState {
    vl_base : flt;
    vl_quote : flt;
    vl_portfolio : list flt;
    vl_variance : mean_var;
    vl_num : Z
  }.

  (** volatility.cc:64-67 GetLogarithmicReturn. *)
  Definition GetLogarithmicReturn (portfolio : list flt) : outcome flt :=
    assert_ (Z.of_nat (length portfolio) =? 2)%Z ;;
    match portfolio with
    | v0 :: v1 :: _ => Done (flog (v0 / v1))
    | _ => Thrown
    end.

  (** pop_front() of an empty deque is undefined. *)
  Definition pop_front {A} (l : list A) : outcome (list A) :=
    match l with [] => Undefined | _ :: l' => Done l' end.

  (** back() = v of an empty deque is undefined. *)
  Definition set_back {A} (l : list A) (v : A) : outcome (list A) :=
    match l with [] => Undefined | _ :: _ => Done (removelast l ++ [v]) end.

  Definition vol_value (s : vol_state) (price : flt) : flt := vl_base s * price + vl_quote s.

  (** volatility.cc:10-48: the callbacks. *)
  Definition vol_handler (s : vol_state) (_ : list ohlc_tick) (e : tick_event) : outcome vol_state :=
    match e with
    | TickUpdated _ new =>
      assert_ (vl_num s >=? 1)%Z ;;
      do p <- set_back (vl_portfolio s) (vol_value s (close new)) ;
      do r <- GetLogarithmicReturn p ;
      do v <- mv_UpdateCurrentValue (vl_variance s) r ;
      Done (VolState (vl_base s) (vl_quote s) p v (vl_num s))
    | TickAdded new =>
      assert_ (vl_num s <=? 1)%Z ;;
      do p <- (if (vl_num s =? 0)%Z then
                 assert_ (match vl_portfolio s with [] => true | _ => false end) ;;
                 Done (vl_portfolio s ++ [vol_value s (open new)])
               else pop_front (vl_portfolio s)) ;
      let p := p ++ [vol_value s (close new)] in
      do r <- GetLogarithmicReturn p ;
      Done (VolState (vl_base s) (vl_quote s) p (mv_AddNewValue (vl_variance s) r) (vl_num s + 1))
    | TickAddedRemoved _ new =>
      assert_ (vl_num s >=? 2)%Z ;;
      do p <- pop_front (vl_portfolio s) ;
      let p := p ++ [vol_value s (close new)] in
      do r <- GetLogarithmicReturn p ;
      Done (VolState (vl_base s) (vl_quote s) p (mv_AddNewValue (vl_variance s) r) (vl_num s + 1))
    end.

  Definition volatility : Type := list ohlc_tick * vol_state.
  (** volatility.cc:7-9. *)
  Definition NewVolatility (window_size period : Z) : outcome volatility :=
    LastN_check 2 period ;;
    Done ([], VolState #0 #0 [] (NewMeanVar window_size) 0).
  (** volatility.cc:57-62 Update. *)
  Definition vol_Update (period : Z) (s : volatility) (t : ohlc_tick) (base quote : flt)
    : outcome volatility :=
    let v := snd s in
    LastN_Update vol_handler 2 period
      (fst s, VolState base quote (vl_portfolio v) (vl_variance v) (vl_num v)) t.
  (** volatility.cc:51-55. *)
  Definition vol_Get (s : volatility) : flt := mv_GetStandardDeviation (vl_variance (snd s)).
  Definition vol_GetNumOhlcTicks (s : volatility) : Z := vl_num (snd s).
End Indicators.
