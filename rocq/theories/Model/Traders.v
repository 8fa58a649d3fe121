(** traders/: the two traders and the trader factory. *)

From Coq Require Import ZArith Bool List String DecimalString.
From Verif.Model Require Import Outcome Machine Types Account Eval.
Import ListNotations.

(** absl::StrFormat "%d". *)
Definition fmt_d (z : Z) : string := NilZero.string_of_int (Z.to_int z).

Section Traders.
  Context {M : machine}.
  Local Open Scope flt_scope.

  (** * RebalancingTrader (traders/rebalancing_trader.cc) *)

  (** traders/trader_config.proto message RebalancingTraderConfig. *)
  Record rebalancing_config : Type := RebalancingConfig {
    alpha : flt;
    epsilon : flt
  }.

  (** traders/rebalancing_trader.h: the state of RebalancingTrader. *)
  Record rebalancing_state : Type := RebalancingState {
    rb_base : flt; rb_quote : flt; rb_timestamp : Z; rb_close : flt
  }.

  Definition rebalancing_init : rebalancing_state := RebalancingState #0 #0 0 #0.

  Definition market_order (side : order_side) (base_amount : flt) : order :=
    Order (Some MARKET) (Some side) (BaseAmount base_amount) None.
  Definition limit_order (side : order_side) (base_amount price : flt) : order :=
    Order (Some LIMIT) (Some side) (BaseAmount base_amount) (Some price).

  (** rebalancing_trader.cc:16-66: the emitted orders.  In the C++ text [1 + epsilon] is
      int + float, i.e. a float operation. *)
  Definition rebalancing_orders (c : rebalancing_config) (price base_balance quote_balance : flt)
    : list order :=
    let portfolio_value := base_balance * price + quote_balance in
    let alpha_up := alpha c * (#1 + epsilon c) in
    let alpha_down := alpha c * (#1 - epsilon c) in
    let beta := base_balance * price / portfolio_value in
    if beta >? alpha_up then
      [market_order SELL (((#1 - alpha c) * portfolio_value - quote_balance) / price)]
    else if beta <? alpha_down then
      [market_order BUY ((quote_balance - (#1 - alpha c) * portfolio_value) / price)]
    else if (base_balance >? flit 1 1000000) && (quote_balance >? flit 1 1000000) then
      let sell_part :=
        if alpha c * (#1 + epsilon c) <? #1 then
          let sell_price :=
            (alpha c * (#1 + epsilon c) * quote_balance) / (#1 - alpha c * (#1 + epsilon c)) in
          if (sell_price >? price) && (sell_price <? #100 * price) then
            [limit_order SELL (base_balance * epsilon c / (#1 + epsilon c)) sell_price]
          else []
        else [] in
      let buy_price :=
        (alpha c * (#1 - epsilon c) * quote_balance) / (#1 - alpha c * (#1 - epsilon c)) in
      let buy_part :=
        if (buy_price <? price) && (buy_price >? price / #100) then
          [limit_order BUY (base_balance * epsilon c / (#1 - epsilon c)) buy_price]
        else [] in
      sell_part ++ buy_part
    else [].

  (** rebalancing_trader.cc:10-71 RebalancingTrader::Update. *)
  Definition rebalancing_update (c : rebalancing_config) (s : rebalancing_state) (t : ohlc_tick)
             (side_input_signals : list flt) (base_balance quote_balance : flt)
    : outcome (rebalancing_state * list order) :=
    let price := close t in
    assert_ (timestamp_sec t >? rb_timestamp s)%Z ;;
    assert_ (price >? #0) ;;
    assert_ ((base_balance >? #0) || (quote_balance >? #0)) ;;
    Done (RebalancingState base_balance quote_balance (timestamp_sec t) price,
          rebalancing_orders c price base_balance quote_balance).

  (** rebalancing_trader.cc:73-76 GetInternalState. *)
  Definition rebalancing_show (s : rebalancing_state) : string :=
    fmt_d (rb_timestamp s) ++ "," ++ ffmt3 (rb_base s) ++ "," ++ ffmt3 (rb_quote s) ++ ","
    ++ ffmt3 (rb_close s).

  (** rebalancing_trader.cc:78-81 GetName. *)
  Definition rebalancing_name (c : rebalancing_config) : string :=
    "rebalancing-trader[" ++ ffmt3 (alpha c) ++ "|" ++ ffmt3 (epsilon c) ++ "]".

  (** rebalancing_trader.cc:78-85 RebalancingTraderEmitter. *)
  Definition rebalancing_emitter (c : rebalancing_config) : trader_emitter :=
    TraderEmitter (rebalancing_name c) rebalancing_state rebalancing_init
                  (rebalancing_update c) rebalancing_show.

  (** rebalancing_trader.cc:87-100 GetBatchOfTraders. *)
  Definition rebalancing_batch (alphas epsilons : list flt) : list rebalancing_config :=
    flat_map (fun a => map (fun e => RebalancingConfig a e) epsilons) alphas.

  (** * StopTrader (traders/stop_trader.cc) *)

  (** traders/trader_config.proto message StopTraderConfig. *)
  Record stop_config : Type := StopConfig {
    stop_order_margin : flt;
    stop_order_move_margin : flt;
    stop_order_increase_per_day : flt;
    stop_order_decrease_per_day : flt
  }.

  (** stop_trader.h:25-29 enum class Mode. *)
  Inductive mode : Type := NONE | LONG | CASH.
  Definition mode_eqb (a b : mode) : bool :=
    match a, b with NONE, NONE | LONG, LONG | CASH, CASH => true | _, _ => false end.

  (** stop_trader.h:32-46: the state of StopTrader. *)
  Record stop_state : Type := StopState {
    sp_base : flt; sp_quote : flt; sp_timestamp : Z; sp_close : flt;
    sp_mode : mode; stop_order_price : flt
  }.

  Definition stop_init : stop_state := StopState #0 #0 0 #0 NONE #0.

  (** stop_trader.h:46 max_allowed_gap_sec_. *)
  Definition max_allowed_gap_sec : Z := 1 * 60 * 60.

  (** stop_trader.cc:41-74 UpdateStopOrderPrice: the new stop_order_price_. *)
  Definition UpdateStopOrderPrice (c : stop_config) (s : stop_state) (m : mode) (t : Z)
             (price : flt) : outcome flt :=
    let sampling_rate_sec := fofZ (Z.min kSecondsPerDay (t - sp_timestamp s)) in
    let ticks_per_day := fofZ kSecondsPerDay / sampling_rate_sec in
    let stop := stop_order_price s in
    match m with
    | LONG =>
      let stop_order_increase_threshold := (#1 - stop_order_move_margin c) * price in
      if stop <=? stop_order_increase_threshold then
        let stop_order_increase_per_tick :=
          fexp (flog (#1 + stop_order_increase_per_day c) / ticks_per_day) - #1 in
        Done (fmax stop (fmin stop_order_increase_threshold
                              ((#1 + stop_order_increase_per_tick) * stop)))
      else Done stop
    | _ =>
      assert_ (mode_eqb m CASH) ;;
      let stop_order_decrease_threshold := (#1 + stop_order_move_margin c) * price in
      if stop >=? stop_order_decrease_threshold then
        let stop_order_decrease_per_tick :=
          #1 - fexp (flog (#1 - stop_order_decrease_per_day c) / ticks_per_day) in
        Done (fmin stop (fmax stop_order_decrease_threshold
                              ((#1 - stop_order_decrease_per_tick) * stop)))
      else Done stop
    end.

  (** stop_trader.cc:76-89 EmitStopOrder. *)
  Definition EmitStopOrder (s : stop_state) : outcome (list order) :=
    match sp_mode s with
    | LONG => Done [Order (Some STOP) (Some SELL) (BaseAmount (sp_base s)) (Some (stop_order_price s))]
    | m =>
      assert_ (mode_eqb m CASH) ;;
      Done [Order (Some STOP) (Some BUY) (QuoteAmount (sp_quote s)) (Some (stop_order_price s))]
    end.

  (** stop_trader.cc:19-20: the mode for the current balances. *)
  Definition stop_mode (price base_balance quote_balance : flt) : mode :=
    if base_balance * price >=? quote_balance then LONG else CASH.

  (** stop_trader.cc:10-39 StopTrader::Update. *)
  Definition stop_update (c : stop_config) (s : stop_state) (t : ohlc_tick)
             (side_input_signals : list flt) (base_balance quote_balance : flt)
    : outcome (stop_state * list order) :=
    let ts := timestamp_sec t in
    let price := close t in
    assert_ (ts >? sp_timestamp s)%Z ;;
    assert_ (price >? #0) ;;
    assert_ ((base_balance >? #0) || (quote_balance >? #0)) ;;
    let m := stop_mode price base_balance quote_balance in
    do stop <-
      (if ((ts >=? sp_timestamp s + max_allowed_gap_sec)%Z || negb (mode_eqb m (sp_mode s))) then
         match m with
         | LONG => Done ((#1 - stop_order_margin c) * price)
         | _ => assert_ (mode_eqb m CASH) ;; Done ((#1 + stop_order_margin c) * price)
         end
       else
         assert_ (mode_eqb m (sp_mode s)) ;;
         UpdateStopOrderPrice c s m ts price) ;
    let s' := StopState base_balance quote_balance ts price m stop in
    do orders <- EmitStopOrder s' ;
    Done (s', orders).

  (** stop_trader.cc:91-96 GetInternalState. *)
  Definition stop_show (s : stop_state) : string :=
    fmt_d (sp_timestamp s) ++ "," ++ ffmt3 (sp_base s) ++ "," ++ ffmt3 (sp_quote s) ++ ","
    ++ ffmt3 (sp_close s) ++ "," ++ (if mode_eqb (sp_mode s) LONG then "LONG" else "CASH") ++ ","
    ++ ffmt3 (stop_order_price s).

  (** stop_trader.cc:98-104 GetName. *)
  Definition stop_name (c : stop_config) : string :=
    "stop-trader[" ++ ffmt3 (stop_order_margin c) ++ "|" ++ ffmt3 (stop_order_move_margin c) ++ "|"
    ++ ffmt3 (stop_order_increase_per_day c) ++ "|" ++ ffmt3 (stop_order_decrease_per_day c) ++ "]".

  (** stop_trader.cc:98-108 StopTraderEmitter. *)
  Definition stop_emitter (c : stop_config) : trader_emitter :=
    TraderEmitter (stop_name c) stop_state stop_init (stop_update c) stop_show.

  (** stop_trader.cc:110-136 GetBatchOfTraders. *)
  Definition stop_batch (margins move_margins increases decreases : list flt) : list stop_config :=
    flat_map (fun a =>
      flat_map (fun b =>
        flat_map (fun c =>
          map (fun d => StopConfig a b c d) decreases) increases) move_margins) margins.

  (** * trader_factory.cc *)

  (** trader_factory.cc:15-20, 30-37: the default configurations. *)
  Definition default_rebalancing : rebalancing_config :=
    RebalancingConfig (flit 7 10) (flit 5 100).
  Definition default_stop : stop_config :=
    StopConfig (flit 1 10) (flit 1 10) (flit 1 100) (flit 1 10).

  (** trader_factory.cc:23-27 GetBatchOfRebalancingTraders. *)
  Definition batch_of_rebalancing : list rebalancing_config :=
    rebalancing_batch [flit 1 10; flit 3 10; flit 5 10; flit 7 10; flit 9 10]
                      [flit 1 100; flit 5 100; flit 1 10; flit 2 10].

  (** trader_factory.cc:40-46 GetBatchOfStopTraders: the double literals are narrowed
      to float. *)
  Definition dlit (n d : Z) : flt := d2f (ddiv (dofZ n) (dofZ d)).
  Definition batch_of_stop : list stop_config :=
    stop_batch [dlit 5 100; dlit 1 10; dlit 15 100; dlit 2 10]
               [dlit 5 100; dlit 1 10; dlit 15 100; dlit 2 10]
               [dlit 1 100; dlit 5 100; dlit 1 10]
               [dlit 1 100; dlit 5 100; dlit 1 10].

  (** trader_factory.cc:49-56 GetTrader. *)
  Definition GetTrader (trader_name : string) : outcome trader_emitter :=
    if String.eqb trader_name "rebalancing" then Done (rebalancing_emitter default_rebalancing)
    else assert_ (String.eqb trader_name "stop") ;; Done (stop_emitter default_stop).

  (** trader_factory.cc:58-66 GetBatchOfTraders. *)
  Definition GetBatchOfTraders (trader_name : string) : outcome (list trader_emitter) :=
    if String.eqb trader_name "rebalancing" then Done (map rebalancing_emitter batch_of_rebalancing)
    else assert_ (String.eqb trader_name "stop") ;; Done (map stop_emitter batch_of_stop).
End Traders.
