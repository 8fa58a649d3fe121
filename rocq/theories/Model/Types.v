(** Data types of the C++ program (protocol buffer messages and structs).

    A proto2 message is modelled by a record of what its getters return (an
    unset field reads as zero), except for Order, where field presence matters
    (IsValidOrder), and in Proto.v, where the wire format is modelled. *)

From Coq Require Import ZArith String List.
From Verif.Model Require Import Outcome Machine.

Section Types.
  Context {M : machine}.

  (** base/base.proto:8-15 message PriceRecord. *)
  Record price_record : Type := PriceRecord {
    pr_timestamp_sec : Z;
    pr_price : flt;
    pr_volume : flt
  }.

  (** base/base.proto:19-32 message OhlcTick. *)
  Record ohlc_tick : Type := OhlcTick {
    timestamp_sec : Z;
    open : flt;
    high : flt;
    low : flt;
    close : flt;
    volume : flt
  }.

  (** base/base.proto:36-42 message SideInputRecord. *)
  Record side_record : Type := SideRecord {
    sr_timestamp_sec : Z;
    sr_signal : list flt
  }.

  (** base/base.proto:45-52 message FeeConfig. *)
  Record fee_config : Type := FeeConfig {
    relative_fee : flt;
    fixed_fee : flt;
    minimum_fee : flt
  }.

  (** base/base.proto:55-85 message AccountConfig. *)
  Record account_config : Type := AccountConfig {
    start_base_balance : flt;
    start_quote_balance : flt;
    cfg_base_unit : flt;
    cfg_quote_unit : flt;
    market_order_fee_config : fee_config;
    stop_order_fee_config : fee_config;
    limit_order_fee_config : fee_config;
    cfg_market_liquidity : flt;
    cfg_max_volume_ratio : flt
  }.

  (** base/base.proto:89-93 enum Order.Type. *)
  Inductive order_type : Type := MARKET | STOP | LIMIT.
  (** base/base.proto:94-97 enum Order.Side. *)
  Inductive order_side : Type := BUY | SELL.
  (** base/base.proto:102-109 oneof oneof_amount. *)
  Inductive order_amount : Type :=
  | NoAmount
  | BaseAmount (x : flt)
  | QuoteAmount (x : flt).

  (** base/base.proto:88-113 message Order.  [None] = field not set. *)
  Record order : Type := Order {
    o_type : option order_type;
    o_side : option order_side;
    o_amount : order_amount;
    o_price : option flt
  }.

  (** base/account.h:11-41 struct Account. *)
  Record account : Type := Account {
    base_balance : flt;
    quote_balance : flt;
    total_fee : flt;
    base_unit : flt;
    quote_unit : flt;
    market_liquidity : flt;
    max_volume_ratio : flt
  }.

  (** eval/eval.proto:42-52 message EvaluationConfig. *)
  Record evaluation_config : Type := EvaluationConfig {
    ec_start_timestamp_sec : Z;
    ec_end_timestamp_sec : Z;
    evaluation_period_months : Z;
    fast_eval : bool
  }.

  (** eval/eval.proto:10-39 message ExecutionResult. The two volatilities are optional:
      they are not set by a fast evaluation. *)
  Record execution_result : Type := ExecutionResult {
    r_start_base_balance : flt;
    r_start_quote_balance : flt;
    r_end_base_balance : flt;
    r_end_quote_balance : flt;
    r_start_price : flt;
    r_end_price : flt;
    r_start_value : flt;
    r_end_value : flt;
    r_total_executed_orders : Z;
    r_total_fee : flt;
    r_base_volatility : option flt;
    r_trader_volatility : option flt
  }.

  (** eval/eval.proto:63-74 message EvaluationResult.Period. *)
  Record period : Type := Period {
    p_start_timestamp_sec : Z;
    p_end_timestamp_sec : Z;
    p_result : execution_result;
    p_final_gain : flt;
    p_base_final_gain : flt
  }.

  (** eval/eval.proto:55-87 message EvaluationResult. *)
  Record evaluation_result : Type := EvaluationResult {
    er_account_config : account_config;
    er_eval_config : evaluation_config;
    er_name : string;
    er_period : list period;
    er_score : flt;
    er_avg_gain : flt;
    er_avg_base_gain : flt;
    er_avg_total_executed_orders : flt;
    er_avg_total_fee : flt
  }.

  (** An ExecutionResult with no field set reads as all zeroes (proto2 getters);
      eval/eval.cc:43-46 returns it for an empty history. *)
  Definition empty_execution_result : execution_result :=
    ExecutionResult (fofZ 0) (fofZ 0) (fofZ 0) (fofZ 0) (fofZ 0) (fofZ 0)
                    (fofZ 0) (fofZ 0) 0 (fofZ 0) None None.
End Types.
