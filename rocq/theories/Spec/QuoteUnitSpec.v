(** The same market and the same account in another quote currency: one unit of the old
    currency is k units of the new one (100 cents to the dollar). *)
From Coq Require Import ZArith List Reals String.
From Verif.Model Require Import Outcome Machine MachineR Types.
Import ListNotations.
Local Open Scope R_scope.

Section Quoted.
  Context (sh : R -> string) (as_ : bool) (k : R).
  Local Notation E := (exact sh as_).

  Definition tick_in (t : @ohlc_tick E) : @ohlc_tick E :=
    @OhlcTick E (timestamp_sec t) (k * open t) (k * high t) (k * low t) (k * close t) (volume t).

  Definition fees_in (f : @fee_config E) : @fee_config E :=
    @FeeConfig E (relative_fee f) (k * fixed_fee f) (k * minimum_fee f).

  Definition account_in (c : @account_config E) : @account_config E :=
    @AccountConfig E (start_base_balance c) (k * start_quote_balance c)
      (cfg_base_unit c) (k * cfg_quote_unit c)
      (fees_in (market_order_fee_config c)) (fees_in (stop_order_fee_config c))
      (fees_in (limit_order_fee_config c)) (cfg_market_liquidity c) (cfg_max_volume_ratio c).

  (** The same result: the same number of orders, the same amounts of base currency and the
      same volatilities; prices, amounts of quote currency and values in the new currency. *)
  Definition result_in (r : @execution_result E) : @execution_result E :=
    @ExecutionResult E (r_start_base_balance r) (k * r_start_quote_balance r)
      (r_end_base_balance r) (k * r_end_quote_balance r)
      (k * r_start_price r) (k * r_end_price r) (k * r_start_value r) (k * r_end_value r)
      (r_total_executed_orders r) (k * r_total_fee r) (r_base_volatility r) (r_trader_volatility r).

  Definition period_in (p : @period E) : @period E :=
    @Period E (p_start_timestamp_sec p) (p_end_timestamp_sec p) (result_in (p_result p))
      (p_final_gain p) (p_base_final_gain p).

  (** The same evaluation: the same gains and the same score. *)
  Definition evaluation_in (r : @evaluation_result E) : @evaluation_result E :=
    @EvaluationResult E (account_in (er_account_config r)) (er_eval_config r) (er_name r)
      (map period_in (er_period r)) (er_score r) (er_avg_gain r) (er_avg_base_gain r)
      (er_avg_total_executed_orders r) (k * er_avg_total_fee r).

  (** The quote balance is a whole number of quote units, and a quote unit is more than
      0.000001 in either currency. *)
  Definition visible_units (c : @account_config E) : Prop :=
    (exists n : Z, start_quote_balance c = IZR n * cfg_quote_unit c) /\
    1 / 1000000 < cfg_quote_unit c /\ 1 / 1000000 < k * cfg_quote_unit c.
End Quoted.
