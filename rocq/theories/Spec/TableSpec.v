(** Runs of the trader program that ask the same about more data, or about less. *)
From Coq Require Import ZArith String List.
From Verif.Model Require Import Machine MachineIEEE Files Programs.
Import ListNotations.

(** The same flags with other input files and another end time. *)
Definition ask_until (f : trader_flags) (ohlc side end_time : string) : trader_flags :=
  TraderFlags ohlc side (tf_exchange_log f) (tf_trader_log f) (tf_trader f)
    (tf_start_time f) end_time (tf_evaluation_period_months f)
    (tf_start_base_balance f) (tf_start_quote_balance f)
    (tf_market_liquidity f) (tf_max_volume_ratio f) (tf_evaluate_batch f).

(** The same flags for the period of one line of the table, as a whole: the two times are
    copied from the line. *)
Definition ask_line (f : trader_flags) (line : table_row) : trader_flags :=
  TraderFlags (tf_input_ohlc f) (tf_input_side f) (tf_exchange_log f) (tf_trader_log f) (tf_trader f)
    (row_start line) (row_end line) 0
    (tf_start_base_balance f) (tf_start_quote_balance f)
    (tf_market_liquidity f) (tf_max_volume_ratio f) (tf_evaluate_batch f).
