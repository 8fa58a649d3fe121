{
 "claims": [
  {
   "property": "C01",
   "status": "proved",
   "theorems": [
    "C01_rejected_order_no_effect",
    "C01_methods"
   ],
   "note": "Any machine, axiom-free; ExecuteOrder and each of the 16 order methods."
  },
  {
   "property": "C02",
   "status": "proved",
   "theorems": [
    "C02_balances_nonneg",
    "C14_whole_units",
    "C02_overflow_refuted"
   ],
   "note": "IEEE binary32 for any order sequence, within the stated value ranges; C02_overflow_refuted shows a NaN balance outside them; exact arithmetic without ranges in C14_whole_units."
  },
  {
   "property": "C03",
   "status": "proved",
   "theorems": [
    "C03_buy_settlement",
    "C03_C04_orders"
   ],
   "note": "Exact arithmetic (the formulas of the code over the reals)."
  },
  {
   "property": "C04",
   "status": "proved",
   "theorems": [
    "C04_sell_settlement",
    "C03_C04_orders"
   ],
   "note": "Exact arithmetic."
  },
  {
   "property": "C05",
   "status": "proved",
   "theorems": [
    "C05_fee",
    "C05_fee_mono",
    "C05_fee_float",
    "C05_float_below_minimum_refuted"
   ],
   "note": "All clauses in exact arithmetic; in IEEE arithmetic: non-negative, float multiple of the unit, monotone. In floats the fee can be an ulp below the minimum: C05_float_below_minimum_refuted."
  },
  {
   "property": "C06",
   "status": "proved",
   "theorems": [
    "C06_no_value_created",
    "C06_sequence",
    "C06_float_refuted"
   ],
   "note": "Exact arithmetic; float rounding of balances can create value (C06_float_refuted)."
  },
  {
   "property": "C07",
   "status": "proved",
   "theorems": [
    "C07_buy_at_quote",
    "C07_literal_refuted"
   ],
   "note": "Exact arithmetic; the request is first rounded to the nearest quote unit, so the claim without that rounding is refuted."
  },
  {
   "property": "C08",
   "status": "proved",
   "theorems": [
    "C08_sell_at_quote",
    "C08_literal_refuted"
   ],
   "note": "Exact arithmetic; as C07."
  },
  {
   "property": "C09",
   "status": "proved",
   "theorems": [
    "C09_market_order",
    "C09_liquidity",
    "C09_float_refuted"
   ],
   "note": "Exact arithmetic; in floats the price can leave the range by an ulp (C09_float_refuted)."
  },
  {
   "property": "C10",
   "status": "proved",
   "theorems": [
    "C10_stop_order",
    "C03_C04_orders"
   ],
   "note": "Exact arithmetic."
  },
  {
   "property": "C100",
   "status": "proved",
   "theorems": [
    "C100_price_csv",
    "C100_ohlc_csv",
    "C100_side_csv",
    "C100_price_proto",
    "C100_ohlc_proto",
    "C100_ex",
    "C100_proto_ex"
   ],
   "note": "Number scanning is an oracle as in C63/C64; DebugString of a message is an arbitrary text; counters do not overflow."
  },
  {
   "property": "C101",
   "status": "proved",
   "theorems": [
    "C101_report",
    "C101_ex"
   ],
   "note": "The dots rely on the previous index being positive; the proof shows that index 0 is never followed by a gap because the context is five."
  },
  {
   "property": "C102",
   "status": "proved",
   "theorems": [
    "C102_convert_console",
    "C102_ex"
   ],
   "note": "Measured durations are arbitrary texts. The order of the lines on stdout and stderr is that of the calls."
  },
  {
   "property": "C103",
   "status": "proved",
   "theorems": [
    "C103_trader_console",
    "C103_ex"
   ],
   "note": "Measured durations and DebugString of the configurations are arbitrary texts; %f is correctly rounded (ties to even on the exact value), a NaN prints without its sign."
  },
  {
   "property": "C104",
   "status": "proved",
   "theorems": [
    "C104_out_of_range",
    "C104_price",
    "C104_ohlc",
    "C104_side",
    "C104_convert_side",
    "C104_text_unique",
    "C104_every_number",
    "C104_nearest",
    "C104_header_price",
    "C104_header_ohlc",
    "C104_header_side",
    "C104_space_before_comma_refuted",
    "C104_ex",
    "C104_side_ex",
    "decimal_scanner_reads",
    "decimal_scanner_consuming"
   ],
   "note": "The library's scanners are external: the theorems are about every scanner with reads_numbers; Model/Scan.v shows that there is one."
  },
  {
   "property": "C105",
   "status": "proved",
   "theorems": [
    "C105_price",
    "C105_ohlc",
    "C105_convert_price",
    "C105_convert_ohlc",
    "C105_contradiction_accepted_refuted",
    "C105_ex"
   ],
   "note": ""
  },
  {
   "property": "C106",
   "status": "proved",
   "theorems": [
    "C106_mean_variance",
    "C106_standard_deviation",
    "C106_ex"
   ],
   "note": "IEEE arithmetic; squares in double as in the code. Complements C50 (exact arithmetic, with the refuted literal float version)."
  },
  {
   "property": "C107",
   "status": "proved",
   "theorems": [
    "C107_volatility",
    "C107_log_ex",
    "C107_ex"
   ],
   "note": "The accuracy of logf is an assumption in the theorem's statement (log_accurate), shown satisfiable by the correctly rounded logarithm."
  },
  {
   "property": "C108",
   "status": "proved",
   "theorems": [
    "C108_prices",
    "C108_ohlc",
    "C108_side",
    "C108_ex",
    "C108_run"
   ],
   "note": "Composition of C105 and C84 at the level of texts; C108_run runs both programs on a two-line file."
  },
  {
   "property": "C109",
   "status": "proved",
   "theorems": [
    "C109_exit",
    "C109_refused",
    "C109_ex",
    "C109_run"
   ],
   "note": "If and only if; the reasons shown for a failure are C102."
  },
  {
   "property": "C11",
   "status": "proved",
   "theorems": [
    "C11_limit_order",
    "C03_C04_orders"
   ],
   "note": "Exact arithmetic."
  },
  {
   "property": "C110",
   "status": "proved",
   "theorems": [
    "C110_averages",
    "C110_index",
    "C110_quiet",
    "C110_ex"
   ],
   "note": "IEEE binary32 (Flocq). Bit-exact formula: C47."
  },
  {
   "property": "C111",
   "status": "proved",
   "theorems": [
    "C111_stochastic",
    "C111_ex"
   ],
   "note": "IEEE binary32 (Flocq). Exact formulas and ranges: C48."
  },
  {
   "property": "C112",
   "status": "proved",
   "theorems": [
    "C112_exact_rule",
    "C112_quiet",
    "C112_nothing_removed",
    "C112_again",
    "C112_idempotent_refuted",
    "C112_ex"
   ],
   "note": "IEEE binary32 (Flocq). The rule itself: C35 (right_mask)."
  },
  {
   "property": "C113",
   "status": "proved",
   "theorems": [
    "C113_quote_orders",
    "C113_plan_exists",
    "C113_buy_spends_request",
    "C113_sell_earns_request",
    "C113_ex"
   ],
   "note": "Exact arithmetic; the plan (Spec/QuoteSpec.v) is in terms of C01-C03's rounding and fee specifications."
  },
  {
   "property": "C114",
   "status": "proved",
   "theorems": [
    "C114_executes",
    "C114_only",
    "C114_rejects",
    "C114_sell_all",
    "C114_ex_met"
   ],
   "note": "At the ieee machine. The gap between (1) and (3) is the rounding error; C115 shows that it matters. Spec/ClearSpec.v defines possible, affordable, nearly_affordable without the code's helpers."
  },
  {
   "property": "C115",
   "status": "proved",
   "theorems": [
    "C115_order",
    "C115_never",
    "C115_ex"
   ],
   "note": "A finding about the code, stated as it behaves: traders that spend their whole balance may be stuck for ever. At the ieee machine; C115_ex shows the hypotheses are met by the program's flags and contrasts 10.07 with 10.08."
  },
  {
   "property": "C116",
   "status": "proved",
   "theorems": [
    "C116_fast",
    "C116_run",
    "C116_evaluation",
    "C116_volatility_refuted",
    "C116_ex_hypotheses",
    "C116_ex_same",
    "C116_ex"
   ],
   "note": "For every machine. Evaluations with a positive number of months per period are not covered: calendar months have different lengths, so windows do not move uniformly."
  },
  {
   "property": "C117",
   "status": "proved",
   "theorems": [
    "C117_run",
    "C117_evaluation",
    "C117_threshold_refuted",
    "C117_ex"
   ],
   "note": "Exact arithmetic: in floats the roundings do not commute with scaling."
  },
  {
   "property": "C118",
   "status": "proved",
   "theorems": [
    "C118_trader",
    "C118_price_refused",
    "C118_ohlc_refused",
    "C118_convert",
    "C118_ex",
    "C118_trader_ex"
   ],
   "note": "at the level of the programs, from the bytes of the files; the equality for convert is for runs without a price output file (that file keeps the records as they were read)"
  },
  {
   "property": "C119",
   "status": "proved",
   "theorems": [
    "C119_step",
    "C119_stretch",
    "C119_stuck",
    "C119_stuck_ex",
    "C119_libm_ex",
    "C119_ex"
   ],
   "note": "IEEE single precision; accuracy of expf/logf is an explicit hypothesis (met by the correctly rounded library, C119_libm_ex); C54_rate is the exact-arithmetic counterpart"
  },
  {
   "property": "C12",
   "status": "proved",
   "theorems": [
    "C12_dispatch",
    "C12_malformed_aborts",
    "C02_balances_nonneg"
   ],
   "note": "Any machine, axiom-free; that well-formed orders do not abort is part of C02_balances_nonneg (IEEE) and account_order (exact)."
  },
  {
   "property": "C120",
   "status": "proved",
   "theorems": [
    "C120_file",
    "C120_enough_space",
    "C120_convert",
    "C120_trader",
    "C120_killed",
    "C120_logs",
    "C120_ex",
    "C120_killed_ex"
   ],
   "note": "the protobuf output stream buffers 8192-byte blocks (CopyingOutputStreamAdaptor); directory entries, fsync and reordering of writes by the operating system are not modelled. With 20 bytes of space the example exits with success and leaves two truncated files (C120_ex)"
  },
  {
   "property": "C121",
   "status": "proved",
   "theorems": [
    "C121_order",
    "C121_orders",
    "C121_quote_buy",
    "C121_ex",
    "C121_quote_buy_refuted",
    "C121_quote_sell_refuted"
   ],
   "note": "ranges of C85 (prices 2^-26..2^26, balances up to 2^40, units 0 or 2^-30..2^20); fees within ok_fees; in sequences all orders are executed in the worse account (with a rejection in between, the better account may have spent its money on an order the other one could not afford)"
  },
  {
   "property": "C122",
   "status": "proved",
   "theorems": [
    "C122_order",
    "C122_orders",
    "C122_quote_buy",
    "C122_ex",
    "C122_float_refuted",
    "C122_quote_sell_refuted"
   ],
   "note": "exact arithmetic; the float counterpart fails by an ulp (C122_float_refuted). Generalises C121's exact part to different liquidities"
  },
  {
   "property": "C123",
   "status": "proved",
   "theorems": [
    "C123_line",
    "C123_listing",
    "C123_csv",
    "C123_written",
    "C123_ex"
   ],
   "note": "histories of fewer than 2^63 records; lines are the texts between line ends of the listing (the heading is C102's)"
  },
  {
   "property": "C124",
   "status": "proved",
   "theorems": [
    "C124_sma",
    "C124_ema",
    "C124_macd",
    "C124_sma_monotone",
    "C124_ema_monotone",
    "C124_sma_unit",
    "C124_ema_unit",
    "C124_macd_unit",
    "C124_deviation",
    "C124_deviation_unit",
    "C124_volatility",
    "C124_stochastic",
    "C124_evaluation",
    "C124_ema_float",
    "C124_sma_float",
    "C124_ema_float_refuted",
    "C124_ex"
   ],
   "note": "range, monotonicity and units at the exact machine; float versions with the proved drift as slack"
  },
  {
   "property": "C125",
   "status": "proved",
   "theorems": [
    "C125_foresight",
    "C125_range",
    "C125_closes",
    "C125_falling",
    "C125_closes_ex",
    "C125_ex"
   ],
   "note": "exact machine; the C75_books conclusion now also says that the books follow the ticks in order"
  },
  {
   "property": "C126",
   "status": "proved",
   "theorems": [
    "C126_foresight",
    "C126_programs",
    "C126_range",
    "C126_ex",
    "C126_slack_refuted"
   ],
   "note": "ieee machine; C125 is the exact-arithmetic version without slack"
  },
  {
   "property": "C127",
   "status": "proved",
   "theorems": [
    "C127_outliers",
    "C127_candles",
    "C127_history",
    "C127_convert",
    "C127_ex",
    "C127_unsettled_refuted"
   ],
   "note": "outliers, candles and history for every machine; the program in single precision"
  },
  {
   "property": "C128",
   "status": "proved",
   "theorems": [
    "C128_alone",
    "C128_same_windows",
    "C128_cut",
    "C128_later_end",
    "C128_ex"
   ],
   "note": "for every machine; the evaluation's loop, windows and runs as modelled in Model/Eval.v"
  },
  {
   "property": "C129",
   "status": "proved",
   "theorems": [
    "C129_grows",
    "C129_alone",
    "C129_ex"
   ],
   "note": "in single precision; C129_grows for side input that agrees before the former end, C129_alone without side input (which the program cuts to the asked period)"
  },
  {
   "property": "C13",
   "status": "proved",
   "theorems": [
    "C13_fees"
   ],
   "note": "Exact arithmetic."
  },
  {
   "property": "C14",
   "status": "proved",
   "theorems": [
    "C14_whole_units",
    "C14_float_units"
   ],
   "note": "Exact arithmetic, and IEEE: balances stay float products of the unit and an integer."
  },
  {
   "property": "C15",
   "status": "proved",
   "theorems": [
    "C15_same_past",
    "C15_truncated_run",
    "C15_no_lookahead"
   ],
   "note": "Any machine, axiom-free. Non-interference for every trader (any deterministic update function), history, side input and cut point."
  },
  {
   "property": "C16",
   "status": "proved",
   "theorems": [
    "C16_signals",
    "C16_no_side_input"
   ],
   "note": "Any machine, axiom-free."
  },
  {
   "property": "C17",
   "status": "proved",
   "theorems": [
    "C17_zero_volume",
    "C17_non_zero_volume"
   ],
   "note": "Any machine, axiom-free."
  },
  {
   "property": "C18",
   "status": "proved",
   "theorems": [
    "C18_orders"
   ],
   "note": "Any machine, axiom-free."
  },
  {
   "property": "C19",
   "status": "proved",
   "theorems": [
    "C19_logger",
    "C19_fast",
    "C19_volatilities"
   ],
   "note": "Any machine, axiom-free. Fast evaluation needs a time-ordered history (the volatility asserts on unsorted ones)."
  },
  {
   "property": "C20",
   "status": "proved",
   "theorems": [
    "C20_log"
   ],
   "note": "Any machine, axiom-free."
  },
  {
   "property": "C21",
   "status": "proved",
   "theorems": [
    "C21_result",
    "C21_prices"
   ],
   "note": "Any machine, axiom-free."
  },
  {
   "property": "C22",
   "status": "proved",
   "theorems": [
    "C22_windows",
    "C22_periods"
   ],
   "note": "Any machine, axiom-free. C22_windows is an equation between outcomes (includes failures); a start of 0 needs non-negative tick times, because HistorySubset reads 0 as unbounded."
  },
  {
   "property": "C23",
   "status": "proved",
   "theorems": [
    "C23_terminates"
   ],
   "note": "Any machine, axiom-free; bound end - start + 1 on the number of iterations, and independence of the fuel. The trader's own updates are assumed to terminate."
  },
  {
   "property": "C24",
   "status": "proved",
   "theorems": [
    "C24_whole_range",
    "C24_no_ticks_never_returns",
    "C24_negative_period_never_returns",
    "C24_always_returns_refuted"
   ],
   "note": "Any machine, axiom-free. The unconditional claim is false of the code: C24_always_returns_refuted."
  },
  {
   "property": "C25",
   "status": "proved",
   "theorems": [
    "C25_civil_time",
    "C25_add_months",
    "C25_zero",
    "C25_strictly_increasing"
   ],
   "note": "Against a month-length specification of the calendar; axiom-free."
  },
  {
   "property": "C26",
   "status": "proved",
   "theorems": [
    "C26_one_month_windows",
    "C26_tiling_refuted"
   ],
   "note": "If and only if the day of month is at most 28; overlap from Jan 31 is C26_tiling_refuted."
  },
  {
   "property": "C27",
   "status": "proved",
   "theorems": [
    "C27_batch",
    "C27_any_schedule"
   ],
   "note": "Any machine, axiom-free; scheduling granularity is one loop iteration of EvaluateTrader (tasks share only constants)."
  },
  {
   "property": "C28",
   "status": "proved",
   "theorems": [
    "C28_averages",
    "C28_no_periods",
    "C28_identified"
   ],
   "note": "Exact arithmetic; the zero case for any machine."
  },
  {
   "property": "C29",
   "status": "proved",
   "theorems": [
    "C29_gain",
    "C29_score",
    "C29_extreme_prices_refuted"
   ],
   "note": "IEEE arithmetic, bit-exact; pow(1, y) = 1 is a hypothesis about the C library (C standard F.10.4.4)."
  },
  {
   "property": "C30",
   "status": "proved",
   "theorems": [
    "C30_subset",
    "C30_reversed"
   ],
   "note": "Any record type, axiom-free. C30_reversed: what happens outside the quantifier (positive end before start: std::length_error or empty)."
  },
  {
   "property": "C31",
   "status": "proved",
   "theorems": [
    "C31_resample"
   ],
   "note": "Any machine (bit-exact), axiom-free."
  },
  {
   "property": "C32",
   "status": "proved",
   "theorems": [
    "C32_grid",
    "C32_empty"
   ],
   "note": "Any machine, axiom-free."
  },
  {
   "property": "C33",
   "status": "proved",
   "theorems": [
    "C33_wellformed_ieee",
    "C33_wellformed_exact",
    "resample_wellformed"
   ],
   "note": "IEEE and exact arithmetic; any machine ordered like the reals."
  },
  {
   "property": "C34",
   "status": "proved",
   "theorems": [
    "C34_partition"
   ],
   "note": "Any machine, axiom-free."
  },
  {
   "property": "C35",
   "status": "proved",
   "theorems": [
    "C35_outliers"
   ],
   "note": "Any machine, axiom-free; the specification right_mask determines the mask uniquely."
  },
  {
   "property": "C36",
   "status": "proved",
   "theorems": [
    "C36_context"
   ],
   "note": "Axiom-free."
  },
  {
   "property": "C37",
   "status": "proved",
   "theorems": [
    "C37_gaps",
    "C37_none_asked",
    "C37_none_asked_refuted",
    "C37_check"
   ],
   "note": "Axiom-free. The literal claim fails for top_n = 0 with positive start (refuted theorem)."
  },
  {
   "property": "C38",
   "status": "proved",
   "theorems": [
    "C38_pipeline_ieee",
    "convert_pipeline"
   ],
   "note": "IEEE, including NaN prices that the price reader lets through."
  },
  {
   "property": "C39",
   "status": "proved",
   "theorems": [
    "C39_accepts",
    "C39_rejects",
    "C39_lookup",
    "C39_unique"
   ],
   "note": "Any machine, axiom-free."
  },
  {
   "property": "C40",
   "status": "proved",
   "theorems": [
    "C40_hint",
    "C40_hint_chain"
   ],
   "note": "Any machine, axiom-free."
  },
  {
   "property": "C41",
   "status": "proved",
   "theorems": [
    "C41_signals"
   ],
   "note": "Any machine, axiom-free."
  },
  {
   "property": "C42",
   "status": "proved",
   "theorems": [
    "C42_window"
   ],
   "note": "any machine, any owner whose callbacks return; the deque equals the last N ticks of the declarative aggregation"
  },
  {
   "property": "C43",
   "status": "proved",
   "theorems": [
    "C43_callbacks"
   ],
   "note": "any machine; replay relation in Spec/IndicatorSpec.v"
  },
  {
   "property": "C44",
   "status": "proved",
   "theorems": [
    "C44_sma",
    "C44_float_refuted"
   ],
   "note": "exact arithmetic; the float counterexample is proved"
  },
  {
   "property": "C45",
   "status": "proved",
   "theorems": [
    "C45_ema"
   ],
   "note": "any machine (bit-exact)"
  },
  {
   "property": "C46",
   "status": "proved",
   "theorems": [
    "C46_macd"
   ],
   "note": "any machine (bit-exact)"
  },
  {
   "property": "C47",
   "status": "proved",
   "theorems": [
    "C47_rsi_formula",
    "C47_rsi_range"
   ],
   "note": "formula on any machine, range in IEEE binary32"
  },
  {
   "property": "C48",
   "status": "proved",
   "theorems": [
    "C48_stochastic",
    "C48_stochastic_float",
    "C48_float_100_refuted"
   ],
   "note": "exact and IEEE; literal upper bound 100 refuted in floats"
  },
  {
   "property": "C49",
   "status": "proved",
   "theorems": [
    "C49_minimum_exact",
    "C49_maximum_exact",
    "C49_minimum_float",
    "C49_maximum_float",
    "C49_window_size"
   ],
   "note": "all operation sequences, exact and IEEE"
  },
  {
   "property": "C50",
   "status": "proved",
   "theorems": [
    "C50_mean_variance",
    "C50_float_refuted",
    "C50_window_size"
   ],
   "note": "exact arithmetic; the float counterexample is proved"
  },
  {
   "property": "C51",
   "status": "proved",
   "theorems": [
    "C51_volatility_values",
    "C51_volatility",
    "C51_positive"
   ],
   "note": "values bit-exactly on any machine; standard deviation in exact arithmetic"
  },
  {
   "property": "C52",
   "status": "proved",
   "theorems": [
    "C52_indicators",
    "C52_mean_variance_helper",
    "C52_minimum_helper",
    "C52_maximum_helper",
    "C52_sma_refuted"
   ],
   "note": "any machine; the SMA is excluded (refuted in floats)"
  },
  {
   "property": "C53",
   "status": "proved",
   "theorems": [
    "C53_one_stop_order",
    "C53_returns",
    "C53_valid"
   ],
   "note": "Structure and return condition on any machine; validity on IEEE floats."
  },
  {
   "property": "C54",
   "status": "proved",
   "theorems": [
    "C54_trailing",
    "C54_trailing_float",
    "C54_stretch_float",
    "C54_rate",
    "C54_rate_stretch"
   ],
   "note": "Monotonicity for every libm (IEEE); rates in exact arithmetic."
  },
  {
   "property": "C55",
   "status": "proved",
   "theorems": [
    "C55_first",
    "C55_new_position"
   ],
   "note": "Any machine."
  },
  {
   "property": "C56",
   "status": "proved",
   "theorems": [
    "C56_shape",
    "C56_valid",
    "C56_band",
    "C56_epsilon_zero_refuted",
    "C56_epsilon_tiny_refuted"
   ],
   "note": "Shape on any machine, validity on IEEE floats by rounding-error analysis; literal claim for epsilon = 0 or tiny refuted."
  },
  {
   "property": "C57",
   "status": "proved",
   "theorems": [
    "C57_market_rebalance"
   ],
   "note": "Exact arithmetic; the order is executed by the modelled exchange without fees, units or spread."
  },
  {
   "property": "C58",
   "status": "proved",
   "theorems": [
    "C58_limit_orders",
    "C58_one_base_unit",
    "C58_literal_refuted"
   ],
   "note": "Exact arithmetic. The program omits the division by the base balance; the literal claim is refuted."
  },
  {
   "property": "C59",
   "status": "proved",
   "theorems": [
    "C59_rebalancing_grid",
    "C59_stop_grid",
    "C59_factory",
    "C59_factory_names",
    "C59_defaults",
    "C59_names"
   ],
   "note": "Any machine; names on IEEE floats."
  },
  {
   "property": "C60",
   "status": "proved",
   "theorems": [
    "C60_roundtrip",
    "C60_files_differ",
    "C60_concatenation",
    "C60_bytes"
   ],
   "note": "All three message types, every field presence, every int64 and float bit pattern; side records below 2 GiB."
  },
  {
   "property": "C61",
   "status": "proved",
   "theorems": [
    "C61_truncated",
    "C61_success_is_prefix"
   ],
   "note": "Every truncation point of every written file: exactly the whole messages are read; Ok iff the cut is a message boundary."
  },
  {
   "property": "C62",
   "status": "proved",
   "theorems": [
    "C62_streamed",
    "C62_written",
    "C62_delivered"
   ],
   "note": "Every callback and every byte string."
  },
  {
   "property": "C63",
   "status": "proved",
   "theorems": [
    "C63_price_proto",
    "C63_ohlc_proto",
    "C63_interval",
    "C63_in_interval",
    "C64_price_csv",
    "C64_ohlc_csv",
    "C63_side_csv",
    "C63_side_usable"
   ],
   "note": "Any machine, any number scanner, axiom-free."
  },
  {
   "property": "C64",
   "status": "proved",
   "theorems": [
    "C64_price_csv",
    "C64_ohlc_csv",
    "C64_price_csv_exact",
    "C64_malformed_line_refuted"
   ],
   "note": "Any machine, any number scanner, axiom-free. The naive claim about malformed lines is refuted."
  },
  {
   "property": "C65",
   "status": "proved",
   "theorems": [
    "C65_tick_line",
    "C65_order_line",
    "C65_log_files",
    "C65_rebalancing_line",
    "C65_stop_line"
   ],
   "note": "IEEE floats; single lines and the two log files of a whole run."
  },
  {
   "property": "C66",
   "status": "proved",
   "theorems": [
    "C66_duration",
    "C66_injective"
   ],
   "note": ""
  },
  {
   "property": "C67",
   "status": "proved",
   "theorems": [
    "C67_one_input",
    "C67_refused"
   ],
   "note": ""
  },
  {
   "property": "C68",
   "status": "proved",
   "theorems": [
    "C68_date",
    "C68_date_time",
    "C68_zone",
    "C68_printed",
    "C68_round_trip",
    "C68_printed_injective",
    "C68_leading_blanks",
    "C68_unlimited",
    "C68_examples"
   ],
   "note": "Years of any size (the C++ limits them to what absl::Time holds); the five formats ParseTime tries; absl parser modelled from its documentation."
  },
  {
   "property": "C69",
   "status": "proved",
   "theorems": [
    "C69_total",
    "C69_failure",
    "C69_written",
    "C69_ex"
   ],
   "note": "Programs at the IEEE machine. Stream write errors after a successful open are not modelled. Hypothesis real_files: file contents are bytes and shorter than 2^63."
  },
  {
   "property": "C70",
   "status": "proved",
   "theorems": [
    "C70_lines",
    "C70_price_csv",
    "C70_ohlc_csv",
    "C70_side_csv",
    "C70_ohlc_copy",
    "C70_two_steps",
    "C70_ex"
   ],
   "note": ""
  },
  {
   "property": "C71",
   "status": "proved",
   "theorems": [
    "C71_trader_ohlc",
    "C71_trader_side",
    "C71_truncated",
    "C71_convert_missing",
    "C71_convert_damaged_prices",
    "C71_convert_damaged_ticks",
    "C71_trading_data",
    "C71_ex"
   ],
   "note": "convert stops reading at the first record at or after the end time, so damage behind it goes unnoticed; the hypothesis on the records excludes that case."
  },
  {
   "property": "C72",
   "status": "proved",
   "theorems": [
    "C72_period",
    "C71_trading_data"
   ],
   "note": ""
  },
  {
   "property": "C73",
   "status": "proved",
   "theorems": [
    "C73_run",
    "C73_windows",
    "C73_account",
    "C73_logs_refused",
    "C73_ex",
    "C73_account_ex",
    "C71_trading_data"
   ],
   "note": "Exit code, table rows and log texts; the padding of the printed table columns is not modelled."
  },
  {
   "property": "C74",
   "status": "proved",
   "theorems": [
    "C74_ranking",
    "C74_nan_undefined",
    "C74_schedule",
    "C74_ex",
    "tm_sorts"
   ],
   "note": "std::sort is any function meeting its specification (tm_sorts shows one); a NaN score with two or more results is undefined behaviour in the C++ and Undefined in the model."
  },
  {
   "property": "C75",
   "status": "proved",
   "theorems": [
    "C75_books",
    "C75_flat_market",
    "C75_ex",
    "C75_flat_ex"
   ],
   "note": "Exact arithmetic; the ledger is defined in Spec/LedgerSpec.v from the trade vocabulary of Spec/AccountSpec.v."
  },
  {
   "property": "C76",
   "status": "proved",
   "theorems": [
    "C76_reported",
    "C76_fast",
    "C76_exact",
    "C76_ex"
   ],
   "note": "C76_reported holds for every machine; the closed formula is for exact arithmetic."
  },
  {
   "property": "C77",
   "status": "proved",
   "theorems": [
    "C77_run",
    "C77_ex"
   ],
   "note": "IEEE binary32 (Flocq)."
  },
  {
   "property": "C78",
   "status": "proved",
   "theorems": [
    "C78_returns",
    "C78_traders"
   ],
   "note": "Every machine."
  },
  {
   "property": "C79",
   "status": "proved",
   "theorems": [
    "C79_returns",
    "C79_stop",
    "C79_rebalancing",
    "C79_factory",
    "C79_programs",
    "px_solvent",
    "px_market",
    "px_runs",
    "C79_zero_units_refuted"
   ],
   "note": "Exact arithmetic; C79_zero_units_refuted is an IEEE run."
  },
  {
   "property": "C80",
   "status": "proved",
   "theorems": [
    "C80_returns",
    "C80_stop",
    "C80_rebalancing",
    "C80_factory",
    "C80_programs",
    "pf_open",
    "pf_market",
    "pf_runs"
   ],
   "note": "IEEE binary32 (Flocq); exp, log, pow are arbitrary functions."
  },
  {
   "property": "C81",
   "status": "proved",
   "theorems": [
    "C81_evaluation",
    "C81_programs",
    "C81_batch",
    "C81_ex"
   ],
   "note": "IEEE binary32/64 (Flocq); exp, log, pow are arbitrary functions."
  },
  {
   "property": "C82",
   "status": "proved",
   "theorems": [
    "C82_table",
    "C82_ranking",
    "C82_ex"
   ],
   "note": "IEEE; the ranking needs roots_exist: the library's pow returns no NaN for the n-th root of a non-negative double (std::sort on a NaN would be undefined)."
  },
  {
   "property": "C83",
   "status": "proved",
   "theorems": [
    "C83_accepts",
    "C83_rejects",
    "C83_unambiguous",
    "C83_written",
    "C83_ex"
   ],
   "note": "The grammar in Spec/WireSpec.v has no groups (wire types 3 and 4); the model treats them as damage."
  },
  {
   "property": "C84",
   "status": "proved",
   "theorems": [
    "C84_prices",
    "C84_ohlc",
    "C84_side",
    "C84_side_refuted",
    "C84_ex",
    "C84_run"
   ],
   "note": "IEEE binary32/64 (Flocq); CSV number scanner arbitrary; ranking needs roots_exist."
  },
  {
   "property": "C85",
   "status": "proved",
   "theorems": [
    "C85_trade",
    "C85_price_range",
    "C86_ex"
   ],
   "note": "IEEE binary32 (Flocq), supported settings (Spec/AccountIEEESpec), balances not above 2^40; tolerance 2^-20 relative + 2^-100."
  },
  {
   "property": "C86",
   "status": "proved",
   "theorems": [
    "C86_order",
    "C86_sequence",
    "C86_fees_accounted",
    "C86_ex"
   ],
   "note": "IEEE binary32; units positive, balances up to 2^20 units at every step."
  },
  {
   "property": "C87",
   "status": "proved",
   "theorems": [
    "C87_value",
    "C86_ex"
   ],
   "note": "IEEE binary32; for every trade of C86."
  },
  {
   "property": "C88",
   "status": "proved",
   "theorems": [
    "C88_printed",
    "C88_exact",
    "C88_order",
    "C88_not_finite",
    "C88_log",
    "C88_ex"
   ],
   "note": "IEEE binary32 (Flocq); printf's %.3f is the correctly rounded decimal."
  },
  {
   "property": "C89",
   "status": "proved",
   "theorems": [
    "C89_run",
    "C89_programs",
    "C89_ex"
   ],
   "note": "IEEE binary32 (Flocq); each entry of the ledger is a trade that carries out its order (C85/C86)."
  },
  {
   "property": "C90",
   "status": "proved",
   "theorems": [
    "C90_outcome",
    "C90_same_results",
    "C90_returns",
    "C90_no_deadlock",
    "C90_abort",
    "C90_coarse",
    "C90_ex_fair",
    "C90_ex_run"
   ],
   "note": "Steps are atomic and sequentially consistent; the tasks share only const data, as in the code. Data races in user-supplied emitters are outside the model."
  },
  {
   "property": "C91",
   "status": "proved",
   "theorems": [
    "C91_resample",
    "C91_gaps",
    "C91_gap_cmp",
    "C91_outliers",
    "C91_side_input",
    "C91_indicators",
    "C91_counters",
    "C91_volatility",
    "C91_execute",
    "C91_evaluate",
    "C91_evaluate_rebalancing",
    "C91_evaluate_stop",
    "C91_no_ticks_overflow",
    "C91_counter_refuted",
    "C91_resample_refuted",
    "C91_gaps_refuted"
   ],
   "note": "Model/Ints.v repeats the functions with signed integer arithmetic, every operation checked; each is proved to agree with the unbounded model."
  },
  {
   "property": "C92",
   "status": "proved",
   "theorems": [
    "C92_sma"
   ],
   "note": "IEEE model; complements C44 (exact arithmetic) and C44_float_refuted."
  },
  {
   "property": "C93",
   "status": "proved",
   "theorems": [
    "C93_ema",
    "C93_macd"
   ],
   "note": "IEEE model; includes the rounding of the weight itself."
  },
  {
   "property": "C94",
   "status": "proved",
   "theorems": [
    "C94_averages"
   ],
   "note": "IEEE model; complements C28 (exact arithmetic). The bound is stated on the periods of the result, so it covers every trader."
  },
  {
   "property": "C95",
   "status": "proved",
   "theorems": [
    "C95_score",
    "C95_pow_ex"
   ],
   "note": "IEEE model; pow is an oracle with the stated accuracy, and the correctly rounded pow is shown to satisfy it. Complements C28 (exact arithmetic)."
  },
  {
   "property": "C96",
   "status": "proved",
   "theorems": [
    "C96_market",
    "C96_ex"
   ],
   "note": "IEEE model; the float counterpart of C56_band and C57 (exact arithmetic)."
  },
  {
   "property": "C97",
   "status": "proved",
   "theorems": [
    "C97_limits"
   ],
   "note": "IEEE model; the float counterpart of C58_limit_orders. C96_ex has a limit order."
  },
  {
   "property": "C98",
   "status": "proved",
   "theorems": [
    "C98_rebalancing_log",
    "C98_stop_log",
    "C98_ex"
   ],
   "note": "IEEE model (the printed floats are those of %.3f). Added after a seeded bug in the logged state (wrong balance) went unnoticed."
  },
  {
   "property": "C99",
   "status": "proved",
   "theorems": [
    "C99_times",
    "C99_unambiguous",
    "C99_refused",
    "C99_ex"
   ],
   "note": "Completes C68. absl::ParseTime is modelled after its source (cctz); the int64 limits of years are not modelled."
  }
 ]
}