# Print Assumptions for every theorem of MANIFEST.json

Generated from a build of this tree (`Print Assumptions` on each name).

## Closed under the global context (163 theorems)

  `C01_rejected_order_no_effect`, `C01_methods`, `C100_price_csv`, `C100_ohlc_csv`, `C100_side_csv`, `C104_header_price`, `C104_header_ohlc`, `C104_header_side`,
  `C112_nothing_removed`, `C112_again`, `C116_fast`, `C116_run`, `C116_evaluation`, `C12_dispatch`, `C12_malformed_aborts`, `C120_file`,
  `C123_line`, `C127_outliers`, `C127_candles`, `C127_history`, `C128_alone`, `C128_same_windows`, `C128_cut`, `C128_later_end`,
  `C15_same_past`, `C15_truncated_run`, `C15_no_lookahead`, `C16_signals`, `C16_no_side_input`, `C17_zero_volume`, `C17_non_zero_volume`, `C18_orders`,
  `C19_logger`, `C19_fast`, `C19_volatilities`, `C20_log`, `C21_result`, `C21_prices`, `C22_windows`, `C22_periods`,
  `C23_terminates`, `C24_whole_range`, `C24_no_ticks_never_returns`, `C24_negative_period_never_returns`, `C24_always_returns_refuted`, `C25_civil_time`, `C25_add_months`, `C25_zero`,
  `C25_strictly_increasing`, `C26_one_month_windows`, `C26_tiling_refuted`, `C27_batch`, `C27_any_schedule`, `C28_no_periods`, `C28_identified`, `C30_subset`,
  `C30_reversed`, `C31_resample`, `C32_grid`, `C32_empty`, `C34_partition`, `C35_outliers`, `C36_context`, `C37_gaps`,
  `C37_none_asked`, `C37_none_asked_refuted`, `C37_check`, `C39_accepts`, `C39_rejects`, `C39_lookup`, `C39_unique`, `C40_hint`,
  `C40_hint_chain`, `C41_signals`, `C42_window`, `C43_callbacks`, `C45_ema`, `C46_macd`, `C47_rsi_formula`, `C49_window_size`,
  `C50_window_size`, `C51_volatility_values`, `C52_indicators`, `C52_mean_variance_helper`, `C52_minimum_helper`, `C52_maximum_helper`, `C53_one_stop_order`, `C53_returns`,
  `C55_first`, `C55_new_position`, `C56_shape`, `C59_rebalancing_grid`, `C59_stop_grid`, `C59_factory`, `C60_roundtrip`, `C60_files_differ`,
  `C60_concatenation`, `C60_bytes`, `C61_truncated`, `C61_success_is_prefix`, `C62_streamed`, `C62_written`, `C62_delivered`, `C63_price_proto`,
  `C63_ohlc_proto`, `C63_interval`, `C63_in_interval`, `C64_price_csv`, `C64_ohlc_csv`, `C63_side_csv`, `C63_side_usable`, `C64_price_csv_exact`,
  `C64_malformed_line_refuted`, `C66_duration`, `C66_injective`, `C67_one_input`, `C68_date`, `C68_date_time`, `C68_zone`, `C68_printed`,
  `C68_round_trip`, `C68_printed_injective`, `C68_leading_blanks`, `C68_unlimited`, `C68_examples`, `C70_lines`, `C71_truncated`, `C76_reported`,
  `C76_fast`, `C78_returns`, `C78_traders`, `C83_accepts`, `C83_rejects`, `C83_unambiguous`, `C83_written`, `C83_ex`,
  `C90_outcome`, `C90_same_results`, `C90_returns`, `C90_no_deadlock`, `C90_abort`, `C90_coarse`, `C90_ex_fair`, `C91_resample`,
  `C91_gaps`, `C91_gap_cmp`, `C91_outliers`, `C91_side_input`, `C91_indicators`, `C91_counters`, `C91_volatility`, `C91_execute`,
  `C91_evaluate`, `C91_evaluate_rebalancing`, `C91_evaluate_stop`, `C91_no_ticks_overflow`, `C91_counter_refuted`, `C91_resample_refuted`, `C91_gaps_refuted`, `C99_times`,
  `C99_unambiguous`, `C99_refused`, `C99_ex`

## functional_extensionality_dep, sig_forall_dec (5 theorems)

  `C105_ex`, `C108_ex`, `resample_wellformed`, `convert_pipeline`, `C54_trailing`

## classic, functional_extensionality_dep, sig_forall_dec, sig_not_dec (304 theorems)

  `C02_balances_nonneg`, `C14_whole_units`, `C02_overflow_refuted`, `C03_buy_settlement`, `C03_C04_orders`, `C04_sell_settlement`, `C05_fee`, `C05_fee_mono`,
  `C05_fee_float`, `C05_float_below_minimum_refuted`, `C06_no_value_created`, `C06_sequence`, `C06_float_refuted`, `C07_buy_at_quote`, `C07_literal_refuted`, `C08_sell_at_quote`,
  `C08_literal_refuted`, `C09_market_order`, `C09_liquidity`, `C09_float_refuted`, `C10_stop_order`, `C100_price_proto`, `C100_ohlc_proto`, `C100_ex`,
  `C100_proto_ex`, `C101_report`, `C101_ex`, `C102_convert_console`, `C102_ex`, `C103_trader_console`, `C103_ex`, `C104_out_of_range`,
  `C104_price`, `C104_ohlc`, `C104_side`, `C104_convert_side`, `C104_text_unique`, `C104_every_number`, `C104_nearest`, `C104_space_before_comma_refuted`,
  `C104_ex`, `C104_side_ex`, `decimal_scanner_reads`, `decimal_scanner_consuming`, `C105_price`, `C105_ohlc`, `C105_convert_price`, `C105_convert_ohlc`,
  `C105_contradiction_accepted_refuted`, `C106_mean_variance`, `C106_standard_deviation`, `C106_ex`, `C107_volatility`, `C107_log_ex`, `C107_ex`, `C108_prices`,
  `C108_ohlc`, `C108_side`, `C108_run`, `C109_exit`, `C109_refused`, `C109_ex`, `C109_run`, `C11_limit_order`,
  `C110_averages`, `C110_index`, `C110_quiet`, `C110_ex`, `C111_stochastic`, `C111_ex`, `C112_exact_rule`, `C112_quiet`,
  `C112_idempotent_refuted`, `C112_ex`, `C113_quote_orders`, `C113_plan_exists`, `C113_buy_spends_request`, `C113_sell_earns_request`, `C113_ex`, `C114_executes`,
  `C114_only`, `C114_rejects`, `C114_sell_all`, `C114_ex_met`, `C115_order`, `C115_never`, `C115_ex`, `C116_volatility_refuted`,
  `C116_ex_hypotheses`, `C116_ex_same`, `C116_ex`, `C117_run`, `C117_evaluation`, `C117_threshold_refuted`, `C117_ex`, `C118_trader`,
  `C118_price_refused`, `C118_ohlc_refused`, `C118_convert`, `C118_ex`, `C118_trader_ex`, `C119_step`, `C119_stretch`, `C119_stuck`,
  `C119_stuck_ex`, `C119_libm_ex`, `C119_ex`, `C120_enough_space`, `C120_convert`, `C120_trader`, `C120_killed`, `C120_logs`,
  `C120_ex`, `C120_killed_ex`, `C121_order`, `C121_orders`, `C121_quote_buy`, `C121_ex`, `C121_quote_buy_refuted`, `C121_quote_sell_refuted`,
  `C122_order`, `C122_orders`, `C122_quote_buy`, `C122_ex`, `C122_float_refuted`, `C122_quote_sell_refuted`, `C123_listing`, `C123_csv`,
  `C123_written`, `C123_ex`, `C124_sma`, `C124_ema`, `C124_macd`, `C124_sma_monotone`, `C124_ema_monotone`, `C124_sma_unit`,
  `C124_ema_unit`, `C124_macd_unit`, `C124_deviation`, `C124_deviation_unit`, `C124_volatility`, `C124_stochastic`, `C124_evaluation`, `C124_ema_float`,
  `C124_sma_float`, `C124_ema_float_refuted`, `C124_ex`, `C125_foresight`, `C125_range`, `C125_closes`, `C125_falling`, `C125_closes_ex`,
  `C125_ex`, `C126_foresight`, `C126_programs`, `C126_range`, `C126_ex`, `C126_slack_refuted`, `C127_convert`, `C127_ex`,
  `C127_unsettled_refuted`, `C128_ex`, `C13_fees`, `C14_float_units`, `C28_averages`, `C29_gain`, `C29_score`, `C29_extreme_prices_refuted`,
  `C33_wellformed_ieee`, `C33_wellformed_exact`, `C38_pipeline_ieee`, `C44_sma`, `C44_float_refuted`, `C47_rsi_range`, `C48_stochastic`, `C48_stochastic_float`,
  `C48_float_100_refuted`, `C49_minimum_exact`, `C49_maximum_exact`, `C49_minimum_float`, `C49_maximum_float`, `C50_mean_variance`, `C50_float_refuted`, `C51_volatility`,
  `C51_positive`, `C52_sma_refuted`, `C53_valid`, `C54_trailing_float`, `C54_stretch_float`, `C54_rate`, `C54_rate_stretch`, `C56_valid`,
  `C56_band`, `C56_epsilon_zero_refuted`, `C56_epsilon_tiny_refuted`, `C57_market_rebalance`, `C58_limit_orders`, `C58_one_base_unit`, `C58_literal_refuted`, `C59_factory_names`,
  `C59_defaults`, `C59_names`, `C65_tick_line`, `C65_order_line`, `C65_log_files`, `C65_rebalancing_line`, `C65_stop_line`, `C67_refused`,
  `C69_total`, `C69_failure`, `C69_written`, `C69_ex`, `C70_price_csv`, `C70_ohlc_csv`, `C70_side_csv`, `C70_ohlc_copy`,
  `C70_two_steps`, `C70_ex`, `C71_trader_ohlc`, `C71_trader_side`, `C71_convert_missing`, `C71_convert_damaged_prices`, `C71_convert_damaged_ticks`, `C71_trading_data`,
  `C71_ex`, `C72_period`, `C73_run`, `C73_windows`, `C73_account`, `C73_logs_refused`, `C73_ex`, `C73_account_ex`,
  `C74_ranking`, `C74_nan_undefined`, `C74_schedule`, `C74_ex`, `tm_sorts`, `C75_books`, `C75_flat_market`, `C75_ex`,
  `C75_flat_ex`, `C76_exact`, `C76_ex`, `C77_run`, `C77_ex`, `C79_returns`, `C79_stop`, `C79_rebalancing`,
  `C79_factory`, `C79_programs`, `px_solvent`, `px_market`, `px_runs`, `C79_zero_units_refuted`, `C80_returns`, `C80_stop`,
  `C80_rebalancing`, `C80_factory`, `C80_programs`, `pf_open`, `pf_market`, `pf_runs`, `C81_evaluation`, `C81_programs`,
  `C81_batch`, `C81_ex`, `C82_table`, `C82_ranking`, `C82_ex`, `C84_prices`, `C84_ohlc`, `C84_side`,
  `C84_side_refuted`, `C84_ex`, `C84_run`, `C85_trade`, `C85_price_range`, `C86_ex`, `C86_order`, `C86_sequence`,
  `C86_fees_accounted`, `C87_value`, `C88_printed`, `C88_exact`, `C88_order`, `C88_not_finite`, `C88_log`, `C88_ex`,
  `C89_run`, `C89_programs`, `C89_ex`, `C90_ex_run`, `C92_sma`, `C93_ema`, `C93_macd`, `C94_averages`,
  `C95_score`, `C95_pow_ex`, `C96_market`, `C96_ex`, `C97_limits`, `C98_rebalancing_log`, `C98_stop_log`, `C98_ex`
