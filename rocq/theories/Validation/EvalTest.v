(** GENERATED from eval/eval_test.cc by tools/gen_tests.py: the repository's unit tests, run on the
    model (see TestKit.v).  Each [Check] fails to build if a test does not pass. *)

From Coq Require Import ZArith Bool List String.
From Verif.Model Require Import Outcome Machine Types Account History SideInput Indicators
  TimeUtil TimeText Eval Traders CsvLogger MachineIEEE Proto Files.
From Verif.Validation Require Import TestKit.
Import ListNotations.
Local Open Scope Z_scope.

(** eval/eval_test.cc:174-245 TEST(ExecuteTraderTest, LimitBuyAndSell): 16 checks. *)
Definition ExecuteTraderTest_LimitBuyAndSell : outcome (list Z) :=
  do r1 <- ExecuteTrader (AccountConfig (fl 5 1) (fl 0 0) (fl 13421773 (-27)) (fl 1 0) (FeeConfig (fl 0 0) (fl 0 0) (fl 0 0)) (FeeConfig (fl 0 0) (fl 0 0) (fl 0 0)) (FeeConfig (fl 13421773 (-27)) (fl 1 0) (fl 3 (-1))) (fl 1 (-1)) (fl 13421773 (-27))) None false (test_emitter (fl 25 1) (fl 25 3)) csv_logger true [(OhlcTick 1483228800 (fl 25 2) (fl 75 1) (fl 5 4) (fl 15 3) (fl 125 3)); (OhlcTick 1483315200 (fl 15 3) (fl 45 2) (fl 25 2) (fl 75 1) (fl 125 3)); (OhlcTick 1483401600 (fl 75 1) (fl 125 1) (fl 25 2) (fl 35 2) (fl 125 3)); (OhlcTick 1483488000 (fl 35 2) (fl 75 1) (fl 5 4) (fl 25 2) (fl 125 3)); (OhlcTick 1483574400 (fl 25 2) (fl 15 3) (fl 5 2) (fl 25 1) (fl 125 3))] ((Some ""%string), (Some ""%string)) ;
  Done (failures [(176, true);
    (206, true);
    (222, fsame (r_start_base_balance (fst r1)) (fl 5 1));
    (222, fsame (r_start_quote_balance (fst r1)) (fl 0 0));
    (222, fsame (r_end_base_balance (fst r1)) (fl 8467251 (-18)));
    (222, fsame (r_end_quote_balance (fst r1)) (fl 21 0));
    (222, fsame (r_start_price (fst r1)) (fl 15 3));
    (222, fsame (r_end_price (fst r1)) (fl 25 1));
    (222, fsame (r_start_value (fst r1)) (fl 75 4));
    (222, fsame (r_end_value (fst r1)) (fl 409 2));
    (222, (r_total_executed_orders (fst r1) =? 2));
    (222, fsame (r_total_fee (fst r1)) (fl 91 2));
    (222, ofsame (r_base_volatility (fst r1)) (Some (fl 13709027 (-21))));
    (222, ofsame (r_trader_volatility (fst r1)) (Some (fl 4960127 (-21))));
    (224, String.eqb (match fst (snd r1) with Some x => x | None => ""%string end) "1483228800,100.000,150.000,80.000,120.000,1000.000,10.000,0.000,0.000,,,,,
1483315200,120.000,180.000,100.000,150.000,1000.000,10.000,0.000,0.000,,,,,
1483401600,150.000,250.000,100.000,140.000,1000.000,10.000,0.000,0.000,,,,,
1483401600,150.000,250.000,100.000,140.000,1000.000,0.000,1799.000,201.000,LIMIT,SELL,10.000,,200.000
1483488000,140.000,150.000,80.000,100.000,1000.000,0.000,1799.000,201.000,,,,,
1483574400,100.000,120.000,20.000,50.000,1000.000,0.000,1799.000,201.000,,,,,
1483574400,100.000,120.000,20.000,50.000,1000.000,32.300,21.000,364.000,LIMIT,BUY,,1799.000,50.000
"%string);
    (239, String.eqb (match snd (snd r1) with Some x => x | None => ""%string end) "1483228800,10.000,0.000,120.000,IN_LONG,LIMIT_SELL@200
1483315200,10.000,0.000,150.000,IN_LONG,LIMIT_SELL@200
1483401600,0.000,1799.000,140.000,IN_CASH,LIMIT_BUY@50
1483488000,0.000,1799.000,100.000,IN_CASH,LIMIT_BUY@50
1483574400,32.300,21.000,50.000,IN_LONG,LIMIT_SELL@200
"%string)]).
Check (@eq_refl (outcome (list Z)) (Done []) <: ExecuteTraderTest_LimitBuyAndSell = Done []).

(** eval/eval_test.cc:247-290 TEST(ExecuteTraderTest, LimitBuyAndSellFastEval): 14 checks. *)
Definition ExecuteTraderTest_LimitBuyAndSellFastEval : outcome (list Z) :=
  do r1 <- ExecuteTrader (AccountConfig (fl 5 1) (fl 0 0) (fl 13421773 (-27)) (fl 1 0) (FeeConfig (fl 0 0) (fl 0 0) (fl 0 0)) (FeeConfig (fl 0 0) (fl 0 0) (fl 0 0)) (FeeConfig (fl 13421773 (-27)) (fl 1 0) (fl 3 (-1))) (fl 1 (-1)) (fl 13421773 (-27))) None true (test_emitter (fl 25 1) (fl 25 3)) null_logger false [(OhlcTick 1483228800 (fl 25 2) (fl 75 1) (fl 5 4) (fl 15 3) (fl 125 3)); (OhlcTick 1483315200 (fl 15 3) (fl 45 2) (fl 25 2) (fl 75 1) (fl 125 3)); (OhlcTick 1483401600 (fl 75 1) (fl 125 1) (fl 25 2) (fl 35 2) (fl 125 3)); (OhlcTick 1483488000 (fl 35 2) (fl 75 1) (fl 5 4) (fl 25 2) (fl 125 3)); (OhlcTick 1483574400 (fl 25 2) (fl 15 3) (fl 5 2) (fl 25 1) (fl 125 3))] tt ;
  Done (failures [(249, true);
    (275, true);
    (289, fsame (r_start_base_balance (fst r1)) (fl 5 1));
    (289, fsame (r_start_quote_balance (fst r1)) (fl 0 0));
    (289, fsame (r_end_base_balance (fst r1)) (fl 8467251 (-18)));
    (289, fsame (r_end_quote_balance (fst r1)) (fl 21 0));
    (289, fsame (r_start_price (fst r1)) (fl 15 3));
    (289, fsame (r_end_price (fst r1)) (fl 25 1));
    (289, fsame (r_start_value (fst r1)) (fl 75 4));
    (289, fsame (r_end_value (fst r1)) (fl 409 2));
    (289, (r_total_executed_orders (fst r1) =? 2));
    (289, fsame (r_total_fee (fst r1)) (fl 91 2));
    (289, ofsame (r_base_volatility (fst r1)) None);
    (289, ofsame (r_trader_volatility (fst r1)) None)]).
Check (@eq_refl (outcome (list Z)) (Done []) <: ExecuteTraderTest_LimitBuyAndSellFastEval = Done []).

(** eval/eval_test.cc:292-431 TEST(EvaluateTraderTest, LimitBuyAndSellOnePeriod): 48 checks. *)
Definition EvaluateTraderTest_LimitBuyAndSellOnePeriod : outcome (list Z) :=
  do r1 <- EvaluateTrader (AccountConfig (fl 5 1) (fl 0 0) (fl 13421773 (-27)) (fl 1 0) (FeeConfig (fl 0 0) (fl 0 0) (fl 0 0)) (FeeConfig (fl 0 0) (fl 0 0) (fl 0 0)) (FeeConfig (fl 13421773 (-27)) (fl 1 0) (fl 3 (-1))) (fl 1 (-1)) (fl 13421773 (-27))) (EvaluationConfig 1483228800 1514764800 0 false) [(OhlcTick 1483228800 (fl 25 2) (fl 75 1) (fl 5 4) (fl 15 3) (fl 125 3)); (OhlcTick 1485907200 (fl 15 3) (fl 45 2) (fl 25 2) (fl 75 1) (fl 125 3)); (OhlcTick 1488326400 (fl 75 1) (fl 125 1) (fl 25 2) (fl 35 2) (fl 125 3)); (OhlcTick 1491004800 (fl 35 2) (fl 75 1) (fl 5 4) (fl 25 2) (fl 125 3)); (OhlcTick 1493596800 (fl 25 2) (fl 15 3) (fl 5 2) (fl 25 1) (fl 125 3)); (OhlcTick 1496275200 (fl 25 1) (fl 25 2) (fl 5 3) (fl 5 4) (fl 125 3)); (OhlcTick 1498867200 (fl 5 4) (fl 45 2) (fl 25 1) (fl 75 1) (fl 125 3)); (OhlcTick 1501545600 (fl 75 1) (fl 125 1) (fl 15 3) (fl 15 4) (fl 125 3)); (OhlcTick 1504224000 (fl 15 4) (fl 225 1) (fl 55 2) (fl 25 4) (fl 125 3)); (OhlcTick 1506816000 (fl 25 4) (fl 225 1) (fl 125 1) (fl 75 2) (fl 125 3)); (OhlcTick 1509494400 (fl 75 2) (fl 175 2) (fl 55 2) (fl 325 1) (fl 125 3)); (OhlcTick 1512086400 (fl 325 1) (fl 25 5) (fl 75 3) (fl 375 1) (fl 125 3))] None (test_emitter (fl 25 1) (fl 25 3)) csv_logger true 100 ((Some ""%string), (Some ""%string)) ;
  do p2 <- match nth_error (er_period (fst r1)) 0 with Some p => Done p | None => Undefined end ;
  Done (failures [(294, true);
    (314, true);
    (325, String.eqb (te_name (test_emitter (fl 25 1) (fl 25 3))) "test-trader[50|200]"%string);
    (336, true);
    (385, String.eqb (er_name (fst r1)) "test-trader[50|200]"%string);
    (385, fsame (er_score (fst r1)) (fl 13050437 (-24)));
    (385, fsame (er_avg_gain (fst r1)) (fl 5097827 (-20)));
    (385, fsame (er_avg_base_gain (fst r1)) (fl 25 (-2)));
    (385, fsame (er_avg_total_executed_orders (fst r1)) (fl 3 0));
    (385, fsame (er_avg_total_fee (fst r1)) (fl 1011 0));
    (385, fsame (start_base_balance (er_account_config (fst r1))) (fl 5 1));
    (385, fsame (start_quote_balance (er_account_config (fst r1))) (fl 0 0));
    (385, fsame (cfg_base_unit (er_account_config (fst r1))) (fl 13421773 (-27)));
    (385, fsame (cfg_quote_unit (er_account_config (fst r1))) (fl 1 0));
    (385, fsame (cfg_market_liquidity (er_account_config (fst r1))) (fl 1 (-1)));
    (385, fsame (cfg_max_volume_ratio (er_account_config (fst r1))) (fl 13421773 (-27)));
    (385, fsame (relative_fee (market_order_fee_config (er_account_config (fst r1)))) (fl 0 0));
    (385, fsame (fixed_fee (market_order_fee_config (er_account_config (fst r1)))) (fl 0 0));
    (385, fsame (minimum_fee (market_order_fee_config (er_account_config (fst r1)))) (fl 0 0));
    (385, fsame (relative_fee (stop_order_fee_config (er_account_config (fst r1)))) (fl 0 0));
    (385, fsame (fixed_fee (stop_order_fee_config (er_account_config (fst r1)))) (fl 0 0));
    (385, fsame (minimum_fee (stop_order_fee_config (er_account_config (fst r1)))) (fl 0 0));
    (385, fsame (relative_fee (limit_order_fee_config (er_account_config (fst r1)))) (fl 13421773 (-27)));
    (385, fsame (fixed_fee (limit_order_fee_config (er_account_config (fst r1)))) (fl 1 0));
    (385, fsame (minimum_fee (limit_order_fee_config (er_account_config (fst r1)))) (fl 3 (-1)));
    (385, (ec_start_timestamp_sec (er_eval_config (fst r1)) =? 1483228800));
    (385, (ec_end_timestamp_sec (er_eval_config (fst r1)) =? 1514764800));
    (385, (evaluation_period_months (er_eval_config (fst r1)) =? 0));
    (385, Bool.eqb (fast_eval (er_eval_config (fst r1))) false);
    (385, (size (er_period (fst r1)) =? 1));
    (385, (p_start_timestamp_sec p2 =? 1483228800));
    (385, (p_end_timestamp_sec p2 =? 1514764800));
    (385, fsame (p_final_gain p2) (fl 5097827 (-20)));
    (385, fsame (p_base_final_gain p2) (fl 25 (-2)));
    (385, fsame (r_start_base_balance (p_result p2)) (fl 5 1));
    (385, fsame (r_start_quote_balance (p_result p2)) (fl 0 0));
    (385, fsame (r_end_base_balance (p_result p2)) (fl 0 0));
    (385, fsame (r_end_quote_balance (p_result p2)) (fl 2917 1));
    (385, fsame (r_start_price (p_result p2)) (fl 15 3));
    (385, fsame (r_end_price (p_result p2)) (fl 375 1));
    (385, fsame (r_start_value (p_result p2)) (fl 75 4));
    (385, fsame (r_end_value (p_result p2)) (fl 2917 1));
    (385, (r_total_executed_orders (p_result p2) =? 3));
    (385, fsame (r_total_fee (p_result p2)) (fl 1011 0));
    (385, ofsame (r_base_volatility (p_result p2)) (Some (fl 13756661 (-23))));
    (385, ofsame (r_trader_volatility (p_result p2)) (Some (fl 10965273 (-23))));
    (387, String.eqb (match fst (snd r1) with Some x => x | None => ""%string end) "1483228800,100.000,150.000,80.000,120.000,1000.000,10.000,0.000,0.000,,,,,
1485907200,120.000,180.000,100.000,150.000,1000.000,10.000,0.000,0.000,,,,,
1488326400,150.000,250.000,100.000,140.000,1000.000,10.000,0.000,0.000,,,,,
1488326400,150.000,250.000,100.000,140.000,1000.000,0.000,1799.000,201.000,LIMIT,SELL,10.000,,200.000
1491004800,140.000,150.000,80.000,100.000,1000.000,0.000,1799.000,201.000,,,,,
1493596800,100.000,120.000,20.000,50.000,1000.000,0.000,1799.000,201.000,,,,,
1493596800,100.000,120.000,20.000,50.000,1000.000,32.300,21.000,364.000,LIMIT,BUY,,1799.000,50.000
1496275200,50.000,100.000,40.000,80.000,1000.000,32.300,21.000,364.000,,,,,
1498867200,80.000,180.000,50.000,150.000,1000.000,32.300,21.000,364.000,,,,,
1501545600,150.000,250.000,120.000,240.000,1000.000,32.300,21.000,364.000,,,,,
1501545600,150.000,250.000,120.000,240.000,1000.000,0.000,5834.000,1011.000,LIMIT,SELL,32.300,,200.000
1504224000,240.000,450.000,220.000,400.000,1000.000,0.000,5834.000,1011.000,,,,,
1506816000,400.000,450.000,250.000,300.000,1000.000,0.000,5834.000,1011.000,,,,,
1509494400,300.000,700.000,220.000,650.000,1000.000,0.000,5834.000,1011.000,,,,,
1512086400,650.000,800.000,600.000,750.000,1000.000,0.000,5834.000,1011.000,,,,,
"%string);
    (418, String.eqb (match snd (snd r1) with Some x => x | None => ""%string end) "1483228800,10.000,0.000,120.000,IN_LONG,LIMIT_SELL@200
1485907200,10.000,0.000,150.000,IN_LONG,LIMIT_SELL@200
1488326400,0.000,1799.000,140.000,IN_CASH,LIMIT_BUY@50
1491004800,0.000,1799.000,100.000,IN_CASH,LIMIT_BUY@50
1493596800,32.300,21.000,50.000,IN_LONG,LIMIT_SELL@200
1496275200,32.300,21.000,80.000,IN_LONG,LIMIT_SELL@200
1498867200,32.300,21.000,150.000,IN_LONG,LIMIT_SELL@200
1501545600,0.000,5834.000,240.000,IN_CASH,LIMIT_BUY@50
1504224000,0.000,5834.000,400.000,IN_CASH,LIMIT_BUY@50
1506816000,0.000,5834.000,300.000,IN_CASH,LIMIT_BUY@50
1509494400,0.000,5834.000,650.000,IN_CASH,LIMIT_BUY@50
1512086400,0.000,5834.000,750.000,IN_CASH,LIMIT_BUY@50
"%string)]).
Check (@eq_refl (outcome (list Z)) (Done []) <: EvaluateTraderTest_LimitBuyAndSellOnePeriod = Done []).

(** eval/eval_test.cc:433-522 TEST(EvaluateTraderTest, LimitBuyAndSellOnePeriodFastEval): 46 checks. *)
Definition EvaluateTraderTest_LimitBuyAndSellOnePeriodFastEval : outcome (list Z) :=
  do r1 <- EvaluateTrader (AccountConfig (fl 5 1) (fl 0 0) (fl 13421773 (-27)) (fl 1 0) (FeeConfig (fl 0 0) (fl 0 0) (fl 0 0)) (FeeConfig (fl 0 0) (fl 0 0) (fl 0 0)) (FeeConfig (fl 13421773 (-27)) (fl 1 0) (fl 3 (-1))) (fl 1 (-1)) (fl 13421773 (-27))) (EvaluationConfig 1483228800 1514764800 0 true) [(OhlcTick 1483228800 (fl 25 2) (fl 75 1) (fl 5 4) (fl 15 3) (fl 125 3)); (OhlcTick 1485907200 (fl 15 3) (fl 45 2) (fl 25 2) (fl 75 1) (fl 125 3)); (OhlcTick 1488326400 (fl 75 1) (fl 125 1) (fl 25 2) (fl 35 2) (fl 125 3)); (OhlcTick 1491004800 (fl 35 2) (fl 75 1) (fl 5 4) (fl 25 2) (fl 125 3)); (OhlcTick 1493596800 (fl 25 2) (fl 15 3) (fl 5 2) (fl 25 1) (fl 125 3)); (OhlcTick 1496275200 (fl 25 1) (fl 25 2) (fl 5 3) (fl 5 4) (fl 125 3)); (OhlcTick 1498867200 (fl 5 4) (fl 45 2) (fl 25 1) (fl 75 1) (fl 125 3)); (OhlcTick 1501545600 (fl 75 1) (fl 125 1) (fl 15 3) (fl 15 4) (fl 125 3)); (OhlcTick 1504224000 (fl 15 4) (fl 225 1) (fl 55 2) (fl 25 4) (fl 125 3)); (OhlcTick 1506816000 (fl 25 4) (fl 225 1) (fl 125 1) (fl 75 2) (fl 125 3)); (OhlcTick 1509494400 (fl 75 2) (fl 175 2) (fl 55 2) (fl 325 1) (fl 125 3)); (OhlcTick 1512086400 (fl 325 1) (fl 25 5) (fl 75 3) (fl 375 1) (fl 125 3))] None (test_emitter (fl 25 1) (fl 25 3)) null_logger false 100 tt ;
  do p2 <- match nth_error (er_period (fst r1)) 0 with Some p => Done p | None => Undefined end ;
  Done (failures [(435, true);
    (455, true);
    (466, String.eqb (te_name (test_emitter (fl 25 1) (fl 25 3))) "test-trader[50|200]"%string);
    (474, true);
    (521, String.eqb (er_name (fst r1)) "test-trader[50|200]"%string);
    (521, fsame (er_score (fst r1)) (fl 13050437 (-24)));
    (521, fsame (er_avg_gain (fst r1)) (fl 5097827 (-20)));
    (521, fsame (er_avg_base_gain (fst r1)) (fl 25 (-2)));
    (521, fsame (er_avg_total_executed_orders (fst r1)) (fl 3 0));
    (521, fsame (er_avg_total_fee (fst r1)) (fl 1011 0));
    (521, fsame (start_base_balance (er_account_config (fst r1))) (fl 5 1));
    (521, fsame (start_quote_balance (er_account_config (fst r1))) (fl 0 0));
    (521, fsame (cfg_base_unit (er_account_config (fst r1))) (fl 13421773 (-27)));
    (521, fsame (cfg_quote_unit (er_account_config (fst r1))) (fl 1 0));
    (521, fsame (cfg_market_liquidity (er_account_config (fst r1))) (fl 1 (-1)));
    (521, fsame (cfg_max_volume_ratio (er_account_config (fst r1))) (fl 13421773 (-27)));
    (521, fsame (relative_fee (market_order_fee_config (er_account_config (fst r1)))) (fl 0 0));
    (521, fsame (fixed_fee (market_order_fee_config (er_account_config (fst r1)))) (fl 0 0));
    (521, fsame (minimum_fee (market_order_fee_config (er_account_config (fst r1)))) (fl 0 0));
    (521, fsame (relative_fee (stop_order_fee_config (er_account_config (fst r1)))) (fl 0 0));
    (521, fsame (fixed_fee (stop_order_fee_config (er_account_config (fst r1)))) (fl 0 0));
    (521, fsame (minimum_fee (stop_order_fee_config (er_account_config (fst r1)))) (fl 0 0));
    (521, fsame (relative_fee (limit_order_fee_config (er_account_config (fst r1)))) (fl 13421773 (-27)));
    (521, fsame (fixed_fee (limit_order_fee_config (er_account_config (fst r1)))) (fl 1 0));
    (521, fsame (minimum_fee (limit_order_fee_config (er_account_config (fst r1)))) (fl 3 (-1)));
    (521, (ec_start_timestamp_sec (er_eval_config (fst r1)) =? 1483228800));
    (521, (ec_end_timestamp_sec (er_eval_config (fst r1)) =? 1514764800));
    (521, (evaluation_period_months (er_eval_config (fst r1)) =? 0));
    (521, Bool.eqb (fast_eval (er_eval_config (fst r1))) true);
    (521, (size (er_period (fst r1)) =? 1));
    (521, (p_start_timestamp_sec p2 =? 1483228800));
    (521, (p_end_timestamp_sec p2 =? 1514764800));
    (521, fsame (p_final_gain p2) (fl 5097827 (-20)));
    (521, fsame (p_base_final_gain p2) (fl 25 (-2)));
    (521, fsame (r_start_base_balance (p_result p2)) (fl 5 1));
    (521, fsame (r_start_quote_balance (p_result p2)) (fl 0 0));
    (521, fsame (r_end_base_balance (p_result p2)) (fl 0 0));
    (521, fsame (r_end_quote_balance (p_result p2)) (fl 2917 1));
    (521, fsame (r_start_price (p_result p2)) (fl 15 3));
    (521, fsame (r_end_price (p_result p2)) (fl 375 1));
    (521, fsame (r_start_value (p_result p2)) (fl 75 4));
    (521, fsame (r_end_value (p_result p2)) (fl 2917 1));
    (521, (r_total_executed_orders (p_result p2) =? 3));
    (521, fsame (r_total_fee (p_result p2)) (fl 1011 0));
    (521, ofsame (r_base_volatility (p_result p2)) None);
    (521, ofsame (r_trader_volatility (p_result p2)) None)]).
Check (@eq_refl (outcome (list Z)) (Done []) <: EvaluateTraderTest_LimitBuyAndSellOnePeriodFastEval = Done []).

(** eval/eval_test.cc:524-735 TEST(EvaluateTraderTest, LimitBuyAndSellMultiple6MonthPeriods): 142 checks. *)
Definition EvaluateTraderTest_LimitBuyAndSellMultiple6MonthPeriods : outcome (list Z) :=
  do r1 <- EvaluateTrader (AccountConfig (fl 5 1) (fl 0 0) (fl 13421773 (-27)) (fl 1 0) (FeeConfig (fl 0 0) (fl 0 0) (fl 0 0)) (FeeConfig (fl 0 0) (fl 0 0) (fl 0 0)) (FeeConfig (fl 13421773 (-27)) (fl 1 0) (fl 3 (-1))) (fl 1 (-1)) (fl 13421773 (-27))) (EvaluationConfig 1483228800 1514764800 6 false) [(OhlcTick 1483228800 (fl 25 2) (fl 75 1) (fl 5 4) (fl 15 3) (fl 125 3)); (OhlcTick 1485907200 (fl 15 3) (fl 45 2) (fl 25 2) (fl 75 1) (fl 125 3)); (OhlcTick 1488326400 (fl 75 1) (fl 125 1) (fl 25 2) (fl 35 2) (fl 125 3)); (OhlcTick 1491004800 (fl 35 2) (fl 75 1) (fl 5 4) (fl 25 2) (fl 125 3)); (OhlcTick 1493596800 (fl 25 2) (fl 15 3) (fl 5 2) (fl 25 1) (fl 125 3)); (OhlcTick 1496275200 (fl 25 1) (fl 25 2) (fl 5 3) (fl 5 4) (fl 125 3)); (OhlcTick 1498867200 (fl 5 4) (fl 45 2) (fl 25 1) (fl 75 1) (fl 125 3)); (OhlcTick 1501545600 (fl 75 1) (fl 125 1) (fl 15 3) (fl 15 4) (fl 125 3)); (OhlcTick 1504224000 (fl 15 4) (fl 225 1) (fl 55 2) (fl 25 4) (fl 125 3)); (OhlcTick 1506816000 (fl 25 4) (fl 225 1) (fl 125 1) (fl 75 2) (fl 125 3)); (OhlcTick 1509494400 (fl 75 2) (fl 175 2) (fl 55 2) (fl 325 1) (fl 125 3)); (OhlcTick 1512086400 (fl 325 1) (fl 25 5) (fl 75 3) (fl 375 1) (fl 125 3))] None (test_emitter (fl 25 1) (fl 25 3)) null_logger false 100 tt ;
  do p2 <- match nth_error (er_period (fst r1)) 0 with Some p => Done p | None => Undefined end ;
  do p3 <- match nth_error (er_period (fst r1)) 1 with Some p => Done p | None => Undefined end ;
  do p4 <- match nth_error (er_period (fst r1)) 2 with Some p => Done p | None => Undefined end ;
  do p5 <- match nth_error (er_period (fst r1)) 3 with Some p => Done p | None => Undefined end ;
  do p6 <- match nth_error (er_period (fst r1)) 4 with Some p => Done p | None => Undefined end ;
  do p7 <- match nth_error (er_period (fst r1)) 5 with Some p => Done p | None => Undefined end ;
  do p8 <- match nth_error (er_period (fst r1)) 6 with Some p => Done p | None => Undefined end ;
  Done (failures [(526, true);
    (546, true);
    (557, String.eqb (te_name (test_emitter (fl 25 1) (fl 25 3))) "test-trader[50|200]"%string);
    (565, true);
    (734, String.eqb (er_name (fst r1)) "test-trader[50|200]"%string);
    (734, fsame (er_score (fst r1)) (fl 6345825 (-23)));
    (734, fsame (er_avg_gain (fst r1)) (fl 2328575 (-20)));
    (734, fsame (er_avg_base_gain (fst r1)) (fl 15882003 (-22)));
    (734, fsame (er_avg_total_executed_orders (fst r1)) (fl 10785353 (-23)));
    (734, fsame (er_avg_total_fee (fst r1)) (fl 16224841 (-16)));
    (734, fsame (start_base_balance (er_account_config (fst r1))) (fl 5 1));
    (734, fsame (start_quote_balance (er_account_config (fst r1))) (fl 0 0));
    (734, fsame (cfg_base_unit (er_account_config (fst r1))) (fl 13421773 (-27)));
    (734, fsame (cfg_quote_unit (er_account_config (fst r1))) (fl 1 0));
    (734, fsame (cfg_market_liquidity (er_account_config (fst r1))) (fl 1 (-1)));
    (734, fsame (cfg_max_volume_ratio (er_account_config (fst r1))) (fl 13421773 (-27)));
    (734, fsame (relative_fee (market_order_fee_config (er_account_config (fst r1)))) (fl 0 0));
    (734, fsame (fixed_fee (market_order_fee_config (er_account_config (fst r1)))) (fl 0 0));
    (734, fsame (minimum_fee (market_order_fee_config (er_account_config (fst r1)))) (fl 0 0));
    (734, fsame (relative_fee (stop_order_fee_config (er_account_config (fst r1)))) (fl 0 0));
    (734, fsame (fixed_fee (stop_order_fee_config (er_account_config (fst r1)))) (fl 0 0));
    (734, fsame (minimum_fee (stop_order_fee_config (er_account_config (fst r1)))) (fl 0 0));
    (734, fsame (relative_fee (limit_order_fee_config (er_account_config (fst r1)))) (fl 13421773 (-27)));
    (734, fsame (fixed_fee (limit_order_fee_config (er_account_config (fst r1)))) (fl 1 0));
    (734, fsame (minimum_fee (limit_order_fee_config (er_account_config (fst r1)))) (fl 3 (-1)));
    (734, (ec_start_timestamp_sec (er_eval_config (fst r1)) =? 1483228800));
    (734, (ec_end_timestamp_sec (er_eval_config (fst r1)) =? 1514764800));
    (734, (evaluation_period_months (er_eval_config (fst r1)) =? 6));
    (734, Bool.eqb (fast_eval (er_eval_config (fst r1))) false);
    (734, (size (er_period (fst r1)) =? 7));
    (734, (p_start_timestamp_sec p2 =? 1483228800));
    (734, (p_end_timestamp_sec p2 =? 1498867200));
    (734, fsame (p_final_gain p2) (fl 9105135 (-22)));
    (734, fsame (p_base_final_gain p2) (fl 11184811 (-24)));
    (734, fsame (r_start_base_balance (p_result p2)) (fl 5 1));
    (734, fsame (r_start_quote_balance (p_result p2)) (fl 0 0));
    (734, fsame (r_end_base_balance (p_result p2)) (fl 8467251 (-18)));
    (734, fsame (r_end_quote_balance (p_result p2)) (fl 21 0));
    (734, fsame (r_start_price (p_result p2)) (fl 15 3));
    (734, fsame (r_end_price (p_result p2)) (fl 5 4));
    (734, fsame (r_start_value (p_result p2)) (fl 75 4));
    (734, fsame (r_end_value (p_result p2)) (fl 2605 0));
    (734, (r_total_executed_orders (p_result p2) =? 2));
    (734, fsame (r_total_fee (p_result p2)) (fl 91 2));
    (734, ofsame (r_base_volatility (p_result p2)) (Some (fl 6173005 (-22))));
    (734, ofsame (r_trader_volatility (p_result p2)) (Some (fl 1741099 (-20))));
    (734, (p_start_timestamp_sec p3 =? 1485907200));
    (734, (p_end_timestamp_sec p3 =? 1501545600));
    (734, fsame (p_final_gain p3) (fl 6803161 (-21)));
    (734, fsame (p_base_final_gain p3) (fl 1 0));
    (734, fsame (r_start_base_balance (p_result p3)) (fl 5 1));
    (734, fsame (r_start_quote_balance (p_result p3)) (fl 0 0));
    (734, fsame (r_end_base_balance (p_result p3)) (fl 8467251 (-18)));
    (734, fsame (r_end_quote_balance (p_result p3)) (fl 21 0));
    (734, fsame (r_start_price (p_result p3)) (fl 75 1));
    (734, fsame (r_end_price (p_result p3)) (fl 75 1));
    (734, fsame (r_start_value (p_result p3)) (fl 375 2));
    (734, fsame (r_end_value (p_result p3)) (fl 2433 1));
    (734, (r_total_executed_orders (p_result p3) =? 2));
    (734, fsame (r_total_fee (p_result p3)) (fl 91 2));
    (734, ofsame (r_base_volatility (p_result p3)) (Some (fl 1832827 (-20))));
    (734, ofsame (r_trader_volatility (p_result p3)) (Some (fl 15964645 (-23))));
    (734, (p_start_timestamp_sec p4 =? 1488326400));
    (734, (p_end_timestamp_sec p4 =? 1504224000));
    (734, fsame (p_final_gain p4) (fl 10779361 (-23)));
    (734, fsame (p_base_final_gain p4) (fl 14380471 (-23)));
    (734, fsame (r_start_base_balance (p_result p4)) (fl 5 1));
    (734, fsame (r_start_quote_balance (p_result p4)) (fl 0 0));
    (734, fsame (r_end_base_balance (p_result p4)) (fl 0 0));
    (734, fsame (r_end_quote_balance (p_result p4)) (fl 1799 0));
    (734, fsame (r_start_price (p_result p4)) (fl 35 2));
    (734, fsame (r_end_price (p_result p4)) (fl 15 4));
    (734, fsame (r_start_value (p_result p4)) (fl 175 3));
    (734, fsame (r_end_value (p_result p4)) (fl 1799 0));
    (734, (r_total_executed_orders (p_result p4) =? 1));
    (734, fsame (r_total_fee (p_result p4)) (fl 201 0));
    (734, ofsame (r_base_volatility (p_result p4)) (Some (fl 3866185 (-21))));
    (734, ofsame (r_trader_volatility (p_result p4)) (Some (fl 14423211 (-23))));
    (734, (p_start_timestamp_sec p5 =? 1491004800));
    (734, (p_end_timestamp_sec p5 =? 1506816000));
    (734, fsame (p_final_gain p5) (fl 7545553 (-22)));
    (734, fsame (p_base_final_gain p5) (fl 1 2));
    (734, fsame (r_start_base_balance (p_result p5)) (fl 5 1));
    (734, fsame (r_start_quote_balance (p_result p5)) (fl 0 0));
    (734, fsame (r_end_base_balance (p_result p5)) (fl 0 0));
    (734, fsame (r_end_quote_balance (p_result p5)) (fl 1799 0));
    (734, fsame (r_start_price (p_result p5)) (fl 25 2));
    (734, fsame (r_end_price (p_result p5)) (fl 25 4));
    (734, fsame (r_start_value (p_result p5)) (fl 125 3));
    (734, fsame (r_end_value (p_result p5)) (fl 1799 0));
    (734, (r_total_executed_orders (p_result p5) =? 1));
    (734, fsame (r_total_fee (p_result p5)) (fl 201 0));
    (734, ofsame (r_base_volatility (p_result p5)) (Some (fl 8380495 (-22))));
    (734, ofsame (r_trader_volatility (p_result p5)) (Some (fl 14394541 (-23))));
    (734, (p_start_timestamp_sec p6 =? 1493596800));
    (734, (p_end_timestamp_sec p6 =? 1509494400));
    (734, fsame (p_final_gain p6) (fl 7545553 (-21)));
    (734, fsame (p_base_final_gain p6) (fl 3 1));
    (734, fsame (r_start_base_balance (p_result p6)) (fl 5 1));
    (734, fsame (r_start_quote_balance (p_result p6)) (fl 0 0));
    (734, fsame (r_end_base_balance (p_result p6)) (fl 0 0));
    (734, fsame (r_end_quote_balance (p_result p6)) (fl 1799 0));
    (734, fsame (r_start_price (p_result p6)) (fl 25 1));
    (734, fsame (r_end_price (p_result p6)) (fl 75 2));
    (734, fsame (r_start_value (p_result p6)) (fl 125 2));
    (734, fsame (r_end_value (p_result p6)) (fl 1799 0));
    (734, (r_total_executed_orders (p_result p6) =? 1));
    (734, fsame (r_total_fee (p_result p6)) (fl 201 0));
    (734, ofsame (r_base_volatility (p_result p6)) (Some (fl 2075671 (-20))));
    (734, ofsame (r_trader_volatility (p_result p6)) (Some (fl 13711869 (-23))));
    (734, (p_start_timestamp_sec p7 =? 1496275200));
    (734, (p_end_timestamp_sec p7 =? 1512086400));
    (734, fsame (p_final_gain p7) (fl 9431941 (-22)));
    (734, fsame (p_base_final_gain p7) (fl 65 (-3)));
    (734, fsame (r_start_base_balance (p_result p7)) (fl 5 1));
    (734, fsame (r_start_quote_balance (p_result p7)) (fl 0 0));
    (734, fsame (r_end_base_balance (p_result p7)) (fl 0 0));
    (734, fsame (r_end_quote_balance (p_result p7)) (fl 1799 0));
    (734, fsame (r_start_price (p_result p7)) (fl 5 4));
    (734, fsame (r_end_price (p_result p7)) (fl 325 1));
    (734, fsame (r_start_value (p_result p7)) (fl 25 5));
    (734, fsame (r_end_value (p_result p7)) (fl 1799 0));
    (734, (r_total_executed_orders (p_result p7) =? 1));
    (734, fsame (r_total_fee (p_result p7)) (fl 201 0));
    (734, ofsame (r_base_volatility (p_result p7)) (Some (fl 8507285 (-22))));
    (734, ofsame (r_trader_volatility (p_result p7)) (Some (fl 322469 (-18))));
    (734, (p_start_timestamp_sec p8 =? 1498867200));
    (734, (p_end_timestamp_sec p8 =? 1514764800));
    (734, fsame (p_final_gain p8) (fl 10060737 (-23)));
    (734, fsame (p_base_final_gain p8) (fl 5 0));
    (734, fsame (r_start_base_balance (p_result p8)) (fl 5 1));
    (734, fsame (r_start_quote_balance (p_result p8)) (fl 0 0));
    (734, fsame (r_end_base_balance (p_result p8)) (fl 0 0));
    (734, fsame (r_end_quote_balance (p_result p8)) (fl 1799 0));
    (734, fsame (r_start_price (p_result p8)) (fl 75 1));
    (734, fsame (r_end_price (p_result p8)) (fl 375 1));
    (734, fsame (r_start_value (p_result p8)) (fl 375 2));
    (734, fsame (r_end_value (p_result p8)) (fl 1799 0));
    (734, (r_total_executed_orders (p_result p8) =? 1));
    (734, fsame (r_total_fee (p_result p8)) (fl 201 0));
    (734, ofsame (r_base_volatility (p_result p8)) (Some (fl 16055169 (-23))));
    (734, ofsame (r_trader_volatility (p_result p8)) (Some (fl 1051065 (-20))))]).
Check (@eq_refl (outcome (list Z)) (Done []) <: EvaluateTraderTest_LimitBuyAndSellMultiple6MonthPeriods = Done []).

(** eval/eval_test.cc:737-1004 TEST(EvaluateBatchOfTradersTest, LimitBuyAndSellMultiple6MonthPeriods): 168 checks. *)
Definition EvaluateBatchOfTradersTest_LimitBuyAndSellMultiple6MonthPeriods : outcome (list Z) :=
  do rs1 <- EvaluateBatchOfTraders (AccountConfig (fl 5 1) (fl 0 0) (fl 13421773 (-27)) (fl 1 0) (FeeConfig (fl 0 0) (fl 0 0) (fl 0 0)) (FeeConfig (fl 0 0) (fl 0 0) (fl 0 0)) (FeeConfig (fl 13421773 (-27)) (fl 1 0) (fl 3 (-1))) (fl 1 (-1)) (fl 13421773 (-27))) (EvaluationConfig 1483228800 1514764800 6 false) [(OhlcTick 1483228800 (fl 25 2) (fl 75 1) (fl 5 4) (fl 15 3) (fl 125 3)); (OhlcTick 1485907200 (fl 15 3) (fl 45 2) (fl 25 2) (fl 75 1) (fl 125 3)); (OhlcTick 1488326400 (fl 75 1) (fl 125 1) (fl 25 2) (fl 35 2) (fl 125 3)); (OhlcTick 1491004800 (fl 35 2) (fl 75 1) (fl 5 4) (fl 25 2) (fl 125 3)); (OhlcTick 1493596800 (fl 25 2) (fl 15 3) (fl 5 2) (fl 25 1) (fl 125 3)); (OhlcTick 1496275200 (fl 25 1) (fl 25 2) (fl 5 3) (fl 5 4) (fl 125 3)); (OhlcTick 1498867200 (fl 5 4) (fl 45 2) (fl 25 1) (fl 75 1) (fl 125 3)); (OhlcTick 1501545600 (fl 75 1) (fl 125 1) (fl 15 3) (fl 15 4) (fl 125 3)); (OhlcTick 1504224000 (fl 15 4) (fl 225 1) (fl 55 2) (fl 25 4) (fl 125 3)); (OhlcTick 1506816000 (fl 25 4) (fl 225 1) (fl 125 1) (fl 75 2) (fl 125 3)); (OhlcTick 1509494400 (fl 75 2) (fl 175 2) (fl 55 2) (fl 325 1) (fl 125 3)); (OhlcTick 1512086400 (fl 325 1) (fl 25 5) (fl 75 3) (fl 375 1) (fl 125 3))] None [(test_emitter (fl 25 1) (fl 25 3)); (test_emitter (fl 5 3) (fl 125 1)); (test_emitter (fl 15 1) (fl 125 2))] (List.concat (repeat (seq 0 3) 100)) ;
  do ev2 <- match nth_error rs1 0 with Some r => Done r | None => Undefined end ;
  do p3 <- match nth_error (er_period ev2) 0 with Some p => Done p | None => Undefined end ;
  do p4 <- match nth_error (er_period ev2) 1 with Some p => Done p | None => Undefined end ;
  do p5 <- match nth_error (er_period ev2) 2 with Some p => Done p | None => Undefined end ;
  do p6 <- match nth_error (er_period ev2) 3 with Some p => Done p | None => Undefined end ;
  do p7 <- match nth_error (er_period ev2) 4 with Some p => Done p | None => Undefined end ;
  do p8 <- match nth_error (er_period ev2) 5 with Some p => Done p | None => Undefined end ;
  do p9 <- match nth_error (er_period ev2) 6 with Some p => Done p | None => Undefined end ;
  do ev10 <- match nth_error rs1 1 with Some r => Done r | None => Undefined end ;
  do p11 <- match nth_error (er_period ev10) 0 with Some p => Done p | None => Undefined end ;
  do p12 <- match nth_error (er_period ev10) 1 with Some p => Done p | None => Undefined end ;
  do p13 <- match nth_error (er_period ev10) 2 with Some p => Done p | None => Undefined end ;
  do p14 <- match nth_error (er_period ev10) 3 with Some p => Done p | None => Undefined end ;
  do p15 <- match nth_error (er_period ev10) 4 with Some p => Done p | None => Undefined end ;
  do p16 <- match nth_error (er_period ev10) 5 with Some p => Done p | None => Undefined end ;
  do p17 <- match nth_error (er_period ev10) 6 with Some p => Done p | None => Undefined end ;
  do ev18 <- match nth_error rs1 2 with Some r => Done r | None => Undefined end ;
  do p19 <- match nth_error (er_period ev18) 0 with Some p => Done p | None => Undefined end ;
  do p20 <- match nth_error (er_period ev18) 1 with Some p => Done p | None => Undefined end ;
  do p21 <- match nth_error (er_period ev18) 2 with Some p => Done p | None => Undefined end ;
  do p22 <- match nth_error (er_period ev18) 3 with Some p => Done p | None => Undefined end ;
  do p23 <- match nth_error (er_period ev18) 4 with Some p => Done p | None => Undefined end ;
  do p24 <- match nth_error (er_period ev18) 5 with Some p => Done p | None => Undefined end ;
  do p25 <- match nth_error (er_period ev18) 6 with Some p => Done p | None => Undefined end ;
  Done (failures [(739, true);
    (759, true);
    (780, ((size rs1) =? 3));
    (783, true);
    (854, String.eqb (er_name ev2) "test-trader[50|200]"%string);
    (854, fsame (er_score ev2) (fl 6345825 (-23)));
    (854, fsame (er_avg_gain ev2) (fl 2328575 (-20)));
    (854, fsame (er_avg_base_gain ev2) (fl 15882003 (-22)));
    (854, fsame (er_avg_total_executed_orders ev2) (fl 10785353 (-23)));
    (854, fsame (er_avg_total_fee ev2) (fl 16224841 (-16)));
    (854, fsame (start_base_balance (er_account_config ev2)) (fl 5 1));
    (854, fsame (start_quote_balance (er_account_config ev2)) (fl 0 0));
    (854, fsame (cfg_base_unit (er_account_config ev2)) (fl 13421773 (-27)));
    (854, fsame (cfg_quote_unit (er_account_config ev2)) (fl 1 0));
    (854, fsame (cfg_market_liquidity (er_account_config ev2)) (fl 1 (-1)));
    (854, fsame (cfg_max_volume_ratio (er_account_config ev2)) (fl 13421773 (-27)));
    (854, fsame (relative_fee (market_order_fee_config (er_account_config ev2))) (fl 0 0));
    (854, fsame (fixed_fee (market_order_fee_config (er_account_config ev2))) (fl 0 0));
    (854, fsame (minimum_fee (market_order_fee_config (er_account_config ev2))) (fl 0 0));
    (854, fsame (relative_fee (stop_order_fee_config (er_account_config ev2))) (fl 0 0));
    (854, fsame (fixed_fee (stop_order_fee_config (er_account_config ev2))) (fl 0 0));
    (854, fsame (minimum_fee (stop_order_fee_config (er_account_config ev2))) (fl 0 0));
    (854, fsame (relative_fee (limit_order_fee_config (er_account_config ev2))) (fl 13421773 (-27)));
    (854, fsame (fixed_fee (limit_order_fee_config (er_account_config ev2))) (fl 1 0));
    (854, fsame (minimum_fee (limit_order_fee_config (er_account_config ev2))) (fl 3 (-1)));
    (854, (ec_start_timestamp_sec (er_eval_config ev2) =? 1483228800));
    (854, (ec_end_timestamp_sec (er_eval_config ev2) =? 1514764800));
    (854, (evaluation_period_months (er_eval_config ev2) =? 6));
    (854, Bool.eqb (fast_eval (er_eval_config ev2)) false);
    (854, (size (er_period ev2) =? 7));
    (854, (p_start_timestamp_sec p3 =? 1483228800));
    (854, (p_end_timestamp_sec p3 =? 1498867200));
    (854, fsame (p_final_gain p3) (fl 9105135 (-22)));
    (854, fsame (p_base_final_gain p3) (fl 11184811 (-24)));
    (854, (p_start_timestamp_sec p4 =? 1485907200));
    (854, (p_end_timestamp_sec p4 =? 1501545600));
    (854, fsame (p_final_gain p4) (fl 6803161 (-21)));
    (854, fsame (p_base_final_gain p4) (fl 1 0));
    (854, (p_start_timestamp_sec p5 =? 1488326400));
    (854, (p_end_timestamp_sec p5 =? 1504224000));
    (854, fsame (p_final_gain p5) (fl 10779361 (-23)));
    (854, fsame (p_base_final_gain p5) (fl 14380471 (-23)));
    (854, (p_start_timestamp_sec p6 =? 1491004800));
    (854, (p_end_timestamp_sec p6 =? 1506816000));
    (854, fsame (p_final_gain p6) (fl 7545553 (-22)));
    (854, fsame (p_base_final_gain p6) (fl 1 2));
    (854, (p_start_timestamp_sec p7 =? 1493596800));
    (854, (p_end_timestamp_sec p7 =? 1509494400));
    (854, fsame (p_final_gain p7) (fl 7545553 (-21)));
    (854, fsame (p_base_final_gain p7) (fl 3 1));
    (854, (p_start_timestamp_sec p8 =? 1496275200));
    (854, (p_end_timestamp_sec p8 =? 1512086400));
    (854, fsame (p_final_gain p8) (fl 9431941 (-22)));
    (854, fsame (p_base_final_gain p8) (fl 65 (-3)));
    (854, (p_start_timestamp_sec p9 =? 1498867200));
    (854, (p_end_timestamp_sec p9 =? 1514764800));
    (854, fsame (p_final_gain p9) (fl 10060737 (-23)));
    (854, fsame (p_base_final_gain p9) (fl 5 0));
    (857, true);
    (928, String.eqb (er_name ev10) "test-trader[40|250]"%string);
    (928, fsame (er_score ev10) (fl 8453529 (-23)));
    (928, fsame (er_avg_gain ev10) (fl 395457 (-17)));
    (928, fsame (er_avg_base_gain ev10) (fl 15882003 (-22)));
    (928, fsame (er_avg_total_executed_orders ev10) (fl 10785353 (-23)));
    (928, fsame (er_avg_total_fee ev10) (fl 309 0));
    (928, fsame (start_base_balance (er_account_config ev10)) (fl 5 1));
    (928, fsame (start_quote_balance (er_account_config ev10)) (fl 0 0));
    (928, fsame (cfg_base_unit (er_account_config ev10)) (fl 13421773 (-27)));
    (928, fsame (cfg_quote_unit (er_account_config ev10)) (fl 1 0));
    (928, fsame (cfg_market_liquidity (er_account_config ev10)) (fl 1 (-1)));
    (928, fsame (cfg_max_volume_ratio (er_account_config ev10)) (fl 13421773 (-27)));
    (928, fsame (relative_fee (market_order_fee_config (er_account_config ev10))) (fl 0 0));
    (928, fsame (fixed_fee (market_order_fee_config (er_account_config ev10))) (fl 0 0));
    (928, fsame (minimum_fee (market_order_fee_config (er_account_config ev10))) (fl 0 0));
    (928, fsame (relative_fee (stop_order_fee_config (er_account_config ev10))) (fl 0 0));
    (928, fsame (fixed_fee (stop_order_fee_config (er_account_config ev10))) (fl 0 0));
    (928, fsame (minimum_fee (stop_order_fee_config (er_account_config ev10))) (fl 0 0));
    (928, fsame (relative_fee (limit_order_fee_config (er_account_config ev10))) (fl 13421773 (-27)));
    (928, fsame (fixed_fee (limit_order_fee_config (er_account_config ev10))) (fl 1 0));
    (928, fsame (minimum_fee (limit_order_fee_config (er_account_config ev10))) (fl 3 (-1)));
    (928, (ec_start_timestamp_sec (er_eval_config ev10) =? 1483228800));
    (928, (ec_end_timestamp_sec (er_eval_config ev10) =? 1514764800));
    (928, (evaluation_period_months (er_eval_config ev10) =? 6));
    (928, Bool.eqb (fast_eval (er_eval_config ev10)) false);
    (928, (size (er_period ev10) =? 7));
    (928, (p_start_timestamp_sec p11 =? 1483228800));
    (928, (p_end_timestamp_sec p11 =? 1498867200));
    (928, fsame (p_final_gain p11) (fl 3552925 (-20)));
    (928, fsame (p_base_final_gain p11) (fl 11184811 (-24)));
    (928, (p_start_timestamp_sec p12 =? 1485907200));
    (928, (p_end_timestamp_sec p12 =? 1501545600));
    (928, fsame (p_final_gain p12) (fl 1328371 (-18)));
    (928, fsame (p_base_final_gain p12) (fl 1 0));
    (928, (p_start_timestamp_sec p13 =? 1488326400));
    (928, (p_end_timestamp_sec p13 =? 1504224000));
    (928, fsame (p_final_gain p13) (fl 3368925 (-21)));
    (928, fsame (p_base_final_gain p13) (fl 14380471 (-23)));
    (928, (p_start_timestamp_sec p14 =? 1491004800));
    (928, (p_end_timestamp_sec p14 =? 1506816000));
    (928, fsame (p_final_gain p14) (fl 4716495 (-21)));
    (928, fsame (p_base_final_gain p14) (fl 1 2));
    (928, (p_start_timestamp_sec p15 =? 1493596800));
    (928, (p_end_timestamp_sec p15 =? 1509494400));
    (928, fsame (p_final_gain p15) (fl 4716495 (-20)));
    (928, fsame (p_base_final_gain p15) (fl 3 1));
    (928, (p_start_timestamp_sec p16 =? 1496275200));
    (928, (p_end_timestamp_sec p16 =? 1512086400));
    (928, fsame (p_final_gain p16) (fl 11791237 (-22)));
    (928, fsame (p_base_final_gain p16) (fl 65 (-3)));
    (928, (p_start_timestamp_sec p17 =? 1498867200));
    (928, (p_end_timestamp_sec p17 =? 1514764800));
    (928, fsame (p_final_gain p17) (fl 1572165 (-20)));
    (928, fsame (p_base_final_gain p17) (fl 5 0));
    (931, true);
    (1002, String.eqb (er_name ev18) "test-trader[30|500]"%string);
    (1002, fsame (er_score ev18) (fl 7398697 (-23)));
    (1002, fsame (er_avg_gain ev18) (fl 13184517 (-22)));
    (1002, fsame (er_avg_base_gain ev18) (fl 15882003 (-22)));
    (1002, fsame (er_avg_total_executed_orders ev18) (fl 9586981 (-25)));
    (1002, fsame (er_avg_total_fee ev18) (fl 4690505 (-15)));
    (1002, fsame (start_base_balance (er_account_config ev18)) (fl 5 1));
    (1002, fsame (start_quote_balance (er_account_config ev18)) (fl 0 0));
    (1002, fsame (cfg_base_unit (er_account_config ev18)) (fl 13421773 (-27)));
    (1002, fsame (cfg_quote_unit (er_account_config ev18)) (fl 1 0));
    (1002, fsame (cfg_market_liquidity (er_account_config ev18)) (fl 1 (-1)));
    (1002, fsame (cfg_max_volume_ratio (er_account_config ev18)) (fl 13421773 (-27)));
    (1002, fsame (relative_fee (market_order_fee_config (er_account_config ev18))) (fl 0 0));
    (1002, fsame (fixed_fee (market_order_fee_config (er_account_config ev18))) (fl 0 0));
    (1002, fsame (minimum_fee (market_order_fee_config (er_account_config ev18))) (fl 0 0));
    (1002, fsame (relative_fee (stop_order_fee_config (er_account_config ev18))) (fl 0 0));
    (1002, fsame (fixed_fee (stop_order_fee_config (er_account_config ev18))) (fl 0 0));
    (1002, fsame (minimum_fee (stop_order_fee_config (er_account_config ev18))) (fl 0 0));
    (1002, fsame (relative_fee (limit_order_fee_config (er_account_config ev18))) (fl 13421773 (-27)));
    (1002, fsame (fixed_fee (limit_order_fee_config (er_account_config ev18))) (fl 1 0));
    (1002, fsame (minimum_fee (limit_order_fee_config (er_account_config ev18))) (fl 3 (-1)));
    (1002, (ec_start_timestamp_sec (er_eval_config ev18) =? 1483228800));
    (1002, (ec_end_timestamp_sec (er_eval_config ev18) =? 1514764800));
    (1002, (evaluation_period_months (er_eval_config ev18) =? 6));
    (1002, Bool.eqb (fast_eval (er_eval_config ev18)) false);
    (1002, (size (er_period ev18) =? 7));
    (1002, (p_start_timestamp_sec p19 =? 1483228800));
    (1002, (p_end_timestamp_sec p19 =? 1498867200));
    (1002, fsame (p_final_gain p19) (fl 11184811 (-24)));
    (1002, fsame (p_base_final_gain p19) (fl 11184811 (-24)));
    (1002, (p_start_timestamp_sec p20 =? 1485907200));
    (1002, (p_end_timestamp_sec p20 =? 1501545600));
    (1002, fsame (p_final_gain p20) (fl 1 0));
    (1002, fsame (p_base_final_gain p20) (fl 1 0));
    (1002, (p_start_timestamp_sec p21 =? 1488326400));
    (1002, (p_end_timestamp_sec p21 =? 1504224000));
    (1002, fsame (p_final_gain p21) (fl 14380471 (-23)));
    (1002, fsame (p_base_final_gain p21) (fl 14380471 (-23)));
    (1002, (p_start_timestamp_sec p22 =? 1491004800));
    (1002, (p_end_timestamp_sec p22 =? 1506816000));
    (1002, fsame (p_final_gain p22) (fl 1 2));
    (1002, fsame (p_base_final_gain p22) (fl 1 2));
    (1002, (p_start_timestamp_sec p23 =? 1493596800));
    (1002, (p_end_timestamp_sec p23 =? 1509494400));
    (1002, fsame (p_final_gain p23) (fl 3 1));
    (1002, fsame (p_base_final_gain p23) (fl 3 1));
    (1002, (p_start_timestamp_sec p24 =? 1496275200));
    (1002, (p_end_timestamp_sec p24 =? 1512086400));
    (1002, fsame (p_final_gain p24) (fl 11793859 (-21)));
    (1002, fsame (p_base_final_gain p24) (fl 65 (-3)));
    (1002, (p_start_timestamp_sec p25 =? 1498867200));
    (1002, (p_end_timestamp_sec p25 =? 1514764800));
    (1002, fsame (p_final_gain p25) (fl 3145029 (-20)));
    (1002, fsame (p_base_final_gain p25) (fl 5 0))]).
Check (@eq_refl (outcome (list Z)) (Done []) <: EvaluateBatchOfTradersTest_LimitBuyAndSellMultiple6MonthPeriods = Done []).

(** eval/eval_test.cc:1118-1203 TEST(ExecuteTraderWithSideInputTest, MarketBuyAndSell): 16 checks. *)
Definition ExecuteTraderWithSideInputTest_MarketBuyAndSell : outcome (list Z) :=
  do si1 <- NewSideInput [(SideRecord 1483311600 [(fl 1 1)]); (SideRecord 1483488000 [(fl 1 0)]); (SideRecord 1483574400 [(fl 0 0)])] ;
  do r2 <- ExecuteTrader (AccountConfig (fl 5 1) (fl 0 0) (fl 13421773 (-27)) (fl 1 0) (FeeConfig (fl 13421773 (-27)) (fl 1 0) (fl 3 (-1))) (FeeConfig (fl 0 0) (fl 0 0) (fl 0 0)) (FeeConfig (fl 0 0) (fl 0 0) (fl 0 0)) (fl 13421773 (-24)) (fl 1 (-1))) (Some si1) false side_emitter csv_logger true [(OhlcTick 1483228800 (fl 25 2) (fl 75 1) (fl 5 4) (fl 15 3) (fl 125 3)); (OhlcTick 1483315200 (fl 15 3) (fl 45 2) (fl 25 2) (fl 75 1) (fl 125 3)); (OhlcTick 1483401600 (fl 75 1) (fl 125 1) (fl 25 2) (fl 35 2) (fl 125 3)); (OhlcTick 1483488000 (fl 35 2) (fl 75 1) (fl 5 4) (fl 25 2) (fl 125 3)); (OhlcTick 1483574400 (fl 25 2) (fl 15 3) (fl 5 2) (fl 25 1) (fl 125 3))] ((Some ""%string), (Some ""%string)) ;
  Done (failures [(1120, true);
    (1164, true);
    (1180, fsame (r_start_base_balance (fst r2)) (fl 5 1));
    (1180, fsame (r_start_quote_balance (fst r2)) (fl 0 0));
    (1180, fsame (r_end_base_balance (fst r2)) (fl 11324621 (-20)));
    (1180, fsame (r_end_quote_balance (fst r2)) (fl 21 0));
    (1180, fsame (r_start_price (fst r2)) (fl 15 3));
    (1180, fsame (r_end_price (fst r2)) (fl 25 1));
    (1180, fsame (r_start_value (fst r2)) (fl 75 4));
    (1180, fsame (r_end_value (fst r2)) (fl 561 0));
    (1180, (r_total_executed_orders (fst r2) =? 2));
    (1180, fsame (r_total_fee (fst r2)) (fl 255 0));
    (1180, ofsame (r_base_volatility (fst r2)) (Some (fl 13709027 (-21))));
    (1180, ofsame (r_trader_volatility (fst r2)) (Some (fl 14994753 (-21))));
    (1182, String.eqb (match fst (snd r2) with Some x => x | None => ""%string end) "1483228800,100.000,150.000,80.000,120.000,1000.000,10.000,0.000,0.000,,,,,
1483315200,120.000,180.000,100.000,150.000,1000.000,10.000,0.000,0.000,,,,,
1483401600,150.000,250.000,100.000,140.000,1000.000,10.000,0.000,0.000,,,,,
1483401600,150.000,250.000,100.000,140.000,1000.000,0.000,1259.000,141.000,MARKET,SELL,10.000,,
1483488000,140.000,150.000,80.000,100.000,1000.000,0.000,1259.000,141.000,,,,,
1483574400,100.000,120.000,20.000,50.000,1000.000,0.000,1259.000,141.000,,,,,
1483574400,100.000,120.000,20.000,50.000,1000.000,10.800,21.000,255.000,MARKET,BUY,,1259.000,
"%string);
    (1197, String.eqb (match snd (snd r2) with Some x => x | None => ""%string end) "1483228800,10.000,0.000,120.000,UNKNOWN,-1
1483315200,10.000,0.000,150.000,SHOULD_SELL,3600
1483401600,0.000,1259.000,140.000,TOO_OLD,90000
1483488000,0.000,1259.000,100.000,SHOULD_BUY,0
1483574400,10.800,21.000,50.000,DO_NOTHING,0
"%string)]).
Check (@eq_refl (outcome (list Z)) (Done []) <: ExecuteTraderWithSideInputTest_MarketBuyAndSell = Done []).
