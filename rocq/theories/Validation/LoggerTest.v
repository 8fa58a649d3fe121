(** GENERATED from logging/csv_logger_test.cc by tools/gen_tests.py: the repository's unit tests, run on the
    model (see TestKit.v).  Each [Check] fails to build if a test does not pass. *)

From Coq Require Import ZArith Bool List String.
From Verif.Model Require Import Outcome Machine Types Account History SideInput Indicators
  TimeUtil TimeText Eval Traders CsvLogger MachineIEEE Proto Files.
From Verif.Validation Require Import TestKit.
Import ListNotations.
Local Open Scope Z_scope.

(** logging/csv_logger_test.cc:43-63 TEST(CsvLoggerTest, LogExchangeState): 1 checks. *)
Definition CsvLoggerTest_LogExchangeState : outcome (list Z) :=
  let a1 := set_base_balance account0 (fl 1 1) in
  let a2 := set_quote_balance a1 (fl 125 3) in
  let a3 := set_total_fee a2 (fl 25 1) in
  let a4 := set_base_unit a3 (fl 13743895 (-37)) in
  let a5 := set_quote_unit a4 (fl 5368709 (-29)) in
  let a6 := set_market_liquidity a5 (fl 1 (-1)) in
  let a7 := set_max_volume_ratio a6 (fl 7549747 (-23)) in
  let l8 := lg_tick csv_logger ((Some ""%string), None) (OhlcTick 1483228800 (fl 25 2) (fl 75 1) (fl 5 4) (fl 15 3) (fl 125 3)) a7 in
  let l9 := lg_tick csv_logger l8 (OhlcTick 1483315200 (fl 15 3) (fl 45 2) (fl 25 2) (fl 75 1) (fl 125 2)) a7 in
  let l10 := lg_tick csv_logger l9 (OhlcTick 1483401600 (fl 75 1) (fl 125 1) (fl 25 2) (fl 35 2) (fl 25 5)) a7 in
  Done (failures [(56, String.eqb (match fst l10 with Some x => x | None => ""%string end) "1483228800,100.000,150.000,80.000,120.000,1000.000,2.000,1000.000,50.000,,,,,
1483315200,120.000,180.000,100.000,150.000,500.000,2.000,1000.000,50.000,,,,,
1483401600,150.000,250.000,100.000,140.000,800.000,2.000,1000.000,50.000,,,,,
"%string)]).
Check (@eq_refl (outcome (list Z)) (Done []) <: CsvLoggerTest_LogExchangeState = Done []).

(** logging/csv_logger_test.cc:65-91 TEST(CsvLoggerTest, LogExchangeStateWithOrder): 1 checks. *)
Definition CsvLoggerTest_LogExchangeStateWithOrder : outcome (list Z) :=
  let a1 := set_base_balance account0 (fl 1 1) in
  let a2 := set_quote_balance a1 (fl 125 3) in
  let a3 := set_total_fee a2 (fl 25 1) in
  let a4 := set_base_unit a3 (fl 13743895 (-37)) in
  let a5 := set_quote_unit a4 (fl 5368709 (-29)) in
  let a6 := set_market_liquidity a5 (fl 1 (-1)) in
  let a7 := set_max_volume_ratio a6 (fl 7549747 (-23)) in
  let l8 := lg_tick csv_logger ((Some ""%string), None) (OhlcTick 1483228800 (fl 25 2) (fl 75 1) (fl 5 4) (fl 15 3) (fl 125 3)) a7 in
  let l9 := lg_order csv_logger l8 (OhlcTick 1483315200 (fl 15 3) (fl 45 2) (fl 25 2) (fl 75 1) (fl 125 2)) a7 (Order (Some LIMIT) (Some SELL) (QuoteAmount (fl 1 0)) (Some (fl 125 2))) in
  let l10 := lg_tick csv_logger l9 (OhlcTick 1483401600 (fl 75 1) (fl 125 1) (fl 25 2) (fl 35 2) (fl 25 5)) a7 in
  Done (failures [(84, String.eqb (match fst l10 with Some x => x | None => ""%string end) "1483228800,100.000,150.000,80.000,120.000,1000.000,2.000,1000.000,50.000,,,,,
1483315200,120.000,180.000,100.000,150.000,500.000,2.000,1000.000,50.000,LIMIT,SELL,,1.000,500.000
1483401600,150.000,250.000,100.000,140.000,800.000,2.000,1000.000,50.000,,,,,
"%string)]).
Check (@eq_refl (outcome (list Z)) (Done []) <: CsvLoggerTest_LogExchangeStateWithOrder = Done []).

(** logging/csv_logger_test.cc:93-101 TEST(CsvLoggerTest, LogTraderState): 1 checks. *)
Definition CsvLoggerTest_LogTraderState : outcome (list Z) :=
  let l1 := lg_trader csv_logger (None, (Some ""%string)) "state_1"%string in
  let l2 := lg_trader csv_logger l1 "state_2"%string in
  let l3 := lg_trader csv_logger l2 "state_3"%string in
  Done (failures [(100, String.eqb (match snd l3 with Some x => x | None => ""%string end) "state_1
state_2
state_3
"%string)]).
Check (@eq_refl (outcome (list Z)) (Done []) <: CsvLoggerTest_LogTraderState = Done []).
