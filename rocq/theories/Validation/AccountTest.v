(** GENERATED from base/account_test.cc by tools/gen_tests.py: the repository's unit tests, run on the
    model (see TestKit.v).  Each [Check] fails to build if a test does not pass. *)

From Coq Require Import ZArith Bool List String.
From Verif.Model Require Import Outcome Machine Types Account History SideInput Indicators
  TimeUtil TimeText Eval Traders CsvLogger MachineIEEE Proto Files.
From Verif.Validation Require Import TestKit.
Import ListNotations.
Local Open Scope Z_scope.

(** base/account_test.cc:18-44 TEST(InitAccountTest, Basic): 14 checks. *)
Definition InitAccountTest_Basic : outcome (list Z) :=
  let a1 := InitAccount (AccountConfig (fl 1 1) (fl 125 3) (fl 13743895 (-37)) (fl 5368709 (-29)) (FeeConfig (fl 0 0) (fl 0 0) (fl 0 0)) (FeeConfig (fl 0 0) (fl 0 0) (fl 0 0)) (FeeConfig (fl 0 0) (fl 0 0) (fl 0 0)) (fl 1 (-1)) (fl 7549747 (-23))) in
  Done (failures [(20, feq (base_balance account0) (fl 0 0));
    (21, feq (quote_balance account0) (fl 0 0));
    (22, feq (total_fee account0) (fl 0 0));
    (23, feq (base_unit account0) (fl 0 0));
    (24, feq (quote_unit account0) (fl 0 0));
    (25, feq (market_liquidity account0) (fl 1 0));
    (26, feq (max_volume_ratio account0) (fl 0 0));
    (37, feq (base_balance a1) (fl 1 1));
    (38, feq (quote_balance a1) (fl 125 3));
    (39, feq (total_fee a1) (fl 0 0));
    (40, feq (base_unit a1) (fl 13743895 (-37)));
    (41, feq (quote_unit a1) (fl 5368709 (-29)));
    (42, feq (market_liquidity a1) (fl 1 (-1)));
    (43, feq (max_volume_ratio a1) (fl 7549747 (-23)))]).
Check (@eq_refl (outcome (list Z)) (Done []) <: InitAccountTest_Basic = Done []).

(** base/account_test.cc:46-93 TEST(GetFeeTest, RelativeFee): 24 checks. *)
Definition GetFeeTest_RelativeFee : outcome (list Z) :=
  let a1 := set_quote_unit account0 (fl 0 0) in
  let a2 := set_quote_unit a1 (fl 5368709 (-29)) in
  let a3 := set_quote_unit a2 (fl 13421773 (-27)) in
  let a4 := set_quote_unit a3 (fl 1 0) in
  let a5 := set_quote_unit a4 (fl 0 0) in
  let a6 := set_quote_unit a5 (fl 5368709 (-29)) in
  let a7 := set_quote_unit a6 (fl 13421773 (-27)) in
  let a8 := set_quote_unit a7 (fl 1 0) in
  Done (failures [(53, feq (GetFee a1 (FeeConfig (fl 13421773 (-27)) (fl 0 0) (fl 0 0)) (fl 25 2)) (fl 5 1));
    (54, feq (GetFee a1 (FeeConfig (fl 13421773 (-27)) (fl 0 0) (fl 0 0)) (fl 5 1)) (fl 1 0));
    (55, feq (GetFee a1 (FeeConfig (fl 13421773 (-27)) (fl 0 0) (fl 0 0)) (fl 12945383 (-20))) (fl 5178153 (-22)));
    (58, feq (GetFee a2 (FeeConfig (fl 13421773 (-27)) (fl 0 0) (fl 0 0)) (fl 12945383 (-20))) (fl 5200937 (-22)));
    (59, feq (GetFee a2 (FeeConfig (fl 13421773 (-27)) (fl 0 0) (fl 0 0)) (fl 505679 (-12))) (fl 6474957 (-19)));
    (60, feq (GetFee a2 (FeeConfig (fl 13421773 (-27)) (fl 0 0) (fl 0 0)) (fl 2528395 (-11))) (fl 16182149 (-17)));
    (63, feq (GetFee a3 (FeeConfig (fl 13421773 (-27)) (fl 0 0) (fl 0 0)) (fl 12945383 (-20))) (fl 5452595 (-22)));
    (64, feq (GetFee a3 (FeeConfig (fl 13421773 (-27)) (fl 0 0) (fl 0 0)) (fl 505679 (-12))) (fl 6501171 (-19)));
    (65, feq (GetFee a3 (FeeConfig (fl 13421773 (-27)) (fl 0 0) (fl 0 0)) (fl 2528395 (-11))) (fl 247 (-1)));
    (68, feq (GetFee a4 (FeeConfig (fl 13421773 (-27)) (fl 0 0) (fl 0 0)) (fl 12945383 (-20))) (fl 1 1));
    (69, feq (GetFee a4 (FeeConfig (fl 13421773 (-27)) (fl 0 0) (fl 0 0)) (fl 505679 (-12))) (fl 13 0));
    (70, feq (GetFee a4 (FeeConfig (fl 13421773 (-27)) (fl 0 0) (fl 0 0)) (fl 2528395 (-11))) (fl 31 2));
    (75, feq (GetFee a5 (FeeConfig (fl 5368709 (-29)) (fl 0 0) (fl 0 0)) (fl 25 2)) (fl 1 0));
    (76, feq (GetFee a5 (FeeConfig (fl 5368709 (-29)) (fl 0 0) (fl 0 0)) (fl 5 1)) (fl 13421773 (-27)));
    (77, feq (GetFee a5 (FeeConfig (fl 5368709 (-29)) (fl 0 0) (fl 0 0)) (fl 12945383 (-20))) (fl 8285045 (-26)));
    (80, feq (GetFee a6 (FeeConfig (fl 5368709 (-29)) (fl 0 0) (fl 0 0)) (fl 12945383 (-20))) (fl 1090519 (-23)));
    (81, feq (GetFee a6 (FeeConfig (fl 5368709 (-29)) (fl 0 0) (fl 0 0)) (fl 505679 (-12))) (fl 5200937 (-22)));
    (82, feq (GetFee a6 (FeeConfig (fl 5368709 (-29)) (fl 0 0) (fl 0 0)) (fl 2528395 (-11))) (fl 6474957 (-19)));
    (85, feq (GetFee a7 (FeeConfig (fl 5368709 (-29)) (fl 0 0) (fl 0 0)) (fl 12945383 (-20))) (fl 13421773 (-26)));
    (86, feq (GetFee a7 (FeeConfig (fl 5368709 (-29)) (fl 0 0) (fl 0 0)) (fl 505679 (-12))) (fl 5452595 (-22)));
    (87, feq (GetFee a7 (FeeConfig (fl 5368709 (-29)) (fl 0 0) (fl 0 0)) (fl 2528395 (-11))) (fl 6501171 (-19)));
    (90, feq (GetFee a8 (FeeConfig (fl 5368709 (-29)) (fl 0 0) (fl 0 0)) (fl 12945383 (-20))) (fl 1 0));
    (91, feq (GetFee a8 (FeeConfig (fl 5368709 (-29)) (fl 0 0) (fl 0 0)) (fl 505679 (-12))) (fl 1 1));
    (92, feq (GetFee a8 (FeeConfig (fl 5368709 (-29)) (fl 0 0) (fl 0 0)) (fl 2528395 (-11))) (fl 13 0))]).
Check (@eq_refl (outcome (list Z)) (Done []) <: GetFeeTest_RelativeFee = Done []).

(** base/account_test.cc:95-120 TEST(GetFeeTest, FixedFee): 12 checks. *)
Definition GetFeeTest_FixedFee : outcome (list Z) :=
  let a1 := set_quote_unit account0 (fl 0 0) in
  let a2 := set_quote_unit a1 (fl 5368709 (-29)) in
  let a3 := set_quote_unit a2 (fl 13421773 (-27)) in
  let a4 := set_quote_unit a3 (fl 1 0) in
  Done (failures [(102, feq (GetFee a1 (FeeConfig (fl 0 0) (fl 16569179 (-27)) (fl 0 0)) (fl 25 2)) (fl 16569179 (-27)));
    (103, feq (GetFee a1 (FeeConfig (fl 0 0) (fl 16569179 (-27)) (fl 0 0)) (fl 5 1)) (fl 16569179 (-27)));
    (104, feq (GetFee a1 (FeeConfig (fl 0 0) (fl 16569179 (-27)) (fl 0 0)) (fl 12945383 (-20))) (fl 16569179 (-27)));
    (107, feq (GetFee a2 (FeeConfig (fl 0 0) (fl 16569179 (-27)) (fl 0 0)) (fl 12945383 (-20))) (fl 1090519 (-23)));
    (108, feq (GetFee a2 (FeeConfig (fl 0 0) (fl 16569179 (-27)) (fl 0 0)) (fl 505679 (-12))) (fl 1090519 (-23)));
    (109, feq (GetFee a2 (FeeConfig (fl 0 0) (fl 16569179 (-27)) (fl 0 0)) (fl 2528395 (-11))) (fl 1090519 (-23)));
    (112, feq (GetFee a3 (FeeConfig (fl 0 0) (fl 16569179 (-27)) (fl 0 0)) (fl 12945383 (-20))) (fl 13421773 (-26)));
    (113, feq (GetFee a3 (FeeConfig (fl 0 0) (fl 16569179 (-27)) (fl 0 0)) (fl 505679 (-12))) (fl 13421773 (-26)));
    (114, feq (GetFee a3 (FeeConfig (fl 0 0) (fl 16569179 (-27)) (fl 0 0)) (fl 2528395 (-11))) (fl 13421773 (-26)));
    (117, feq (GetFee a4 (FeeConfig (fl 0 0) (fl 16569179 (-27)) (fl 0 0)) (fl 12945383 (-20))) (fl 1 0));
    (118, feq (GetFee a4 (FeeConfig (fl 0 0) (fl 16569179 (-27)) (fl 0 0)) (fl 505679 (-12))) (fl 1 0));
    (119, feq (GetFee a4 (FeeConfig (fl 0 0) (fl 16569179 (-27)) (fl 0 0)) (fl 2528395 (-11))) (fl 1 0))]).
Check (@eq_refl (outcome (list Z)) (Done []) <: GetFeeTest_FixedFee = Done []).

(** base/account_test.cc:122-171 TEST(GetFeeTest, RelativeAndFixedFee): 24 checks. *)
Definition GetFeeTest_RelativeAndFixedFee : outcome (list Z) :=
  let a1 := set_quote_unit account0 (fl 0 0) in
  let a2 := set_quote_unit a1 (fl 5368709 (-29)) in
  let a3 := set_quote_unit a2 (fl 13421773 (-27)) in
  let a4 := set_quote_unit a3 (fl 1 0) in
  let a5 := set_quote_unit a4 (fl 0 0) in
  let a6 := set_quote_unit a5 (fl 5368709 (-29)) in
  let a7 := set_quote_unit a6 (fl 13421773 (-27)) in
  let a8 := set_quote_unit a7 (fl 1 0) in
  Done (failures [(130, feq (GetFee a1 (FeeConfig (fl 13421773 (-27)) (fl 13421773 (-27)) (fl 0 0)) (fl 25 2)) (fl 5295309 (-19)));
    (131, feq (GetFee a1 (FeeConfig (fl 13421773 (-27)) (fl 13421773 (-27)) (fl 0 0)) (fl 5 1)) (fl 9227469 (-23)));
    (132, feq (GetFee a1 (FeeConfig (fl 13421773 (-27)) (fl 13421773 (-27)) (fl 0 0)) (fl 12945383 (-20))) (fl 11195167 (-23)));
    (135, feq (GetFee a2 (FeeConfig (fl 13421773 (-27)) (fl 13421773 (-27)) (fl 0 0)) (fl 12945383 (-20))) (fl 11240735 (-23)));
    (136, feq (GetFee a2 (FeeConfig (fl 13421773 (-27)) (fl 13421773 (-27)) (fl 0 0)) (fl 505679 (-12))) (fl 13054771 (-20)));
    (137, feq (GetFee a2 (FeeConfig (fl 13421773 (-27)) (fl 13421773 (-27)) (fl 0 0)) (fl 2528395 (-11))) (fl 2024407 (-14)));
    (140, feq (GetFee a3 (FeeConfig (fl 13421773 (-27)) (fl 13421773 (-27)) (fl 0 0)) (fl 12945383 (-20))) (fl 11744051 (-23)));
    (141, feq (GetFee a3 (FeeConfig (fl 13421773 (-27)) (fl 13421773 (-27)) (fl 0 0)) (fl 505679 (-12))) (fl 25 (-1)));
    (142, feq (GetFee a3 (FeeConfig (fl 13421773 (-27)) (fl 13421773 (-27)) (fl 0 0)) (fl 2528395 (-11))) (fl 16200499 (-17)));
    (145, feq (GetFee a4 (FeeConfig (fl 13421773 (-27)) (fl 13421773 (-27)) (fl 0 0)) (fl 12945383 (-20))) (fl 1 1));
    (146, feq (GetFee a4 (FeeConfig (fl 13421773 (-27)) (fl 13421773 (-27)) (fl 0 0)) (fl 505679 (-12))) (fl 13 0));
    (147, feq (GetFee a4 (FeeConfig (fl 13421773 (-27)) (fl 13421773 (-27)) (fl 0 0)) (fl 2528395 (-11))) (fl 31 2));
    (153, feq (GetFee a5 (FeeConfig (fl 5368709 (-29)) (fl 1 0) (fl 0 0)) (fl 25 2)) (fl 1 1));
    (154, feq (GetFee a5 (FeeConfig (fl 5368709 (-29)) (fl 1 0) (fl 0 0)) (fl 5 1)) (fl 9227469 (-23)));
    (155, feq (GetFee a5 (FeeConfig (fl 5368709 (-29)) (fl 1 0) (fl 0 0)) (fl 12945383 (-20))) (fl 9424239 (-23)));
    (158, feq (GetFee a6 (FeeConfig (fl 5368709 (-29)) (fl 1 0) (fl 0 0)) (fl 12945383 (-20))) (fl 9479127 (-23)));
    (159, feq (GetFee a6 (FeeConfig (fl 5368709 (-29)) (fl 1 0) (fl 0 0)) (fl 505679 (-12))) (fl 9395241 (-22)));
    (160, feq (GetFee a6 (FeeConfig (fl 5368709 (-29)) (fl 1 0) (fl 0 0)) (fl 2528395 (-11))) (fl 6999245 (-19)));
    (163, feq (GetFee a7 (FeeConfig (fl 5368709 (-29)) (fl 1 0) (fl 0 0)) (fl 12945383 (-20))) (fl 5033165 (-22)));
    (164, feq (GetFee a7 (FeeConfig (fl 5368709 (-29)) (fl 1 0) (fl 0 0)) (fl 505679 (-12))) (fl 9646899 (-22)));
    (165, feq (GetFee a7 (FeeConfig (fl 5368709 (-29)) (fl 1 0) (fl 0 0)) (fl 2528395 (-11))) (fl 7025459 (-19)));
    (168, feq (GetFee a8 (FeeConfig (fl 5368709 (-29)) (fl 1 0) (fl 0 0)) (fl 12945383 (-20))) (fl 1 1));
    (169, feq (GetFee a8 (FeeConfig (fl 5368709 (-29)) (fl 1 0) (fl 0 0)) (fl 505679 (-12))) (fl 3 0));
    (170, feq (GetFee a8 (FeeConfig (fl 5368709 (-29)) (fl 1 0) (fl 0 0)) (fl 2528395 (-11))) (fl 7 1))]).
Check (@eq_refl (outcome (list Z)) (Done []) <: GetFeeTest_RelativeAndFixedFee = Done []).

(** base/account_test.cc:173-222 TEST(GetFeeTest, RelativeAndMinimumFee): 24 checks. *)
Definition GetFeeTest_RelativeAndMinimumFee : outcome (list Z) :=
  let a1 := set_quote_unit account0 (fl 0 0) in
  let a2 := set_quote_unit a1 (fl 5368709 (-29)) in
  let a3 := set_quote_unit a2 (fl 13421773 (-27)) in
  let a4 := set_quote_unit a3 (fl 1 0) in
  let a5 := set_quote_unit a4 (fl 0 0) in
  let a6 := set_quote_unit a5 (fl 5368709 (-29)) in
  let a7 := set_quote_unit a6 (fl 13421773 (-27)) in
  let a8 := set_quote_unit a7 (fl 1 0) in
  Done (failures [(181, feq (GetFee a1 (FeeConfig (fl 13421773 (-27)) (fl 0 0) (fl 1 1)) (fl 25 2)) (fl 5 1));
    (182, feq (GetFee a1 (FeeConfig (fl 13421773 (-27)) (fl 0 0) (fl 1 1)) (fl 5 1)) (fl 1 1));
    (183, feq (GetFee a1 (FeeConfig (fl 13421773 (-27)) (fl 0 0) (fl 1 1)) (fl 12945383 (-20))) (fl 1 1));
    (186, feq (GetFee a2 (FeeConfig (fl 13421773 (-27)) (fl 0 0) (fl 1 1)) (fl 12945383 (-20))) (fl 1 1));
    (187, feq (GetFee a2 (FeeConfig (fl 13421773 (-27)) (fl 0 0) (fl 1 1)) (fl 505679 (-12))) (fl 6474957 (-19)));
    (188, feq (GetFee a2 (FeeConfig (fl 13421773 (-27)) (fl 0 0) (fl 1 1)) (fl 2528395 (-11))) (fl 16182149 (-17)));
    (191, feq (GetFee a3 (FeeConfig (fl 13421773 (-27)) (fl 0 0) (fl 1 1)) (fl 12945383 (-20))) (fl 1 1));
    (192, feq (GetFee a3 (FeeConfig (fl 13421773 (-27)) (fl 0 0) (fl 1 1)) (fl 505679 (-12))) (fl 6501171 (-19)));
    (193, feq (GetFee a3 (FeeConfig (fl 13421773 (-27)) (fl 0 0) (fl 1 1)) (fl 2528395 (-11))) (fl 247 (-1)));
    (196, feq (GetFee a4 (FeeConfig (fl 13421773 (-27)) (fl 0 0) (fl 1 1)) (fl 12945383 (-20))) (fl 1 1));
    (197, feq (GetFee a4 (FeeConfig (fl 13421773 (-27)) (fl 0 0) (fl 1 1)) (fl 505679 (-12))) (fl 13 0));
    (198, feq (GetFee a4 (FeeConfig (fl 13421773 (-27)) (fl 0 0) (fl 1 1)) (fl 2528395 (-11))) (fl 31 2));
    (204, feq (GetFee a5 (FeeConfig (fl 5368709 (-29)) (fl 0 0) (fl 1 (-1))) (fl 25 2)) (fl 1 0));
    (205, feq (GetFee a5 (FeeConfig (fl 5368709 (-29)) (fl 0 0) (fl 1 (-1))) (fl 5 1)) (fl 1 (-1)));
    (206, feq (GetFee a5 (FeeConfig (fl 5368709 (-29)) (fl 0 0) (fl 1 (-1))) (fl 12945383 (-20))) (fl 1 (-1)));
    (209, feq (GetFee a6 (FeeConfig (fl 5368709 (-29)) (fl 0 0) (fl 1 (-1))) (fl 12945383 (-20))) (fl 1 (-1)));
    (210, feq (GetFee a6 (FeeConfig (fl 5368709 (-29)) (fl 0 0) (fl 1 (-1))) (fl 505679 (-12))) (fl 5200937 (-22)));
    (211, feq (GetFee a6 (FeeConfig (fl 5368709 (-29)) (fl 0 0) (fl 1 (-1))) (fl 2528395 (-11))) (fl 6474957 (-19)));
    (214, feq (GetFee a7 (FeeConfig (fl 5368709 (-29)) (fl 0 0) (fl 1 (-1))) (fl 12945383 (-20))) (fl 1 (-1)));
    (215, feq (GetFee a7 (FeeConfig (fl 5368709 (-29)) (fl 0 0) (fl 1 (-1))) (fl 505679 (-12))) (fl 5452595 (-22)));
    (216, feq (GetFee a7 (FeeConfig (fl 5368709 (-29)) (fl 0 0) (fl 1 (-1))) (fl 2528395 (-11))) (fl 6501171 (-19)));
    (219, feq (GetFee a8 (FeeConfig (fl 5368709 (-29)) (fl 0 0) (fl 1 (-1))) (fl 12945383 (-20))) (fl 1 0));
    (220, feq (GetFee a8 (FeeConfig (fl 5368709 (-29)) (fl 0 0) (fl 1 (-1))) (fl 505679 (-12))) (fl 1 1));
    (221, feq (GetFee a8 (FeeConfig (fl 5368709 (-29)) (fl 0 0) (fl 1 (-1))) (fl 2528395 (-11))) (fl 13 0))]).
Check (@eq_refl (outcome (list Z)) (Done []) <: GetFeeTest_RelativeAndMinimumFee = Done []).

(** base/account_test.cc:224-275 TEST(GetFeeTest, RelativeAndFixedAndMinimumFee): 24 checks. *)
Definition GetFeeTest_RelativeAndFixedAndMinimumFee : outcome (list Z) :=
  let a1 := set_quote_unit account0 (fl 0 0) in
  let a2 := set_quote_unit a1 (fl 5368709 (-29)) in
  let a3 := set_quote_unit a2 (fl 13421773 (-27)) in
  let a4 := set_quote_unit a3 (fl 1 0) in
  let a5 := set_quote_unit a4 (fl 0 0) in
  let a6 := set_quote_unit a5 (fl 5368709 (-29)) in
  let a7 := set_quote_unit a6 (fl 13421773 (-27)) in
  let a8 := set_quote_unit a7 (fl 1 0) in
  Done (failures [(233, feq (GetFee a1 (FeeConfig (fl 13421773 (-27)) (fl 13421773 (-27)) (fl 1 1)) (fl 25 2)) (fl 5295309 (-19)));
    (234, feq (GetFee a1 (FeeConfig (fl 13421773 (-27)) (fl 13421773 (-27)) (fl 1 1)) (fl 5 1)) (fl 1 1));
    (235, feq (GetFee a1 (FeeConfig (fl 13421773 (-27)) (fl 13421773 (-27)) (fl 1 1)) (fl 12945383 (-20))) (fl 1 1));
    (238, feq (GetFee a2 (FeeConfig (fl 13421773 (-27)) (fl 13421773 (-27)) (fl 1 1)) (fl 12945383 (-20))) (fl 1 1));
    (239, feq (GetFee a2 (FeeConfig (fl 13421773 (-27)) (fl 13421773 (-27)) (fl 1 1)) (fl 505679 (-12))) (fl 13054771 (-20)));
    (240, feq (GetFee a2 (FeeConfig (fl 13421773 (-27)) (fl 13421773 (-27)) (fl 1 1)) (fl 2528395 (-11))) (fl 2024407 (-14)));
    (243, feq (GetFee a3 (FeeConfig (fl 13421773 (-27)) (fl 13421773 (-27)) (fl 1 1)) (fl 12945383 (-20))) (fl 1 1));
    (244, feq (GetFee a3 (FeeConfig (fl 13421773 (-27)) (fl 13421773 (-27)) (fl 1 1)) (fl 505679 (-12))) (fl 25 (-1)));
    (245, feq (GetFee a3 (FeeConfig (fl 13421773 (-27)) (fl 13421773 (-27)) (fl 1 1)) (fl 2528395 (-11))) (fl 16200499 (-17)));
    (248, feq (GetFee a4 (FeeConfig (fl 13421773 (-27)) (fl 13421773 (-27)) (fl 1 1)) (fl 12945383 (-20))) (fl 1 1));
    (249, feq (GetFee a4 (FeeConfig (fl 13421773 (-27)) (fl 13421773 (-27)) (fl 1 1)) (fl 505679 (-12))) (fl 13 0));
    (250, feq (GetFee a4 (FeeConfig (fl 13421773 (-27)) (fl 13421773 (-27)) (fl 1 1)) (fl 2528395 (-11))) (fl 31 2));
    (257, feq (GetFee a5 (FeeConfig (fl 5368709 (-29)) (fl 1 0) (fl 3 (-1))) (fl 25 2)) (fl 1 1));
    (258, feq (GetFee a5 (FeeConfig (fl 5368709 (-29)) (fl 1 0) (fl 3 (-1))) (fl 5 1)) (fl 3 (-1)));
    (259, feq (GetFee a5 (FeeConfig (fl 5368709 (-29)) (fl 1 0) (fl 3 (-1))) (fl 12945383 (-20))) (fl 3 (-1)));
    (262, feq (GetFee a6 (FeeConfig (fl 5368709 (-29)) (fl 1 0) (fl 3 (-1))) (fl 12945383 (-20))) (fl 3 (-1)));
    (263, feq (GetFee a6 (FeeConfig (fl 5368709 (-29)) (fl 1 0) (fl 3 (-1))) (fl 505679 (-12))) (fl 9395241 (-22)));
    (264, feq (GetFee a6 (FeeConfig (fl 5368709 (-29)) (fl 1 0) (fl 3 (-1))) (fl 2528395 (-11))) (fl 6999245 (-19)));
    (267, feq (GetFee a7 (FeeConfig (fl 5368709 (-29)) (fl 1 0) (fl 3 (-1))) (fl 12945383 (-20))) (fl 3 (-1)));
    (268, feq (GetFee a7 (FeeConfig (fl 5368709 (-29)) (fl 1 0) (fl 3 (-1))) (fl 505679 (-12))) (fl 9646899 (-22)));
    (269, feq (GetFee a7 (FeeConfig (fl 5368709 (-29)) (fl 1 0) (fl 3 (-1))) (fl 2528395 (-11))) (fl 7025459 (-19)));
    (272, feq (GetFee a8 (FeeConfig (fl 5368709 (-29)) (fl 1 0) (fl 3 (-1))) (fl 12945383 (-20))) (fl 1 1));
    (273, feq (GetFee a8 (FeeConfig (fl 5368709 (-29)) (fl 1 0) (fl 3 (-1))) (fl 505679 (-12))) (fl 3 0));
    (274, feq (GetFee a8 (FeeConfig (fl 5368709 (-29)) (fl 1 0) (fl 3 (-1))) (fl 2528395 (-11))) (fl 7 1))]).
Check (@eq_refl (outcome (list Z)) (Done []) <: GetFeeTest_RelativeAndFixedAndMinimumFee = Done []).

(** base/account_test.cc:277-290 TEST(GetPriceTest, MarketBuy): 3 checks. *)
Definition GetPriceTest_MarketBuy : outcome (list Z) :=
  let a1 := set_market_liquidity account0 (fl 1 0) in
  let a2 := set_market_liquidity a1 (fl 0 0) in
  let a3 := set_market_liquidity a2 (fl 1 (-1)) in
  Done (failures [(283, feq (GetMarketBuyPrice a1 (OhlcTick 0 (fl 5 1) (fl 5 2) (fl 1 1) (fl 15 0) (fl 2528379 (-11)))) (fl 5 1));
    (286, feq (GetMarketBuyPrice a2 (OhlcTick 0 (fl 5 1) (fl 5 2) (fl 1 1) (fl 15 0) (fl 2528379 (-11)))) (fl 5 2));
    (289, feq (GetMarketBuyPrice a3 (OhlcTick 0 (fl 5 1) (fl 5 2) (fl 1 1) (fl 15 0) (fl 2528379 (-11)))) (fl 15 0))]).
Check (@eq_refl (outcome (list Z)) (Done []) <: GetPriceTest_MarketBuy = Done []).

(** base/account_test.cc:292-305 TEST(GetPriceTest, MarketSell): 3 checks. *)
Definition GetPriceTest_MarketSell : outcome (list Z) :=
  let a1 := set_market_liquidity account0 (fl 1 0) in
  let a2 := set_market_liquidity a1 (fl 0 0) in
  let a3 := set_market_liquidity a2 (fl 1 (-1)) in
  Done (failures [(298, feq (GetMarketSellPrice a1 (OhlcTick 0 (fl 5 1) (fl 5 2) (fl 1 1) (fl 15 0) (fl 2528379 (-11)))) (fl 5 1));
    (301, feq (GetMarketSellPrice a2 (OhlcTick 0 (fl 5 1) (fl 5 2) (fl 1 1) (fl 15 0) (fl 2528379 (-11)))) (fl 1 1));
    (304, feq (GetMarketSellPrice a3 (OhlcTick 0 (fl 5 1) (fl 5 2) (fl 1 1) (fl 15 0) (fl 2528379 (-11)))) (fl 3 1))]).
Check (@eq_refl (outcome (list Z)) (Done []) <: GetPriceTest_MarketSell = Done []).

(** base/account_test.cc:307-329 TEST(GetPriceTest, StopBuy): 9 checks. *)
Definition GetPriceTest_StopBuy : outcome (list Z) :=
  let a1 := set_market_liquidity account0 (fl 1 0) in
  let a2 := set_market_liquidity a1 (fl 0 0) in
  let a3 := set_market_liquidity a2 (fl 1 (-1)) in
  Done (failures [(313, feq (GetStopBuyPrice a1 (OhlcTick 0 (fl 5 1) (fl 5 2) (fl 1 1) (fl 15 0) (fl 2528379 (-11))) (fl 5 0)) (fl 5 1));
    (315, feq (GetStopBuyPrice a1 (OhlcTick 0 (fl 5 1) (fl 5 2) (fl 1 1) (fl 15 0) (fl 2528379 (-11))) (fl 5 1)) (fl 5 1));
    (316, feq (GetStopBuyPrice a1 (OhlcTick 0 (fl 5 1) (fl 5 2) (fl 1 1) (fl 15 0) (fl 2528379 (-11))) (fl 15 0)) (fl 15 0));
    (319, feq (GetStopBuyPrice a2 (OhlcTick 0 (fl 5 1) (fl 5 2) (fl 1 1) (fl 15 0) (fl 2528379 (-11))) (fl 5 0)) (fl 5 2));
    (321, feq (GetStopBuyPrice a2 (OhlcTick 0 (fl 5 1) (fl 5 2) (fl 1 1) (fl 15 0) (fl 2528379 (-11))) (fl 5 1)) (fl 5 2));
    (322, feq (GetStopBuyPrice a2 (OhlcTick 0 (fl 5 1) (fl 5 2) (fl 1 1) (fl 15 0) (fl 2528379 (-11))) (fl 15 0)) (fl 5 2));
    (325, feq (GetStopBuyPrice a3 (OhlcTick 0 (fl 5 1) (fl 5 2) (fl 1 1) (fl 15 0) (fl 2528379 (-11))) (fl 5 0)) (fl 15 0));
    (327, feq (GetStopBuyPrice a3 (OhlcTick 0 (fl 5 1) (fl 5 2) (fl 1 1) (fl 15 0) (fl 2528379 (-11))) (fl 5 1)) (fl 15 0));
    (328, feq (GetStopBuyPrice a3 (OhlcTick 0 (fl 5 1) (fl 5 2) (fl 1 1) (fl 15 0) (fl 2528379 (-11))) (fl 15 0)) (fl 35 (-1)))]).
Check (@eq_refl (outcome (list Z)) (Done []) <: GetPriceTest_StopBuy = Done []).

(** base/account_test.cc:331-353 TEST(GetPriceTest, StopSell): 9 checks. *)
Definition GetPriceTest_StopSell : outcome (list Z) :=
  let a1 := set_market_liquidity account0 (fl 1 0) in
  let a2 := set_market_liquidity a1 (fl 0 0) in
  let a3 := set_market_liquidity a2 (fl 1 (-1)) in
  Done (failures [(337, feq (GetStopSellPrice a1 (OhlcTick 0 (fl 5 1) (fl 5 2) (fl 1 1) (fl 15 0) (fl 2528379 (-11))) (fl 15 0)) (fl 5 1));
    (339, feq (GetStopSellPrice a1 (OhlcTick 0 (fl 5 1) (fl 5 2) (fl 1 1) (fl 15 0) (fl 2528379 (-11))) (fl 5 1)) (fl 5 1));
    (340, feq (GetStopSellPrice a1 (OhlcTick 0 (fl 5 1) (fl 5 2) (fl 1 1) (fl 15 0) (fl 2528379 (-11))) (fl 5 0)) (fl 5 0));
    (343, feq (GetStopSellPrice a2 (OhlcTick 0 (fl 5 1) (fl 5 2) (fl 1 1) (fl 15 0) (fl 2528379 (-11))) (fl 15 0)) (fl 1 1));
    (345, feq (GetStopSellPrice a2 (OhlcTick 0 (fl 5 1) (fl 5 2) (fl 1 1) (fl 15 0) (fl 2528379 (-11))) (fl 5 1)) (fl 1 1));
    (346, feq (GetStopSellPrice a2 (OhlcTick 0 (fl 5 1) (fl 5 2) (fl 1 1) (fl 15 0) (fl 2528379 (-11))) (fl 5 0)) (fl 1 1));
    (349, feq (GetStopSellPrice a3 (OhlcTick 0 (fl 5 1) (fl 5 2) (fl 1 1) (fl 15 0) (fl 2528379 (-11))) (fl 15 0)) (fl 3 1));
    (351, feq (GetStopSellPrice a3 (OhlcTick 0 (fl 5 1) (fl 5 2) (fl 1 1) (fl 15 0) (fl 2528379 (-11))) (fl 5 1)) (fl 3 1));
    (352, feq (GetStopSellPrice a3 (OhlcTick 0 (fl 5 1) (fl 5 2) (fl 1 1) (fl 15 0) (fl 2528379 (-11))) (fl 5 0)) (fl 7 (-1)))]).
Check (@eq_refl (outcome (list Z)) (Done []) <: GetPriceTest_StopSell = Done []).

(** base/account_test.cc:355-381 TEST(GetMaxBaseAmountTest, Basic): 6 checks. *)
Definition GetMaxBaseAmountTest_Basic : outcome (list Z) :=
  let a1 := set_max_volume_ratio account0 (fl 0 0) in
  let a2 := set_base_unit a1 (fl 0 0) in
  let a3 := set_max_volume_ratio a2 (fl 13421773 (-27)) in
  let a4 := set_max_volume_ratio a3 (fl 5368709 (-29)) in
  let a5 := set_max_volume_ratio a4 (fl 0 0) in
  let a6 := set_base_unit a5 (fl 13421773 (-27)) in
  let a7 := set_max_volume_ratio a6 (fl 13421773 (-27)) in
  let a8 := set_max_volume_ratio a7 (fl 5368709 (-29)) in
  Done (failures [(364, feq (GetMaxBaseAmount a2 (OhlcTick 0 (fl 5 1) (fl 5 2) (fl 1 1) (fl 15 0) (fl 2528379 (-11)))) (fl 16777215 104));
    (367, feq (GetMaxBaseAmount a3 (OhlcTick 0 (fl 5 1) (fl 5 2) (fl 1 1) (fl 15 0) (fl 2528379 (-11)))) (fl 16181625 (-17)));
    (370, feq (GetMaxBaseAmount a4 (OhlcTick 0 (fl 5 1) (fl 5 2) (fl 1 1) (fl 15 0) (fl 2528379 (-11)))) (fl 3236325 (-18)));
    (374, feq (GetMaxBaseAmount a6 (OhlcTick 0 (fl 5 1) (fl 5 2) (fl 1 1) (fl 15 0) (fl 2528379 (-11)))) (fl 16777215 104));
    (377, feq (GetMaxBaseAmount a7 (OhlcTick 0 (fl 5 1) (fl 5 2) (fl 1 1) (fl 15 0) (fl 2528379 (-11)))) (fl 16174285 (-17)));
    (380, feq (GetMaxBaseAmount a8 (OhlcTick 0 (fl 5 1) (fl 5 2) (fl 1 1) (fl 15 0) (fl 2528379 (-11)))) (fl 12897485 (-20)))]).
Check (@eq_refl (outcome (list Z)) (Done []) <: GetMaxBaseAmountTest_Basic = Done []).

(** base/account_test.cc:383-422 TEST(BuyTest, BuyWithoutFeeAndInfinitePrecision): 16 checks. *)
Definition BuyTest_BuyWithoutFeeAndInfinitePrecision : outcome (list Z) :=
  let a1 := set_base_balance account0 (fl 5 1) in
  let a2 := set_quote_balance a1 (fl 125 3) in
  do r3 <- BuyBase (FeeConfig (fl 0 0) (fl 0 0) (fl 0 0)) (fl 5 0) (fl 5 1) a2 ;
  let a4 := snd r3 in
  let a5 := set_base_balance a4 (fl 5 1) in
  let a6 := set_quote_balance a5 (fl 25 2) in
  do r7 <- BuyBase (FeeConfig (fl 0 0) (fl 0 0) (fl 0 0)) (fl 5 1) (fl 5 1) a6 ;
  let a8 := snd r7 in
  let a9 := set_base_balance a8 (fl 12944671 (-20)) in
  let a10 := set_quote_balance a9 (fl 16181625 (-17)) in
  do r11 <- BuyBase (FeeConfig (fl 0 0) (fl 0 0) (fl 0 0)) (fl 12944671 (-20)) (fl 11 (-1)) a10 ;
  let a12 := snd r11 in
  let a13 := set_base_balance a12 (fl 5 1) in
  let a14 := set_quote_balance a13 (fl 25 2) in
  do r15 <- BuyBase (FeeConfig (fl 0 0) (fl 0 0) (fl 0 0)) (fl 15 0) (fl 5 1) a14 ;
  let a16 := snd r15 in
  Done (failures [(389, (fst r3));
    (392, feq (base_balance a4) (fl 15 0));
    (393, feq (quote_balance a4) (fl 475 1));
    (394, feq (total_fee a4) (fl 0 0));
    (398, (fst r7));
    (401, feq (base_balance a8) (fl 5 2));
    (402, feq (quote_balance a8) (fl 0 0));
    (403, feq (total_fee a8) (fl 0 0));
    (407, (fst r11));
    (410, feq (base_balance a12) (fl 12944671 (-19)));
    (411, feq (quote_balance a12) (fl 14564327 (-18)));
    (412, feq (total_fee a12) (fl 0 0));
    (416, negb ((fst r15)));
    (419, feq (base_balance a16) (fl 5 1));
    (420, feq (quote_balance a16) (fl 25 2));
    (421, feq (total_fee a16) (fl 0 0))]).
Check (@eq_refl (outcome (list Z)) (Done []) <: BuyTest_BuyWithoutFeeAndInfinitePrecision = Done []).

(** base/account_test.cc:424-466 TEST(BuyTest, BuyWithoutFeeAndLimitedPrecision): 16 checks. *)
Definition BuyTest_BuyWithoutFeeAndLimitedPrecision : outcome (list Z) :=
  let a1 := set_base_unit account0 (fl 13421773 (-27)) in
  let a2 := set_quote_unit a1 (fl 1 0) in
  let a3 := set_base_balance a2 (fl 5 1) in
  let a4 := set_quote_balance a3 (fl 125 3) in
  do r5 <- BuyBase (FeeConfig (fl 0 0) (fl 0 0) (fl 0 0)) (fl 5 0) (fl 5 1) a4 ;
  let a6 := snd r5 in
  let a7 := set_base_balance a6 (fl 5 1) in
  let a8 := set_quote_balance a7 (fl 25 2) in
  do r9 <- BuyBase (FeeConfig (fl 0 0) (fl 0 0) (fl 0 0)) (fl 5 1) (fl 5 1) a8 ;
  let a10 := snd r9 in
  let a11 := set_base_balance a10 (fl 12897485 (-20)) in
  let a12 := set_quote_balance a11 (fl 123 0) in
  do r13 <- BuyBase (FeeConfig (fl 0 0) (fl 0 0) (fl 0 0)) (fl 12944671 (-20)) (fl 11 (-1)) a12 ;
  let a14 := snd r13 in
  let a15 := set_base_balance a14 (fl 5 1) in
  let a16 := set_quote_balance a15 (fl 25 2) in
  do r17 <- BuyBase (FeeConfig (fl 0 0) (fl 0 0) (fl 0 0)) (fl 15 0) (fl 5 1) a16 ;
  let a18 := snd r17 in
  Done (failures [(433, (fst r5));
    (436, feq (base_balance a6) (fl 15 0));
    (437, feq (quote_balance a6) (fl 475 1));
    (438, feq (total_fee a6) (fl 0 0));
    (442, (fst r9));
    (445, feq (base_balance a10) (fl 5 2));
    (446, feq (quote_balance a10) (fl 0 0));
    (447, feq (total_fee a10) (fl 0 0));
    (451, (fst r13));
    (454, feq (base_balance a14) (fl 12897485 (-19)));
    (455, feq (quote_balance a14) (fl 55 0));
    (456, feq (total_fee a14) (fl 0 0));
    (460, negb ((fst r17)));
    (463, feq (base_balance a18) (fl 5 1));
    (464, feq (quote_balance a18) (fl 25 2));
    (465, feq (total_fee a18) (fl 0 0))]).
Check (@eq_refl (outcome (list Z)) (Done []) <: BuyTest_BuyWithoutFeeAndLimitedPrecision = Done []).

(** base/account_test.cc:468-518 TEST(BuyTest, BuyWithFeeAndLimitedPrecision): 16 checks. *)
Definition BuyTest_BuyWithFeeAndLimitedPrecision : outcome (list Z) :=
  let a1 := set_base_unit account0 (fl 13421773 (-27)) in
  let a2 := set_quote_unit a1 (fl 1 0) in
  let a3 := set_base_balance a2 (fl 5 1) in
  let a4 := set_quote_balance a3 (fl 125 3) in
  let a5 := set_total_fee a4 (fl 0 0) in
  do r6 <- BuyBase (FeeConfig (fl 13421773 (-27)) (fl 1 0) (fl 3 (-1))) (fl 5 0) (fl 5 1) a5 ;
  let a7 := snd r6 in
  let a8 := set_base_balance a7 (fl 5 1) in
  let a9 := set_quote_balance a8 (fl 111 0) in
  let a10 := set_total_fee a9 (fl 5 1) in
  do r11 <- BuyBase (FeeConfig (fl 13421773 (-27)) (fl 1 0) (fl 3 (-1))) (fl 5 1) (fl 5 1) a10 ;
  let a12 := snd r11 in
  let a13 := set_base_balance a12 (fl 12897485 (-20)) in
  let a14 := set_quote_balance a13 (fl 123 0) in
  let a15 := set_total_fee a14 (fl 0 0) in
  do r16 <- BuyBase (FeeConfig (fl 13421773 (-27)) (fl 1 0) (fl 3 (-1))) (fl 12944671 (-20)) (fl 11 (-1)) a15 ;
  let a17 := snd r16 in
  let a18 := set_base_balance a17 (fl 5 1) in
  let a19 := set_quote_balance a18 (fl 25 2) in
  let a20 := set_total_fee a19 (fl 5 1) in
  do r21 <- BuyBase (FeeConfig (fl 13421773 (-27)) (fl 1 0) (fl 3 (-1))) (fl 15 0) (fl 5 1) a20 ;
  let a22 := snd r21 in
  Done (failures [(482, (fst r6));
    (485, feq (base_balance a7) (fl 15 0));
    (486, feq (quote_balance a7) (fl 59 4));
    (487, feq (total_fee a7) (fl 3 1));
    (492, (fst r11));
    (495, feq (base_balance a12) (fl 5 2));
    (496, feq (quote_balance a12) (fl 0 0));
    (497, feq (total_fee a12) (fl 21 0));
    (502, (fst r16));
    (505, feq (base_balance a17) (fl 12897485 (-19)));
    (506, feq (quote_balance a17) (fl 47 0));
    (507, feq (total_fee a17) (fl 1 3));
    (512, negb ((fst r21)));
    (515, feq (base_balance a22) (fl 5 1));
    (516, feq (quote_balance a22) (fl 25 2));
    (517, feq (total_fee a22) (fl 5 1))]).
Check (@eq_refl (outcome (list Z)) (Done []) <: BuyTest_BuyWithFeeAndLimitedPrecision = Done []).

(** base/account_test.cc:520-599 TEST(BuyTest, BuyAtQuoteWithoutFeeAndInfinitePrecision): 32 checks. *)
Definition BuyTest_BuyAtQuoteWithoutFeeAndInfinitePrecision : outcome (list Z) :=
  let a1 := set_base_balance account0 (fl 5 1) in
  let a2 := set_quote_balance a1 (fl 125 3) in
  do r3 <- BuyAtQuote (FeeConfig (fl 0 0) (fl 0 0) (fl 0 0)) (fl 25 1) (fl 5 1) (fl 16777215 104) a2 ;
  let a4 := snd r3 in
  let a5 := set_base_balance a4 (fl 5 1) in
  let a6 := set_quote_balance a5 (fl 125 3) in
  do r7 <- BuyAtQuote (FeeConfig (fl 0 0) (fl 0 0) (fl 0 0)) (fl 25 1) (fl 5 1) (fl 1 1) a6 ;
  let a8 := snd r7 in
  let a9 := set_base_balance a8 (fl 5 1) in
  let a10 := set_quote_balance a9 (fl 25 2) in
  do r11 <- BuyAtQuote (FeeConfig (fl 0 0) (fl 0 0) (fl 0 0)) (fl 25 2) (fl 5 1) (fl 16777215 104) a10 ;
  let a12 := snd r11 in
  let a13 := set_base_balance a12 (fl 5 1) in
  let a14 := set_quote_balance a13 (fl 25 2) in
  do r15 <- BuyAtQuote (FeeConfig (fl 0 0) (fl 0 0) (fl 0 0)) (fl 25 2) (fl 5 1) (fl 5 0) a14 ;
  let a16 := snd r15 in
  let a17 := set_base_balance a16 (fl 12944671 (-20)) in
  let a18 := set_quote_balance a17 (fl 16181625 (-17)) in
  do r19 <- BuyAtQuote (FeeConfig (fl 0 0) (fl 0 0) (fl 0 0)) (fl 8899461 (-17)) (fl 11 (-1)) (fl 16777215 104) a18 ;
  let a20 := snd r19 in
  let a21 := set_base_balance a20 (fl 12944671 (-20)) in
  let a22 := set_quote_balance a21 (fl 16181625 (-17)) in
  do r23 <- BuyAtQuote (FeeConfig (fl 0 0) (fl 0 0) (fl 0 0)) (fl 8899461 (-17)) (fl 11 (-1)) (fl 5 0) a22 ;
  let a24 := snd r23 in
  let a25 := set_base_balance a24 (fl 5 1) in
  let a26 := set_quote_balance a25 (fl 25 2) in
  do r27 <- BuyAtQuote (FeeConfig (fl 0 0) (fl 0 0) (fl 0 0)) (fl 125 3) (fl 5 1) (fl 16777215 104) a26 ;
  let a28 := snd r27 in
  let a29 := set_base_balance a28 (fl 5 1) in
  let a30 := set_quote_balance a29 (fl 25 2) in
  do r31 <- BuyAtQuote (FeeConfig (fl 0 0) (fl 0 0) (fl 0 0)) (fl 125 3) (fl 5 1) (fl 5 2) a30 ;
  let a32 := snd r31 in
  Done (failures [(526, (fst r3));
    (529, feq (base_balance a4) (fl 15 0));
    (530, feq (quote_balance a4) (fl 475 1));
    (531, feq (total_fee a4) (fl 0 0));
    (535, (fst r7));
    (539, feq (base_balance a8) (fl 3 2));
    (540, feq (quote_balance a8) (fl 245 2));
    (541, feq (total_fee a8) (fl 0 0));
    (545, (fst r11));
    (548, feq (base_balance a12) (fl 5 2));
    (549, feq (quote_balance a12) (fl 0 0));
    (550, feq (total_fee a12) (fl 0 0));
    (554, (fst r15));
    (558, feq (base_balance a16) (fl 15 0));
    (559, feq (quote_balance a16) (fl 25 1));
    (560, feq (total_fee a16) (fl 0 0));
    (564, (fst r19));
    (567, feq (base_balance a20) (fl 12944671 (-19)));
    (568, feq (quote_balance a20) (fl 14564327 (-18)));
    (569, feq (total_fee a20) (fl 0 0));
    (573, (fst r23));
    (577, feq (base_balance a24) (fl 9093775 (-19)));
    (578, feq (quote_balance a24) (fl 12577145 (-17)));
    (579, feq (total_fee a24) (fl 0 0));
    (583, negb ((fst r27)));
    (586, feq (base_balance a28) (fl 5 1));
    (587, feq (quote_balance a28) (fl 25 2));
    (588, feq (total_fee a28) (fl 0 0));
    (592, negb ((fst r31)));
    (596, feq (base_balance a32) (fl 5 1));
    (597, feq (quote_balance a32) (fl 25 2));
    (598, feq (total_fee a32) (fl 0 0))]).
Check (@eq_refl (outcome (list Z)) (Done []) <: BuyTest_BuyAtQuoteWithoutFeeAndInfinitePrecision = Done []).

(** base/account_test.cc:601-683 TEST(BuyTest, BuyAtQuoteWithoutFeeAndLimitedPrecision): 32 checks. *)
Definition BuyTest_BuyAtQuoteWithoutFeeAndLimitedPrecision : outcome (list Z) :=
  let a1 := set_base_unit account0 (fl 13421773 (-27)) in
  let a2 := set_quote_unit a1 (fl 1 0) in
  let a3 := set_base_balance a2 (fl 5 1) in
  let a4 := set_quote_balance a3 (fl 125 3) in
  do r5 <- BuyAtQuote (FeeConfig (fl 0 0) (fl 0 0) (fl 0 0)) (fl 25 1) (fl 5 1) (fl 16777215 104) a4 ;
  let a6 := snd r5 in
  let a7 := set_base_balance a6 (fl 5 1) in
  let a8 := set_quote_balance a7 (fl 125 3) in
  do r9 <- BuyAtQuote (FeeConfig (fl 0 0) (fl 0 0) (fl 0 0)) (fl 25 1) (fl 5 1) (fl 1 1) a8 ;
  let a10 := snd r9 in
  let a11 := set_base_balance a10 (fl 5 1) in
  let a12 := set_quote_balance a11 (fl 25 2) in
  do r13 <- BuyAtQuote (FeeConfig (fl 0 0) (fl 0 0) (fl 0 0)) (fl 25 2) (fl 5 1) (fl 16777215 104) a12 ;
  let a14 := snd r13 in
  let a15 := set_base_balance a14 (fl 5 1) in
  let a16 := set_quote_balance a15 (fl 25 2) in
  do r17 <- BuyAtQuote (FeeConfig (fl 0 0) (fl 0 0) (fl 0 0)) (fl 25 2) (fl 5 1) (fl 5 0) a16 ;
  let a18 := snd r17 in
  let a19 := set_base_balance a18 (fl 12897485 (-20)) in
  let a20 := set_quote_balance a19 (fl 123 0) in
  do r21 <- BuyAtQuote (FeeConfig (fl 0 0) (fl 0 0) (fl 0 0)) (fl 8899461 (-17)) (fl 11 (-1)) (fl 16777215 104) a20 ;
  let a22 := snd r21 in
  let a23 := set_base_balance a22 (fl 12897485 (-20)) in
  let a24 := set_quote_balance a23 (fl 123 0) in
  do r25 <- BuyAtQuote (FeeConfig (fl 0 0) (fl 0 0) (fl 0 0)) (fl 8899461 (-17)) (fl 11 (-1)) (fl 5 0) a24 ;
  let a26 := snd r25 in
  let a27 := set_base_balance a26 (fl 5 1) in
  let a28 := set_quote_balance a27 (fl 25 2) in
  do r29 <- BuyAtQuote (FeeConfig (fl 0 0) (fl 0 0) (fl 0 0)) (fl 125 3) (fl 5 1) (fl 16777215 104) a28 ;
  let a30 := snd r29 in
  let a31 := set_base_balance a30 (fl 5 1) in
  let a32 := set_quote_balance a31 (fl 25 2) in
  do r33 <- BuyAtQuote (FeeConfig (fl 0 0) (fl 0 0) (fl 0 0)) (fl 125 3) (fl 5 1) (fl 5 2) a32 ;
  let a34 := snd r33 in
  Done (failures [(610, (fst r5));
    (613, feq (base_balance a6) (fl 15 0));
    (614, feq (quote_balance a6) (fl 475 1));
    (615, feq (total_fee a6) (fl 0 0));
    (619, (fst r9));
    (623, feq (base_balance a10) (fl 3 2));
    (624, feq (quote_balance a10) (fl 245 2));
    (625, feq (total_fee a10) (fl 0 0));
    (629, (fst r13));
    (632, feq (base_balance a14) (fl 5 2));
    (633, feq (quote_balance a14) (fl 0 0));
    (634, feq (total_fee a14) (fl 0 0));
    (638, (fst r17));
    (642, feq (base_balance a18) (fl 15 0));
    (643, feq (quote_balance a18) (fl 25 1));
    (644, feq (total_fee a18) (fl 0 0));
    (648, (fst r21));
    (651, feq (base_balance a22) (fl 12897485 (-19)));
    (652, feq (quote_balance a22) (fl 55 0));
    (653, feq (total_fee a22) (fl 0 0));
    (657, (fst r25));
    (661, feq (base_balance a26) (fl 4535091 (-18)));
    (662, feq (quote_balance a26) (fl 95 0));
    (663, feq (total_fee a26) (fl 0 0));
    (667, negb ((fst r29)));
    (670, feq (base_balance a30) (fl 5 1));
    (671, feq (quote_balance a30) (fl 25 2));
    (672, feq (total_fee a30) (fl 0 0));
    (676, negb ((fst r33)));
    (680, feq (base_balance a34) (fl 5 1));
    (681, feq (quote_balance a34) (fl 25 2));
    (682, feq (total_fee a34) (fl 0 0))]).
Check (@eq_refl (outcome (list Z)) (Done []) <: BuyTest_BuyAtQuoteWithoutFeeAndLimitedPrecision = Done []).

(** base/account_test.cc:685-779 TEST(BuyTest, BuyAtQuoteWithFeeAndLimitedPrecision): 32 checks. *)
Definition BuyTest_BuyAtQuoteWithFeeAndLimitedPrecision : outcome (list Z) :=
  let a1 := set_base_unit account0 (fl 13421773 (-27)) in
  let a2 := set_quote_unit a1 (fl 1 0) in
  let a3 := set_base_balance a2 (fl 5 1) in
  let a4 := set_quote_balance a3 (fl 125 3) in
  let a5 := set_total_fee a4 (fl 0 0) in
  do r6 <- BuyAtQuote (FeeConfig (fl 13421773 (-27)) (fl 1 0) (fl 3 (-1))) (fl 57 0) (fl 5 1) (fl 16777215 104) a5 ;
  let a7 := snd r6 in
  let a8 := set_base_balance a7 (fl 5 1) in
  let a9 := set_quote_balance a8 (fl 125 3) in
  let a10 := set_total_fee a9 (fl 0 0) in
  do r11 <- BuyAtQuote (FeeConfig (fl 13421773 (-27)) (fl 1 0) (fl 3 (-1))) (fl 57 0) (fl 5 1) (fl 1 1) a10 ;
  let a12 := snd r11 in
  let a13 := set_base_balance a12 (fl 5 1) in
  let a14 := set_quote_balance a13 (fl 111 0) in
  let a15 := set_total_fee a14 (fl 5 1) in
  do r16 <- BuyAtQuote (FeeConfig (fl 13421773 (-27)) (fl 1 0) (fl 3 (-1))) (fl 111 0) (fl 5 1) (fl 16777215 104) a15 ;
  let a17 := snd r16 in
  let a18 := set_base_balance a17 (fl 5 1) in
  let a19 := set_quote_balance a18 (fl 111 0) in
  let a20 := set_total_fee a19 (fl 5 1) in
  do r21 <- BuyAtQuote (FeeConfig (fl 13421773 (-27)) (fl 1 0) (fl 3 (-1))) (fl 111 0) (fl 5 1) (fl 5 0) a20 ;
  let a22 := snd r21 in
  let a23 := set_base_balance a22 (fl 12897485 (-20)) in
  let a24 := set_quote_balance a23 (fl 123 0) in
  let a25 := set_total_fee a24 (fl 0 0) in
  do r26 <- BuyAtQuote (FeeConfig (fl 13421773 (-27)) (fl 1 0) (fl 3 (-1))) (fl 4988797 (-16)) (fl 11 (-1)) (fl 16777215 104) a25 ;
  let a27 := snd r26 in
  let a28 := set_base_balance a27 (fl 12897485 (-20)) in
  let a29 := set_quote_balance a28 (fl 123 0) in
  let a30 := set_total_fee a29 (fl 0 0) in
  do r31 <- BuyAtQuote (FeeConfig (fl 13421773 (-27)) (fl 1 0) (fl 3 (-1))) (fl 4988797 (-16)) (fl 11 (-1)) (fl 5 0) a30 ;
  let a32 := snd r31 in
  let a33 := set_base_balance a32 (fl 5 1) in
  let a34 := set_quote_balance a33 (fl 25 2) in
  let a35 := set_total_fee a34 (fl 5 1) in
  do r36 <- BuyAtQuote (FeeConfig (fl 13421773 (-27)) (fl 1 0) (fl 3 (-1))) (fl 125 3) (fl 5 1) (fl 16777215 104) a35 ;
  let a37 := snd r36 in
  let a38 := set_base_balance a37 (fl 5 1) in
  let a39 := set_quote_balance a38 (fl 25 2) in
  let a40 := set_total_fee a39 (fl 5 1) in
  do r41 <- BuyAtQuote (FeeConfig (fl 13421773 (-27)) (fl 1 0) (fl 3 (-1))) (fl 125 3) (fl 5 1) (fl 5 0) a40 ;
  let a42 := snd r41 in
  Done (failures [(699, (fst r6));
    (702, feq (base_balance a7) (fl 15 0));
    (703, feq (quote_balance a7) (fl 59 4));
    (704, feq (total_fee a7) (fl 3 1));
    (709, (fst r11));
    (713, feq (base_balance a12) (fl 3 2));
    (714, feq (quote_balance a12) (fl 977 0));
    (715, feq (total_fee a12) (fl 3 0));
    (720, (fst r16));
    (723, feq (base_balance a17) (fl 5190451 (-18)));
    (724, feq (quote_balance a17) (fl 1 1));
    (725, feq (total_fee a17) (fl 21 0));
    (730, (fst r21));
    (734, feq (base_balance a22) (fl 15 0));
    (735, feq (quote_balance a22) (fl 55 0));
    (736, feq (total_fee a22) (fl 1 4));
    (741, (fst r26));
    (744, feq (base_balance a27) (fl 12792627 (-19)));
    (745, feq (quote_balance a27) (fl 3 4));
    (746, feq (total_fee a27) (fl 1 3));
    (751, (fst r31));
    (755, feq (base_balance a32) (fl 4535091 (-18)));
    (756, feq (quote_balance a32) (fl 91 0));
    (757, feq (total_fee a32) (fl 1 2));
    (762, negb ((fst r36)));
    (765, feq (base_balance a37) (fl 5 1));
    (766, feq (quote_balance a37) (fl 25 2));
    (767, feq (total_fee a37) (fl 5 1));
    (772, negb ((fst r41)));
    (776, feq (base_balance a42) (fl 5 1));
    (777, feq (quote_balance a42) (fl 25 2));
    (778, feq (total_fee a42) (fl 5 1))]).
Check (@eq_refl (outcome (list Z)) (Done []) <: BuyTest_BuyAtQuoteWithFeeAndLimitedPrecision = Done []).

(** base/account_test.cc:781-820 TEST(SellTest, SellWithoutFeeAndInfinitePrecision): 16 checks. *)
Definition SellTest_SellWithoutFeeAndInfinitePrecision : outcome (list Z) :=
  let a1 := set_base_balance account0 (fl 15 0) in
  let a2 := set_quote_balance a1 (fl 475 1) in
  do r3 <- SellBase (FeeConfig (fl 0 0) (fl 0 0) (fl 0 0)) (fl 5 0) (fl 5 1) a2 ;
  let a4 := snd r3 in
  let a5 := set_base_balance a4 (fl 5 2) in
  let a6 := set_quote_balance a5 (fl 0 0) in
  do r7 <- SellBase (FeeConfig (fl 0 0) (fl 0 0) (fl 0 0)) (fl 5 1) (fl 5 1) a6 ;
  let a8 := snd r7 in
  let a9 := set_base_balance a8 (fl 12944671 (-19)) in
  let a10 := set_quote_balance a9 (fl 14564327 (-18)) in
  do r11 <- SellBase (FeeConfig (fl 0 0) (fl 0 0) (fl 0 0)) (fl 12944671 (-20)) (fl 11 (-1)) a10 ;
  let a12 := snd r11 in
  let a13 := set_base_balance a12 (fl 5 1) in
  let a14 := set_quote_balance a13 (fl 25 2) in
  do r15 <- SellBase (FeeConfig (fl 0 0) (fl 0 0) (fl 0 0)) (fl 15 0) (fl 5 1) a14 ;
  let a16 := snd r15 in
  Done (failures [(787, (fst r3));
    (790, feq (base_balance a4) (fl 5 1));
    (791, feq (quote_balance a4) (fl 125 3));
    (792, feq (total_fee a4) (fl 0 0));
    (796, (fst r7));
    (799, feq (base_balance a8) (fl 5 1));
    (800, feq (quote_balance a8) (fl 25 2));
    (801, feq (total_fee a8) (fl 0 0));
    (805, (fst r11));
    (808, feq (base_balance a12) (fl 12944671 (-20)));
    (809, feq (quote_balance a12) (fl 16181625 (-17)));
    (810, feq (total_fee a12) (fl 0 0));
    (814, negb ((fst r15)));
    (817, feq (base_balance a16) (fl 5 1));
    (818, feq (quote_balance a16) (fl 25 2));
    (819, feq (total_fee a16) (fl 0 0))]).
Check (@eq_refl (outcome (list Z)) (Done []) <: SellTest_SellWithoutFeeAndInfinitePrecision = Done []).

(** base/account_test.cc:822-864 TEST(SellTest, SellWithoutFeeAndLimitedPrecision): 16 checks. *)
Definition SellTest_SellWithoutFeeAndLimitedPrecision : outcome (list Z) :=
  let a1 := set_base_unit account0 (fl 13421773 (-27)) in
  let a2 := set_quote_unit a1 (fl 1 0) in
  let a3 := set_base_balance a2 (fl 15 0) in
  let a4 := set_quote_balance a3 (fl 475 1) in
  do r5 <- SellBase (FeeConfig (fl 0 0) (fl 0 0) (fl 0 0)) (fl 5 0) (fl 5 1) a4 ;
  let a6 := snd r5 in
  let a7 := set_base_balance a6 (fl 5 2) in
  let a8 := set_quote_balance a7 (fl 0 0) in
  do r9 <- SellBase (FeeConfig (fl 0 0) (fl 0 0) (fl 0 0)) (fl 5 1) (fl 5 1) a8 ;
  let a10 := snd r9 in
  let a11 := set_base_balance a10 (fl 12897485 (-19)) in
  let a12 := set_quote_balance a11 (fl 55 0) in
  do r13 <- SellBase (FeeConfig (fl 0 0) (fl 0 0) (fl 0 0)) (fl 12944671 (-20)) (fl 11 (-1)) a12 ;
  let a14 := snd r13 in
  let a15 := set_base_balance a14 (fl 5 1) in
  let a16 := set_quote_balance a15 (fl 25 2) in
  do r17 <- SellBase (FeeConfig (fl 0 0) (fl 0 0) (fl 0 0)) (fl 15 0) (fl 5 1) a16 ;
  let a18 := snd r17 in
  Done (failures [(831, (fst r5));
    (834, feq (base_balance a6) (fl 5 1));
    (835, feq (quote_balance a6) (fl 125 3));
    (836, feq (total_fee a6) (fl 0 0));
    (840, (fst r9));
    (843, feq (base_balance a10) (fl 5 1));
    (844, feq (quote_balance a10) (fl 25 2));
    (845, feq (total_fee a10) (fl 0 0));
    (849, (fst r13));
    (852, feq (base_balance a14) (fl 12897485 (-20)));
    (853, feq (quote_balance a14) (fl 61 1));
    (854, feq (total_fee a14) (fl 0 0));
    (858, negb ((fst r17)));
    (861, feq (base_balance a18) (fl 5 1));
    (862, feq (quote_balance a18) (fl 25 2));
    (863, feq (total_fee a18) (fl 0 0))]).
Check (@eq_refl (outcome (list Z)) (Done []) <: SellTest_SellWithoutFeeAndLimitedPrecision = Done []).

(** base/account_test.cc:866-916 TEST(SellTest, SellWithFeeAndLimitedPrecision): 16 checks. *)
Definition SellTest_SellWithFeeAndLimitedPrecision : outcome (list Z) :=
  let a1 := set_base_unit account0 (fl 13421773 (-27)) in
  let a2 := set_quote_unit a1 (fl 1 0) in
  let a3 := set_base_balance a2 (fl 15 0) in
  let a4 := set_quote_balance a3 (fl 475 1) in
  let a5 := set_total_fee a4 (fl 0 0) in
  do r6 <- SellBase (FeeConfig (fl 13421773 (-27)) (fl 1 0) (fl 3 (-1))) (fl 5 0) (fl 5 1) a5 ;
  let a7 := snd r6 in
  let a8 := set_base_balance a7 (fl 5 2) in
  let a9 := set_quote_balance a8 (fl 0 0) in
  let a10 := set_total_fee a9 (fl 5 1) in
  do r11 <- SellBase (FeeConfig (fl 13421773 (-27)) (fl 1 0) (fl 3 (-1))) (fl 5 1) (fl 5 1) a10 ;
  let a12 := snd r11 in
  let a13 := set_base_balance a12 (fl 12897485 (-19)) in
  let a14 := set_quote_balance a13 (fl 47 0) in
  let a15 := set_total_fee a14 (fl 0 0) in
  do r16 <- SellBase (FeeConfig (fl 13421773 (-27)) (fl 1 0) (fl 3 (-1))) (fl 12944671 (-20)) (fl 11 (-1)) a15 ;
  let a17 := snd r16 in
  let a18 := set_base_balance a17 (fl 5 1) in
  let a19 := set_quote_balance a18 (fl 25 2) in
  let a20 := set_total_fee a19 (fl 5 1) in
  do r21 <- SellBase (FeeConfig (fl 13421773 (-27)) (fl 1 0) (fl 3 (-1))) (fl 15 0) (fl 5 1) a20 ;
  let a22 := snd r21 in
  Done (failures [(880, (fst r6));
    (883, feq (base_balance a7) (fl 5 1));
    (884, feq (quote_balance a7) (fl 497 1));
    (885, feq (total_fee a7) (fl 3 1));
    (890, (fst r11));
    (893, feq (base_balance a12) (fl 5 1));
    (894, feq (quote_balance a12) (fl 89 0));
    (895, feq (total_fee a12) (fl 21 0));
    (900, (fst r16));
    (903, feq (base_balance a17) (fl 12897485 (-20)));
    (904, feq (quote_balance a17) (fl 53 1));
    (905, feq (total_fee a17) (fl 1 3));
    (910, negb ((fst r21)));
    (913, feq (base_balance a22) (fl 5 1));
    (914, feq (quote_balance a22) (fl 25 2));
    (915, feq (total_fee a22) (fl 5 1))]).
Check (@eq_refl (outcome (list Z)) (Done []) <: SellTest_SellWithFeeAndLimitedPrecision = Done []).

(** base/account_test.cc:918-997 TEST(SellTest, SellAtQuoteWithoutFeeAndInfinitePrecision): 32 checks. *)
Definition SellTest_SellAtQuoteWithoutFeeAndInfinitePrecision : outcome (list Z) :=
  let a1 := set_base_balance account0 (fl 15 0) in
  let a2 := set_quote_balance a1 (fl 475 1) in
  do r3 <- SellAtQuote (FeeConfig (fl 0 0) (fl 0 0) (fl 0 0)) (fl 25 1) (fl 5 1) (fl 16777215 104) a2 ;
  let a4 := snd r3 in
  let a5 := set_base_balance a4 (fl 15 0) in
  let a6 := set_quote_balance a5 (fl 475 1) in
  do r7 <- SellAtQuote (FeeConfig (fl 0 0) (fl 0 0) (fl 0 0)) (fl 25 1) (fl 5 1) (fl 1 1) a6 ;
  let a8 := snd r7 in
  let a9 := set_base_balance a8 (fl 5 2) in
  let a10 := set_quote_balance a9 (fl 0 0) in
  do r11 <- SellAtQuote (FeeConfig (fl 0 0) (fl 0 0) (fl 0 0)) (fl 25 2) (fl 5 1) (fl 16777215 104) a10 ;
  let a12 := snd r11 in
  let a13 := set_base_balance a12 (fl 15 0) in
  let a14 := set_quote_balance a13 (fl 25 1) in
  do r15 <- SellAtQuote (FeeConfig (fl 0 0) (fl 0 0) (fl 0 0)) (fl 25 2) (fl 5 1) (fl 5 0) a14 ;
  let a16 := snd r15 in
  let a17 := set_base_balance a16 (fl 12944671 (-19)) in
  let a18 := set_quote_balance a17 (fl 14564327 (-18)) in
  do r19 <- SellAtQuote (FeeConfig (fl 0 0) (fl 0 0) (fl 0 0)) (fl 8899461 (-17)) (fl 11 (-1)) (fl 16777215 104) a18 ;
  let a20 := snd r19 in
  let a21 := set_base_balance a20 (fl 9093775 (-19)) in
  let a22 := set_quote_balance a21 (fl 12577145 (-17)) in
  do r23 <- SellAtQuote (FeeConfig (fl 0 0) (fl 0 0) (fl 0 0)) (fl 8899461 (-17)) (fl 11 (-1)) (fl 5 0) a22 ;
  let a24 := snd r23 in
  let a25 := set_base_balance a24 (fl 5 1) in
  let a26 := set_quote_balance a25 (fl 25 2) in
  do r27 <- SellAtQuote (FeeConfig (fl 0 0) (fl 0 0) (fl 0 0)) (fl 125 3) (fl 5 1) (fl 16777215 104) a26 ;
  let a28 := snd r27 in
  let a29 := set_base_balance a28 (fl 5 1) in
  let a30 := set_quote_balance a29 (fl 25 2) in
  do r31 <- SellAtQuote (FeeConfig (fl 0 0) (fl 0 0) (fl 0 0)) (fl 125 3) (fl 5 1) (fl 5 2) a30 ;
  let a32 := snd r31 in
  Done (failures [(924, (fst r3));
    (927, feq (base_balance a4) (fl 5 1));
    (928, feq (quote_balance a4) (fl 125 3));
    (929, feq (total_fee a4) (fl 0 0));
    (933, (fst r7));
    (937, feq (base_balance a8) (fl 13 0));
    (938, feq (quote_balance a8) (fl 485 1));
    (939, feq (total_fee a8) (fl 0 0));
    (943, (fst r11));
    (946, feq (base_balance a12) (fl 5 1));
    (947, feq (quote_balance a12) (fl 25 2));
    (948, feq (total_fee a12) (fl 0 0));
    (952, (fst r15));
    (956, feq (base_balance a16) (fl 5 1));
    (957, feq (quote_balance a16) (fl 25 2));
    (958, feq (total_fee a16) (fl 0 0));
    (962, (fst r19));
    (965, feq (base_balance a20) (fl 12944671 (-20)));
    (966, feq (quote_balance a20) (fl 16181625 (-17)));
    (967, feq (total_fee a20) (fl 0 0));
    (971, (fst r23));
    (975, feq (base_balance a24) (fl 12944671 (-20)));
    (976, feq (quote_balance a24) (fl 16181625 (-17)));
    (977, feq (total_fee a24) (fl 0 0));
    (981, negb ((fst r27)));
    (984, feq (base_balance a28) (fl 5 1));
    (985, feq (quote_balance a28) (fl 25 2));
    (986, feq (total_fee a28) (fl 0 0));
    (990, negb ((fst r31)));
    (994, feq (base_balance a32) (fl 5 1));
    (995, feq (quote_balance a32) (fl 25 2));
    (996, feq (total_fee a32) (fl 0 0))]).
Check (@eq_refl (outcome (list Z)) (Done []) <: SellTest_SellAtQuoteWithoutFeeAndInfinitePrecision = Done []).

(** base/account_test.cc:999-1081 TEST(SellTest, SellAtQuoteWithoutFeeAndLimitedPrecision): 32 checks. *)
Definition SellTest_SellAtQuoteWithoutFeeAndLimitedPrecision : outcome (list Z) :=
  let a1 := set_base_unit account0 (fl 13421773 (-27)) in
  let a2 := set_quote_unit a1 (fl 1 0) in
  let a3 := set_base_balance a2 (fl 15 0) in
  let a4 := set_quote_balance a3 (fl 475 1) in
  do r5 <- SellAtQuote (FeeConfig (fl 0 0) (fl 0 0) (fl 0 0)) (fl 25 1) (fl 5 1) (fl 16777215 104) a4 ;
  let a6 := snd r5 in
  let a7 := set_base_balance a6 (fl 3 2) in
  let a8 := set_quote_balance a7 (fl 245 2) in
  do r9 <- SellAtQuote (FeeConfig (fl 0 0) (fl 0 0) (fl 0 0)) (fl 25 1) (fl 5 1) (fl 1 1) a8 ;
  let a10 := snd r9 in
  let a11 := set_base_balance a10 (fl 5 2) in
  let a12 := set_quote_balance a11 (fl 0 0) in
  do r13 <- SellAtQuote (FeeConfig (fl 0 0) (fl 0 0) (fl 0 0)) (fl 25 2) (fl 5 1) (fl 16777215 104) a12 ;
  let a14 := snd r13 in
  let a15 := set_base_balance a14 (fl 15 0) in
  let a16 := set_quote_balance a15 (fl 25 1) in
  do r17 <- SellAtQuote (FeeConfig (fl 0 0) (fl 0 0) (fl 0 0)) (fl 25 2) (fl 5 1) (fl 5 0) a16 ;
  let a18 := snd r17 in
  let a19 := set_base_balance a18 (fl 12897485 (-19)) in
  let a20 := set_quote_balance a19 (fl 55 0) in
  do r21 <- SellAtQuote (FeeConfig (fl 0 0) (fl 0 0) (fl 0 0)) (fl 8899461 (-17)) (fl 11 (-1)) (fl 16777215 104) a20 ;
  let a22 := snd r21 in
  let a23 := set_base_balance a22 (fl 4535091 (-18)) in
  let a24 := set_quote_balance a23 (fl 95 0) in
  do r25 <- SellAtQuote (FeeConfig (fl 0 0) (fl 0 0) (fl 0 0)) (fl 8899461 (-17)) (fl 11 (-1)) (fl 5 0) a24 ;
  let a26 := snd r25 in
  let a27 := set_base_balance a26 (fl 5 1) in
  let a28 := set_quote_balance a27 (fl 25 2) in
  do r29 <- SellAtQuote (FeeConfig (fl 0 0) (fl 0 0) (fl 0 0)) (fl 125 3) (fl 5 1) (fl 16777215 104) a28 ;
  let a30 := snd r29 in
  let a31 := set_base_balance a30 (fl 5 1) in
  let a32 := set_quote_balance a31 (fl 25 2) in
  do r33 <- SellAtQuote (FeeConfig (fl 0 0) (fl 0 0) (fl 0 0)) (fl 125 3) (fl 5 1) (fl 5 2) a32 ;
  let a34 := snd r33 in
  Done (failures [(1008, (fst r5));
    (1011, feq (base_balance a6) (fl 5 1));
    (1012, feq (quote_balance a6) (fl 125 3));
    (1013, feq (total_fee a6) (fl 0 0));
    (1017, (fst r9));
    (1021, feq (base_balance a10) (fl 5 1));
    (1022, feq (quote_balance a10) (fl 125 3));
    (1023, feq (total_fee a10) (fl 0 0));
    (1027, (fst r13));
    (1030, feq (base_balance a14) (fl 5 1));
    (1031, feq (quote_balance a14) (fl 25 2));
    (1032, feq (total_fee a14) (fl 0 0));
    (1036, (fst r17));
    (1040, feq (base_balance a18) (fl 5 1));
    (1041, feq (quote_balance a18) (fl 25 2));
    (1042, feq (total_fee a18) (fl 0 0));
    (1046, (fst r21));
    (1049, feq (base_balance a22) (fl 12897485 (-20)));
    (1050, feq (quote_balance a22) (fl 61 1));
    (1051, feq (total_fee a22) (fl 0 0));
    (1055, (fst r25));
    (1059, feq (base_balance a26) (fl 12897485 (-20)));
    (1060, feq (quote_balance a26) (fl 61 1));
    (1061, feq (total_fee a26) (fl 0 0));
    (1065, negb ((fst r29)));
    (1068, feq (base_balance a30) (fl 5 1));
    (1069, feq (quote_balance a30) (fl 25 2));
    (1070, feq (total_fee a30) (fl 0 0));
    (1074, negb ((fst r33)));
    (1078, feq (base_balance a34) (fl 5 1));
    (1079, feq (quote_balance a34) (fl 25 2));
    (1080, feq (total_fee a34) (fl 0 0))]).
Check (@eq_refl (outcome (list Z)) (Done []) <: SellTest_SellAtQuoteWithoutFeeAndLimitedPrecision = Done []).

(** base/account_test.cc:1083-1177 TEST(SellTest, SellAtQuoteWithFeeAndLimitedPrecision): 32 checks. *)
Definition SellTest_SellAtQuoteWithFeeAndLimitedPrecision : outcome (list Z) :=
  let a1 := set_base_unit account0 (fl 13421773 (-27)) in
  let a2 := set_quote_unit a1 (fl 1 0) in
  let a3 := set_base_balance a2 (fl 15 0) in
  let a4 := set_quote_balance a3 (fl 475 1) in
  let a5 := set_total_fee a4 (fl 0 0) in
  do r6 <- SellAtQuote (FeeConfig (fl 13421773 (-27)) (fl 1 0) (fl 3 (-1))) (fl 25 1) (fl 5 1) (fl 16777215 104) a5 ;
  let a7 := snd r6 in
  let a8 := set_base_balance a7 (fl 3 2) in
  let a9 := set_quote_balance a8 (fl 245 2) in
  let a10 := set_total_fee a9 (fl 0 0) in
  do r11 <- SellAtQuote (FeeConfig (fl 13421773 (-27)) (fl 1 0) (fl 3 (-1))) (fl 25 1) (fl 5 1) (fl 1 1) a10 ;
  let a12 := snd r11 in
  let a13 := set_base_balance a12 (fl 5 2) in
  let a14 := set_quote_balance a13 (fl 0 0) in
  let a15 := set_total_fee a14 (fl 5 1) in
  do r16 <- SellAtQuote (FeeConfig (fl 13421773 (-27)) (fl 1 0) (fl 3 (-1))) (fl 25 2) (fl 5 1) (fl 16777215 104) a15 ;
  let a17 := snd r16 in
  let a18 := set_base_balance a17 (fl 15 0) in
  let a19 := set_quote_balance a18 (fl 25 1) in
  let a20 := set_total_fee a19 (fl 5 1) in
  do r21 <- SellAtQuote (FeeConfig (fl 13421773 (-27)) (fl 1 0) (fl 3 (-1))) (fl 25 2) (fl 5 1) (fl 5 0) a20 ;
  let a22 := snd r21 in
  let a23 := set_base_balance a22 (fl 12897485 (-19)) in
  let a24 := set_quote_balance a23 (fl 55 0) in
  let a25 := set_total_fee a24 (fl 0 0) in
  do r26 <- SellAtQuote (FeeConfig (fl 13421773 (-27)) (fl 1 0) (fl 3 (-1))) (fl 8899461 (-17)) (fl 11 (-1)) (fl 16777215 104) a25 ;
  let a27 := snd r26 in
  let a28 := set_base_balance a27 (fl 4535091 (-18)) in
  let a29 := set_quote_balance a28 (fl 95 0) in
  let a30 := set_total_fee a29 (fl 0 0) in
  do r31 <- SellAtQuote (FeeConfig (fl 13421773 (-27)) (fl 1 0) (fl 3 (-1))) (fl 8899461 (-17)) (fl 11 (-1)) (fl 5 0) a30 ;
  let a32 := snd r31 in
  let a33 := set_base_balance a32 (fl 5 1) in
  let a34 := set_quote_balance a33 (fl 25 2) in
  let a35 := set_total_fee a34 (fl 5 1) in
  do r36 <- SellAtQuote (FeeConfig (fl 13421773 (-27)) (fl 1 0) (fl 3 (-1))) (fl 125 3) (fl 5 1) (fl 16777215 104) a35 ;
  let a37 := snd r36 in
  let a38 := set_base_balance a37 (fl 5 1) in
  let a39 := set_quote_balance a38 (fl 25 2) in
  let a40 := set_total_fee a39 (fl 5 1) in
  do r41 <- SellAtQuote (FeeConfig (fl 13421773 (-27)) (fl 1 0) (fl 3 (-1))) (fl 125 3) (fl 5 1) (fl 5 2) a40 ;
  let a42 := snd r41 in
  Done (failures [(1097, (fst r6));
    (1100, feq (base_balance a7) (fl 4928307 (-19)));
    (1101, feq (quote_balance a7) (fl 999 0));
    (1102, feq (total_fee a7) (fl 7 0));
    (1107, (fst r11));
    (1111, feq (base_balance a12) (fl 5 1));
    (1112, feq (quote_balance a12) (fl 997 0));
    (1113, feq (total_fee a12) (fl 3 0));
    (1118, (fst r16));
    (1121, feq (base_balance a17) (fl 4666163 (-19)));
    (1122, feq (quote_balance a17) (fl 49 1));
    (1123, feq (total_fee a17) (fl 23 0));
    (1128, (fst r21));
    (1132, feq (base_balance a22) (fl 5 1));
    (1133, feq (quote_balance a22) (fl 47 1));
    (1134, feq (total_fee a22) (fl 1 4));
    (1139, (fst r26));
    (1142, feq (base_balance a27) (fl 11324621 (-20)));
    (1143, feq (quote_balance a27) (fl 121 0));
    (1144, feq (total_fee a27) (fl 9 0));
    (1149, (fst r31));
    (1153, feq (base_balance a32) (fl 12897485 (-20)));
    (1154, feq (quote_balance a32) (fl 59 1));
    (1155, feq (total_fee a32) (fl 1 2));
    (1160, negb ((fst r36)));
    (1163, feq (base_balance a37) (fl 5 1));
    (1164, feq (quote_balance a37) (fl 25 2));
    (1165, feq (total_fee a37) (fl 5 1));
    (1170, negb ((fst r41)));
    (1174, feq (base_balance a42) (fl 5 1));
    (1175, feq (quote_balance a42) (fl 25 2));
    (1176, feq (total_fee a42) (fl 5 1))]).
Check (@eq_refl (outcome (list Z)) (Done []) <: SellTest_SellAtQuoteWithFeeAndLimitedPrecision = Done []).

(** base/account_test.cc:1179-1206 TEST(BuyTest, MarketBuyWithFeeAndLimitedPrecision): 5 checks. *)
Definition BuyTest_MarketBuyWithFeeAndLimitedPrecision : outcome (list Z) :=
  let a1 := set_market_liquidity account0 (fl 1 (-1)) in
  let a2 := set_base_unit a1 (fl 13421773 (-27)) in
  let a3 := set_quote_unit a2 (fl 1 0) in
  let a4 := set_base_balance a3 (fl 5 1) in
  let a5 := set_quote_balance a4 (fl 125 3) in
  let a6 := set_total_fee a5 (fl 0 0) in
  do r7 <- MarketBuy (FeeConfig (fl 13421773 (-27)) (fl 1 0) (fl 3 (-1))) (OhlcTick 0 (fl 5 1) (fl 5 2) (fl 1 1) (fl 15 0) (fl 2528379 (-11))) (fl 5 1) a6 ;
  let a8 := snd r7 in
  Done (failures [(1191, feq (GetMarketBuyPrice a1 (OhlcTick 0 (fl 5 1) (fl 5 2) (fl 1 1) (fl 15 0) (fl 2528379 (-11)))) (fl 15 0));
    (1201, (fst r7));
    (1203, feq (base_balance a8) (fl 5 2));
    (1204, feq (quote_balance a8) (fl 417 1));
    (1205, feq (total_fee a8) (fl 1 4))]).
Check (@eq_refl (outcome (list Z)) (Done []) <: BuyTest_MarketBuyWithFeeAndLimitedPrecision = Done []).

(** base/account_test.cc:1208-1235 TEST(BuyTest, MarketBuyAtQuoteWithFeeAndLimitedPrecision): 5 checks. *)
Definition BuyTest_MarketBuyAtQuoteWithFeeAndLimitedPrecision : outcome (list Z) :=
  let a1 := set_market_liquidity account0 (fl 1 (-1)) in
  let a2 := set_base_unit a1 (fl 13421773 (-27)) in
  let a3 := set_quote_unit a2 (fl 1 0) in
  let a4 := set_base_balance a3 (fl 5 1) in
  let a5 := set_quote_balance a4 (fl 125 3) in
  let a6 := set_total_fee a5 (fl 0 0) in
  do r7 <- MarketBuyAtQuote (FeeConfig (fl 13421773 (-27)) (fl 1 0) (fl 3 (-1))) (OhlcTick 0 (fl 5 1) (fl 5 2) (fl 1 1) (fl 15 0) (fl 2528379 (-11))) (fl 169 0) a6 ;
  let a8 := snd r7 in
  Done (failures [(1220, feq (GetMarketBuyPrice a1 (OhlcTick 0 (fl 5 1) (fl 5 2) (fl 1 1) (fl 15 0) (fl 2528379 (-11)))) (fl 15 0));
    (1230, (fst r7));
    (1232, feq (base_balance a8) (fl 5 2));
    (1233, feq (quote_balance a8) (fl 417 1));
    (1234, feq (total_fee a8) (fl 1 4))]).
Check (@eq_refl (outcome (list Z)) (Done []) <: BuyTest_MarketBuyAtQuoteWithFeeAndLimitedPrecision = Done []).

(** base/account_test.cc:1237-1264 TEST(SellTest, MarketSellWithFeeAndLimitedPrecision): 5 checks. *)
Definition SellTest_MarketSellWithFeeAndLimitedPrecision : outcome (list Z) :=
  let a1 := set_market_liquidity account0 (fl 1 0) in
  let a2 := set_base_unit a1 (fl 13421773 (-27)) in
  let a3 := set_quote_unit a2 (fl 1 0) in
  let a4 := set_base_balance a3 (fl 15 0) in
  let a5 := set_quote_balance a4 (fl 475 1) in
  let a6 := set_total_fee a5 (fl 0 0) in
  do r7 <- MarketSell (FeeConfig (fl 13421773 (-27)) (fl 1 0) (fl 3 (-1))) (OhlcTick 0 (fl 5 1) (fl 5 2) (fl 1 1) (fl 15 0) (fl 2528379 (-11))) (fl 5 0) a6 ;
  let a8 := snd r7 in
  Done (failures [(1249, feq (GetMarketSellPrice a1 (OhlcTick 0 (fl 5 1) (fl 5 2) (fl 1 1) (fl 15 0) (fl 2528379 (-11)))) (fl 5 1));
    (1259, (fst r7));
    (1261, feq (base_balance a8) (fl 5 1));
    (1262, feq (quote_balance a8) (fl 497 1));
    (1263, feq (total_fee a8) (fl 3 1))]).
Check (@eq_refl (outcome (list Z)) (Done []) <: SellTest_MarketSellWithFeeAndLimitedPrecision = Done []).

(** base/account_test.cc:1266-1293 TEST(SellTest, MarketSellAtQuoteWithFeeAndLimitedPrecision): 5 checks. *)
Definition SellTest_MarketSellAtQuoteWithFeeAndLimitedPrecision : outcome (list Z) :=
  let a1 := set_market_liquidity account0 (fl 1 0) in
  let a2 := set_base_unit a1 (fl 13421773 (-27)) in
  let a3 := set_quote_unit a2 (fl 1 0) in
  let a4 := set_base_balance a3 (fl 15 0) in
  let a5 := set_quote_balance a4 (fl 475 1) in
  let a6 := set_total_fee a5 (fl 0 0) in
  do r7 <- MarketSellAtQuote (FeeConfig (fl 13421773 (-27)) (fl 1 0) (fl 3 (-1))) (OhlcTick 0 (fl 5 1) (fl 5 2) (fl 1 1) (fl 15 0) (fl 2528379 (-11))) (fl 25 1) a6 ;
  let a8 := snd r7 in
  Done (failures [(1278, feq (GetMarketSellPrice a1 (OhlcTick 0 (fl 5 1) (fl 5 2) (fl 1 1) (fl 15 0) (fl 2528379 (-11)))) (fl 5 1));
    (1288, (fst r7));
    (1290, feq (base_balance a8) (fl 4928307 (-19)));
    (1291, feq (quote_balance a8) (fl 999 0));
    (1292, feq (total_fee a8) (fl 7 0))]).
Check (@eq_refl (outcome (list Z)) (Done []) <: SellTest_MarketSellAtQuoteWithFeeAndLimitedPrecision = Done []).

(** base/account_test.cc:1295-1329 TEST(BuyTest, StopBuyWithFeeAndLimitedPrecision): 6 checks. *)
Definition BuyTest_StopBuyWithFeeAndLimitedPrecision : outcome (list Z) :=
  let a1 := set_market_liquidity account0 (fl 1 (-1)) in
  let a2 := set_base_unit a1 (fl 13421773 (-27)) in
  let a3 := set_quote_unit a2 (fl 1 0) in
  let a4 := set_base_balance a3 (fl 5 1) in
  let a5 := set_quote_balance a4 (fl 125 3) in
  let a6 := set_total_fee a5 (fl 0 0) in
  do r7 <- StopBuy (FeeConfig (fl 13421773 (-27)) (fl 1 0) (fl 3 (-1))) (OhlcTick 0 (fl 5 1) (fl 5 2) (fl 1 1) (fl 15 0) (fl 2528379 (-11))) (fl 5 1) (fl 25 0) a6 ;
  let a8 := snd r7 in
  do r9 <- StopBuy (FeeConfig (fl 13421773 (-27)) (fl 1 0) (fl 3 (-1))) (OhlcTick 0 (fl 5 1) (fl 5 2) (fl 1 1) (fl 15 0) (fl 2528379 (-11))) (fl 5 1) (fl 15 0) a8 ;
  let a10 := snd r9 in
  Done (failures [(1307, feq (fl 35 (-1)) (GetStopBuyPrice a1 (OhlcTick 0 (fl 5 1) (fl 5 2) (fl 1 1) (fl 15 0) (fl 2528379 (-11))) (fl 15 0)));
    (1319, negb ((fst r7)));
    (1323, (fst r9));
    (1326, feq (base_balance a10) (fl 5 2));
    (1327, feq (quote_balance a10) (fl 403 1));
    (1328, feq (total_fee a10) (fl 19 0))]).
Check (@eq_refl (outcome (list Z)) (Done []) <: BuyTest_StopBuyWithFeeAndLimitedPrecision = Done []).

(** base/account_test.cc:1331-1365 TEST(BuyTest, StopBuyAtQuoteWithFeeAndLimitedPrecision): 6 checks. *)
Definition BuyTest_StopBuyAtQuoteWithFeeAndLimitedPrecision : outcome (list Z) :=
  let a1 := set_market_liquidity account0 (fl 1 (-1)) in
  let a2 := set_base_unit a1 (fl 13421773 (-27)) in
  let a3 := set_quote_unit a2 (fl 1 0) in
  let a4 := set_base_balance a3 (fl 5 1) in
  let a5 := set_quote_balance a4 (fl 125 3) in
  let a6 := set_total_fee a5 (fl 0 0) in
  do r7 <- StopBuyAtQuote (FeeConfig (fl 13421773 (-27)) (fl 1 0) (fl 3 (-1))) (OhlcTick 0 (fl 5 1) (fl 5 2) (fl 1 1) (fl 15 0) (fl 2528379 (-11))) (fl 197 0) (fl 25 0) a6 ;
  let a8 := snd r7 in
  do r9 <- StopBuyAtQuote (FeeConfig (fl 13421773 (-27)) (fl 1 0) (fl 3 (-1))) (OhlcTick 0 (fl 5 1) (fl 5 2) (fl 1 1) (fl 15 0) (fl 2528379 (-11))) (fl 197 0) (fl 15 0) a8 ;
  let a10 := snd r9 in
  Done (failures [(1343, feq (GetStopBuyPrice a1 (OhlcTick 0 (fl 5 1) (fl 5 2) (fl 1 1) (fl 15 0) (fl 2528379 (-11))) (fl 15 0)) (fl 35 (-1)));
    (1355, negb ((fst r7)));
    (1359, (fst r9));
    (1362, feq (base_balance a10) (fl 5 2));
    (1363, feq (quote_balance a10) (fl 403 1));
    (1364, feq (total_fee a10) (fl 19 0))]).
Check (@eq_refl (outcome (list Z)) (Done []) <: BuyTest_StopBuyAtQuoteWithFeeAndLimitedPrecision = Done []).

(** base/account_test.cc:1367-1401 TEST(SellTest, StopSellWithFeeAndLimitedPrecision): 6 checks. *)
Definition SellTest_StopSellWithFeeAndLimitedPrecision : outcome (list Z) :=
  let a1 := set_market_liquidity account0 (fl 1 0) in
  let a2 := set_base_unit a1 (fl 13421773 (-27)) in
  let a3 := set_quote_unit a2 (fl 1 0) in
  let a4 := set_base_balance a3 (fl 15 0) in
  let a5 := set_quote_balance a4 (fl 475 1) in
  let a6 := set_total_fee a5 (fl 0 0) in
  do r7 <- StopSell (FeeConfig (fl 13421773 (-27)) (fl 1 0) (fl 3 (-1))) (OhlcTick 0 (fl 5 1) (fl 5 2) (fl 1 1) (fl 15 0) (fl 2528379 (-11))) (fl 5 0) (fl 1 0) a6 ;
  let a8 := snd r7 in
  do r9 <- StopSell (FeeConfig (fl 13421773 (-27)) (fl 1 0) (fl 3 (-1))) (OhlcTick 0 (fl 5 1) (fl 5 2) (fl 1 1) (fl 15 0) (fl 2528379 (-11))) (fl 5 0) (fl 5 0) a8 ;
  let a10 := snd r9 in
  Done (failures [(1379, feq (GetStopSellPrice a1 (OhlcTick 0 (fl 5 1) (fl 5 2) (fl 1 1) (fl 15 0) (fl 2528379 (-11))) (fl 5 0)) (fl 5 0));
    (1391, negb ((fst r7)));
    (1395, (fst r9));
    (1398, feq (base_balance a10) (fl 5 1));
    (1399, feq (quote_balance a10) (fl 971 0));
    (1400, feq (total_fee a10) (fl 1 2))]).
Check (@eq_refl (outcome (list Z)) (Done []) <: SellTest_StopSellWithFeeAndLimitedPrecision = Done []).

(** base/account_test.cc:1403-1437 TEST(SellTest, StopSellAtQuoteWithFeeAndLimitedPrecision): 6 checks. *)
Definition SellTest_StopSellAtQuoteWithFeeAndLimitedPrecision : outcome (list Z) :=
  let a1 := set_market_liquidity account0 (fl 1 0) in
  let a2 := set_base_unit a1 (fl 13421773 (-27)) in
  let a3 := set_quote_unit a2 (fl 1 0) in
  let a4 := set_base_balance a3 (fl 15 0) in
  let a5 := set_quote_balance a4 (fl 475 1) in
  let a6 := set_total_fee a5 (fl 0 0) in
  do r7 <- StopSellAtQuote (FeeConfig (fl 13421773 (-27)) (fl 1 0) (fl 3 (-1))) (OhlcTick 0 (fl 5 1) (fl 5 2) (fl 1 1) (fl 15 0) (fl 2528379 (-11))) (fl 25 1) (fl 1 0) a6 ;
  let a8 := snd r7 in
  do r9 <- StopSellAtQuote (FeeConfig (fl 13421773 (-27)) (fl 1 0) (fl 3 (-1))) (OhlcTick 0 (fl 5 1) (fl 5 2) (fl 1 1) (fl 15 0) (fl 2528379 (-11))) (fl 25 1) (fl 5 0) a8 ;
  let a10 := snd r9 in
  Done (failures [(1415, feq (GetStopSellPrice a1 (OhlcTick 0 (fl 5 1) (fl 5 2) (fl 1 1) (fl 15 0) (fl 2528379 (-11))) (fl 5 0)) (fl 5 0));
    (1427, negb ((fst r7)));
    (1431, (fst r9));
    (1434, feq (base_balance a10) (fl 15938355 (-22)));
    (1435, feq (quote_balance a10) (fl 999 0));
    (1436, feq (total_fee a10) (fl 7 0))]).
Check (@eq_refl (outcome (list Z)) (Done []) <: SellTest_StopSellAtQuoteWithFeeAndLimitedPrecision = Done []).

(** base/account_test.cc:1439-1473 TEST(BuyTest, LimitBuyWithFeeAndLimitedPrecision): 6 checks. *)
Definition BuyTest_LimitBuyWithFeeAndLimitedPrecision : outcome (list Z) :=
  let a1 := set_max_volume_ratio account0 (fl 13421773 (-27)) in
  let a2 := set_base_unit a1 (fl 13421773 (-27)) in
  let a3 := set_quote_unit a2 (fl 1 0) in
  let a4 := set_base_balance a3 (fl 5 1) in
  let a5 := set_quote_balance a4 (fl 125 3) in
  let a6 := set_total_fee a5 (fl 0 0) in
  do r7 <- LimitBuy (FeeConfig (fl 13421773 (-27)) (fl 1 0) (fl 3 (-1))) (OhlcTick 0 (fl 5 1) (fl 5 2) (fl 1 1) (fl 15 0) (fl 2528379 (-11))) (fl 5 1) (fl 1 0) a6 ;
  let a8 := snd r7 in
  do r9 <- LimitBuy (FeeConfig (fl 13421773 (-27)) (fl 1 0) (fl 3 (-1))) (OhlcTick 0 (fl 5 1) (fl 5 2) (fl 1 1) (fl 15 0) (fl 2528379 (-11))) (fl 5 1) (fl 5 0) a8 ;
  let a10 := snd r9 in
  Done (failures [(1451, feq (GetMaxBaseAmount a1 (OhlcTick 0 (fl 5 1) (fl 5 2) (fl 1 1) (fl 15 0) (fl 2528379 (-11)))) (fl 16181625 (-17)));
    (1463, negb ((fst r7)));
    (1467, (fst r9));
    (1470, feq (base_balance a10) (fl 5 2));
    (1471, feq (quote_balance a10) (fl 59 4));
    (1472, feq (total_fee a10) (fl 3 1))]).
Check (@eq_refl (outcome (list Z)) (Done []) <: BuyTest_LimitBuyWithFeeAndLimitedPrecision = Done []).

(** base/account_test.cc:1475-1510 TEST(BuyTest, LimitBuyWithFeeAndLimitedPrecisionExceedsMaxAmount): 6 checks. *)
Definition BuyTest_LimitBuyWithFeeAndLimitedPrecisionExceedsMaxAmount : outcome (list Z) :=
  let a1 := set_max_volume_ratio account0 (fl 8589935 (-33)) in
  let a2 := set_base_unit a1 (fl 13421773 (-27)) in
  let a3 := set_quote_unit a2 (fl 1 0) in
  let a4 := set_base_balance a3 (fl 5 1) in
  let a5 := set_quote_balance a4 (fl 125 3) in
  let a6 := set_total_fee a5 (fl 0 0) in
  do r7 <- LimitBuy (FeeConfig (fl 13421773 (-27)) (fl 1 0) (fl 3 (-1))) (OhlcTick 0 (fl 5 1) (fl 5 2) (fl 1 1) (fl 15 0) (fl 2528379 (-11))) (fl 5 1) (fl 1 0) a6 ;
  let a8 := snd r7 in
  do r9 <- LimitBuy (FeeConfig (fl 13421773 (-27)) (fl 1 0) (fl 3 (-1))) (OhlcTick 0 (fl 5 1) (fl 5 2) (fl 1 1) (fl 15 0) (fl 2528379 (-11))) (fl 5 1) (fl 5 0) a8 ;
  let a10 := snd r9 in
  Done (failures [(1487, feq (GetMaxBaseAmount a1 (OhlcTick 0 (fl 5 1) (fl 5 2) (fl 1 1) (fl 15 0) (fl 2528379 (-11)))) (fl 647265 (-19)));
    (1500, negb ((fst r7)));
    (1504, (fst r9));
    (1507, feq (base_balance a10) (fl 11744051 (-20)));
    (1508, feq (quote_balance a10) (fl 31 5));
    (1509, feq (total_fee a10) (fl 1 1))]).
Check (@eq_refl (outcome (list Z)) (Done []) <: BuyTest_LimitBuyWithFeeAndLimitedPrecisionExceedsMaxAmount = Done []).

(** base/account_test.cc:1512-1546 TEST(BuyTest, LimitBuyAtQuoteWithFeeAndLimitedPrecision): 6 checks. *)
Definition BuyTest_LimitBuyAtQuoteWithFeeAndLimitedPrecision : outcome (list Z) :=
  let a1 := set_max_volume_ratio account0 (fl 13421773 (-27)) in
  let a2 := set_base_unit a1 (fl 13421773 (-27)) in
  let a3 := set_quote_unit a2 (fl 1 0) in
  let a4 := set_base_balance a3 (fl 5 1) in
  let a5 := set_quote_balance a4 (fl 125 3) in
  let a6 := set_total_fee a5 (fl 0 0) in
  do r7 <- LimitBuyAtQuote (FeeConfig (fl 13421773 (-27)) (fl 1 0) (fl 3 (-1))) (OhlcTick 0 (fl 5 1) (fl 5 2) (fl 1 1) (fl 15 0) (fl 2528379 (-11))) (fl 57 0) (fl 1 0) a6 ;
  let a8 := snd r7 in
  do r9 <- LimitBuyAtQuote (FeeConfig (fl 13421773 (-27)) (fl 1 0) (fl 3 (-1))) (OhlcTick 0 (fl 5 1) (fl 5 2) (fl 1 1) (fl 15 0) (fl 2528379 (-11))) (fl 57 0) (fl 5 0) a8 ;
  let a10 := snd r9 in
  Done (failures [(1524, feq (GetMaxBaseAmount a1 (OhlcTick 0 (fl 5 1) (fl 5 2) (fl 1 1) (fl 15 0) (fl 2528379 (-11)))) (fl 16181625 (-17)));
    (1536, negb ((fst r7)));
    (1540, (fst r9));
    (1543, feq (base_balance a10) (fl 5 2));
    (1544, feq (quote_balance a10) (fl 59 4));
    (1545, feq (total_fee a10) (fl 3 1))]).
Check (@eq_refl (outcome (list Z)) (Done []) <: BuyTest_LimitBuyAtQuoteWithFeeAndLimitedPrecision = Done []).

(** base/account_test.cc:1548-1583 TEST(BuyTest, LimitBuyAtQuoteWithFeeAndLimitedPrecisionExceedsMaxAmount): 6 checks. *)
Definition BuyTest_LimitBuyAtQuoteWithFeeAndLimitedPrecisionExceedsMaxAmount : outcome (list Z) :=
  let a1 := set_max_volume_ratio account0 (fl 8589935 (-33)) in
  let a2 := set_base_unit a1 (fl 13421773 (-27)) in
  let a3 := set_quote_unit a2 (fl 1 0) in
  let a4 := set_base_balance a3 (fl 5 1) in
  let a5 := set_quote_balance a4 (fl 125 3) in
  let a6 := set_total_fee a5 (fl 0 0) in
  do r7 <- LimitBuyAtQuote (FeeConfig (fl 13421773 (-27)) (fl 1 0) (fl 3 (-1))) (OhlcTick 0 (fl 5 1) (fl 5 2) (fl 1 1) (fl 15 0) (fl 2528379 (-11))) (fl 57 0) (fl 1 0) a6 ;
  let a8 := snd r7 in
  do r9 <- LimitBuyAtQuote (FeeConfig (fl 13421773 (-27)) (fl 1 0) (fl 3 (-1))) (OhlcTick 0 (fl 5 1) (fl 5 2) (fl 1 1) (fl 15 0) (fl 2528379 (-11))) (fl 57 0) (fl 5 0) a8 ;
  let a10 := snd r9 in
  Done (failures [(1560, feq (GetMaxBaseAmount a1 (OhlcTick 0 (fl 5 1) (fl 5 2) (fl 1 1) (fl 15 0) (fl 2528379 (-11)))) (fl 647265 (-19)));
    (1573, negb ((fst r7)));
    (1577, (fst r9));
    (1580, feq (base_balance a10) (fl 11744051 (-20)));
    (1581, feq (quote_balance a10) (fl 31 5));
    (1582, feq (total_fee a10) (fl 1 1))]).
Check (@eq_refl (outcome (list Z)) (Done []) <: BuyTest_LimitBuyAtQuoteWithFeeAndLimitedPrecisionExceedsMaxAmount = Done []).

(** base/account_test.cc:1585-1619 TEST(SellTest, LimitSellWithFeeAndLimitedPrecision): 6 checks. *)
Definition SellTest_LimitSellWithFeeAndLimitedPrecision : outcome (list Z) :=
  let a1 := set_max_volume_ratio account0 (fl 13421773 (-27)) in
  let a2 := set_base_unit a1 (fl 13421773 (-27)) in
  let a3 := set_quote_unit a2 (fl 1 0) in
  let a4 := set_base_balance a3 (fl 15 0) in
  let a5 := set_quote_balance a4 (fl 475 1) in
  let a6 := set_total_fee a5 (fl 0 0) in
  do r7 <- LimitSell (FeeConfig (fl 13421773 (-27)) (fl 1 0) (fl 3 (-1))) (OhlcTick 0 (fl 5 1) (fl 5 2) (fl 1 1) (fl 15 0) (fl 2528379 (-11))) (fl 5 0) (fl 25 0) a6 ;
  let a8 := snd r7 in
  do r9 <- LimitSell (FeeConfig (fl 13421773 (-27)) (fl 1 0) (fl 3 (-1))) (OhlcTick 0 (fl 5 1) (fl 5 2) (fl 1 1) (fl 15 0) (fl 2528379 (-11))) (fl 5 0) (fl 5 1) a8 ;
  let a10 := snd r9 in
  Done (failures [(1597, feq (GetMaxBaseAmount a1 (OhlcTick 0 (fl 5 1) (fl 5 2) (fl 1 1) (fl 15 0) (fl 2528379 (-11)))) (fl 16181625 (-17)));
    (1609, negb ((fst r7)));
    (1613, (fst r9));
    (1616, feq (base_balance a10) (fl 5 1));
    (1617, feq (quote_balance a10) (fl 497 1));
    (1618, feq (total_fee a10) (fl 3 1))]).
Check (@eq_refl (outcome (list Z)) (Done []) <: SellTest_LimitSellWithFeeAndLimitedPrecision = Done []).

(** base/account_test.cc:1621-1656 TEST(SellTest, LimitSellWithFeeAndLimitedPrecisionExceedsMaxAmount): 6 checks. *)
Definition SellTest_LimitSellWithFeeAndLimitedPrecisionExceedsMaxAmount : outcome (list Z) :=
  let a1 := set_max_volume_ratio account0 (fl 8589935 (-33)) in
  let a2 := set_base_unit a1 (fl 13421773 (-27)) in
  let a3 := set_quote_unit a2 (fl 1 0) in
  let a4 := set_base_balance a3 (fl 15 0) in
  let a5 := set_quote_balance a4 (fl 475 1) in
  let a6 := set_total_fee a5 (fl 0 0) in
  do r7 <- LimitSell (FeeConfig (fl 13421773 (-27)) (fl 1 0) (fl 3 (-1))) (OhlcTick 0 (fl 5 1) (fl 5 2) (fl 1 1) (fl 15 0) (fl 2528379 (-11))) (fl 5 0) (fl 25 0) a6 ;
  let a8 := snd r7 in
  do r9 <- LimitSell (FeeConfig (fl 13421773 (-27)) (fl 1 0) (fl 3 (-1))) (OhlcTick 0 (fl 5 1) (fl 5 2) (fl 1 1) (fl 15 0) (fl 2528379 (-11))) (fl 5 0) (fl 5 1) a8 ;
  let a10 := snd r9 in
  Done (failures [(1633, feq (GetMaxBaseAmount a1 (OhlcTick 0 (fl 5 1) (fl 5 2) (fl 1 1) (fl 15 0) (fl 2528379 (-11)))) (fl 647265 (-19)));
    (1646, negb ((fst r7)));
    (1650, (fst r9));
    (1653, feq (base_balance a10) (fl 14470349 (-20)));
    (1654, feq (quote_balance a10) (fl 959 0));
    (1655, feq (total_fee a10) (fl 3 0))]).
Check (@eq_refl (outcome (list Z)) (Done []) <: SellTest_LimitSellWithFeeAndLimitedPrecisionExceedsMaxAmount = Done []).

(** base/account_test.cc:1658-1692 TEST(SellTest, LimitSellAtQuoteWithFeeAndLimitedPrecision): 6 checks. *)
Definition SellTest_LimitSellAtQuoteWithFeeAndLimitedPrecision : outcome (list Z) :=
  let a1 := set_max_volume_ratio account0 (fl 13421773 (-27)) in
  let a2 := set_base_unit a1 (fl 13421773 (-27)) in
  let a3 := set_quote_unit a2 (fl 1 0) in
  let a4 := set_base_balance a3 (fl 15 0) in
  let a5 := set_quote_balance a4 (fl 475 1) in
  let a6 := set_total_fee a5 (fl 0 0) in
  do r7 <- LimitSellAtQuote (FeeConfig (fl 13421773 (-27)) (fl 1 0) (fl 3 (-1))) (OhlcTick 0 (fl 5 1) (fl 5 2) (fl 1 1) (fl 15 0) (fl 2528379 (-11))) (fl 25 1) (fl 25 0) a6 ;
  let a8 := snd r7 in
  do r9 <- LimitSellAtQuote (FeeConfig (fl 13421773 (-27)) (fl 1 0) (fl 3 (-1))) (OhlcTick 0 (fl 5 1) (fl 5 2) (fl 1 1) (fl 15 0) (fl 2528379 (-11))) (fl 25 1) (fl 5 1) a8 ;
  let a10 := snd r9 in
  Done (failures [(1670, feq (GetMaxBaseAmount a1 (OhlcTick 0 (fl 5 1) (fl 5 2) (fl 1 1) (fl 15 0) (fl 2528379 (-11)))) (fl 16181625 (-17)));
    (1682, negb ((fst r7)));
    (1686, (fst r9));
    (1689, feq (base_balance a10) (fl 4928307 (-19)));
    (1690, feq (quote_balance a10) (fl 999 0));
    (1691, feq (total_fee a10) (fl 7 0))]).
Check (@eq_refl (outcome (list Z)) (Done []) <: SellTest_LimitSellAtQuoteWithFeeAndLimitedPrecision = Done []).

(** base/account_test.cc:1694-1729 TEST(SellTest, LimitSellAtQuoteWithFeeAndLimitedPrecisionExceedsMaxAmount): 6 checks. *)
Definition SellTest_LimitSellAtQuoteWithFeeAndLimitedPrecisionExceedsMaxAmount : outcome (list Z) :=
  let a1 := set_max_volume_ratio account0 (fl 8589935 (-33)) in
  let a2 := set_base_unit a1 (fl 13421773 (-27)) in
  let a3 := set_quote_unit a2 (fl 1 0) in
  let a4 := set_base_balance a3 (fl 15 0) in
  let a5 := set_quote_balance a4 (fl 475 1) in
  let a6 := set_total_fee a5 (fl 0 0) in
  do r7 <- LimitSellAtQuote (FeeConfig (fl 13421773 (-27)) (fl 1 0) (fl 3 (-1))) (OhlcTick 0 (fl 5 1) (fl 5 2) (fl 1 1) (fl 15 0) (fl 2528379 (-11))) (fl 25 1) (fl 25 0) a6 ;
  let a8 := snd r7 in
  do r9 <- LimitSellAtQuote (FeeConfig (fl 13421773 (-27)) (fl 1 0) (fl 3 (-1))) (OhlcTick 0 (fl 5 1) (fl 5 2) (fl 1 1) (fl 15 0) (fl 2528379 (-11))) (fl 25 1) (fl 5 1) a8 ;
  let a10 := snd r9 in
  Done (failures [(1706, feq (GetMaxBaseAmount a1 (OhlcTick 0 (fl 5 1) (fl 5 2) (fl 1 1) (fl 15 0) (fl 2528379 (-11)))) (fl 647265 (-19)));
    (1719, negb ((fst r7)));
    (1723, (fst r9));
    (1726, feq (base_balance a10) (fl 14470349 (-20)));
    (1727, feq (quote_balance a10) (fl 959 0));
    (1728, feq (total_fee a10) (fl 3 0))]).
Check (@eq_refl (outcome (list Z)) (Done []) <: SellTest_LimitSellAtQuoteWithFeeAndLimitedPrecisionExceedsMaxAmount = Done []).

(** base/account_test.cc:1731-1759 TEST(ExecuteOrderTest, MarketBuyWithFeeAndLimitedPrecision): 4 checks. *)
Definition ExecuteOrderTest_MarketBuyWithFeeAndLimitedPrecision : outcome (list Z) :=
  let a1 := set_market_liquidity account0 (fl 1 (-1)) in
  let a2 := set_base_unit a1 (fl 13421773 (-27)) in
  let a3 := set_quote_unit a2 (fl 1 0) in
  let a4 := set_base_balance a3 (fl 5 1) in
  let a5 := set_quote_balance a4 (fl 125 3) in
  let a6 := set_total_fee a5 (fl 0 0) in
  do r7 <- ExecuteOrder (AccountConfig (fl 0 0) (fl 0 0) (fl 0 0) (fl 0 0) (FeeConfig (fl 13421773 (-27)) (fl 1 0) (fl 3 (-1))) (FeeConfig (fl 0 0) (fl 0 0) (fl 0 0)) (FeeConfig (fl 0 0) (fl 0 0) (fl 0 0)) (fl 1 0) (fl 0 0)) (Order (Some MARKET) (Some BUY) (BaseAmount (fl 5 1)) None) (OhlcTick 0 (fl 5 1) (fl 5 2) (fl 1 1) (fl 15 0) (fl 2528379 (-11))) a6 ;
  let a8 := snd r7 in
  Done (failures [(1755, (fst r7));
    (1756, feq (base_balance a8) (fl 5 2));
    (1757, feq (quote_balance a8) (fl 417 1));
    (1758, feq (total_fee a8) (fl 1 4))]).
Check (@eq_refl (outcome (list Z)) (Done []) <: ExecuteOrderTest_MarketBuyWithFeeAndLimitedPrecision = Done []).

(** base/account_test.cc:1761-1789 TEST(ExecuteOrderTest, MarketBuyAtQuoteWithFeeAndLimitedPrecision): 4 checks. *)
Definition ExecuteOrderTest_MarketBuyAtQuoteWithFeeAndLimitedPrecision : outcome (list Z) :=
  let a1 := set_market_liquidity account0 (fl 1 (-1)) in
  let a2 := set_base_unit a1 (fl 13421773 (-27)) in
  let a3 := set_quote_unit a2 (fl 1 0) in
  let a4 := set_base_balance a3 (fl 5 1) in
  let a5 := set_quote_balance a4 (fl 125 3) in
  let a6 := set_total_fee a5 (fl 0 0) in
  do r7 <- ExecuteOrder (AccountConfig (fl 0 0) (fl 0 0) (fl 0 0) (fl 0 0) (FeeConfig (fl 13421773 (-27)) (fl 1 0) (fl 3 (-1))) (FeeConfig (fl 0 0) (fl 0 0) (fl 0 0)) (FeeConfig (fl 0 0) (fl 0 0) (fl 0 0)) (fl 1 0) (fl 0 0)) (Order (Some MARKET) (Some BUY) (QuoteAmount (fl 169 0)) None) (OhlcTick 0 (fl 5 1) (fl 5 2) (fl 1 1) (fl 15 0) (fl 2528379 (-11))) a6 ;
  let a8 := snd r7 in
  Done (failures [(1785, (fst r7));
    (1786, feq (base_balance a8) (fl 5 2));
    (1787, feq (quote_balance a8) (fl 417 1));
    (1788, feq (total_fee a8) (fl 1 4))]).
Check (@eq_refl (outcome (list Z)) (Done []) <: ExecuteOrderTest_MarketBuyAtQuoteWithFeeAndLimitedPrecision = Done []).

(** base/account_test.cc:1791-1819 TEST(ExecuteOrderTest, MarketSellWithFeeAndLimitedPrecision): 4 checks. *)
Definition ExecuteOrderTest_MarketSellWithFeeAndLimitedPrecision : outcome (list Z) :=
  let a1 := set_market_liquidity account0 (fl 1 0) in
  let a2 := set_base_unit a1 (fl 13421773 (-27)) in
  let a3 := set_quote_unit a2 (fl 1 0) in
  let a4 := set_base_balance a3 (fl 15 0) in
  let a5 := set_quote_balance a4 (fl 475 1) in
  let a6 := set_total_fee a5 (fl 0 0) in
  do r7 <- ExecuteOrder (AccountConfig (fl 0 0) (fl 0 0) (fl 0 0) (fl 0 0) (FeeConfig (fl 13421773 (-27)) (fl 1 0) (fl 3 (-1))) (FeeConfig (fl 0 0) (fl 0 0) (fl 0 0)) (FeeConfig (fl 0 0) (fl 0 0) (fl 0 0)) (fl 1 0) (fl 0 0)) (Order (Some MARKET) (Some SELL) (BaseAmount (fl 5 0)) None) (OhlcTick 0 (fl 5 1) (fl 5 2) (fl 1 1) (fl 15 0) (fl 2528379 (-11))) a6 ;
  let a8 := snd r7 in
  Done (failures [(1815, (fst r7));
    (1816, feq (base_balance a8) (fl 5 1));
    (1817, feq (quote_balance a8) (fl 497 1));
    (1818, feq (total_fee a8) (fl 3 1))]).
Check (@eq_refl (outcome (list Z)) (Done []) <: ExecuteOrderTest_MarketSellWithFeeAndLimitedPrecision = Done []).

(** base/account_test.cc:1821-1849 TEST(ExecuteOrderTest, MarketSellAtQuoteWithFeeAndLimitedPrecision): 4 checks. *)
Definition ExecuteOrderTest_MarketSellAtQuoteWithFeeAndLimitedPrecision : outcome (list Z) :=
  let a1 := set_market_liquidity account0 (fl 1 0) in
  let a2 := set_base_unit a1 (fl 13421773 (-27)) in
  let a3 := set_quote_unit a2 (fl 1 0) in
  let a4 := set_base_balance a3 (fl 15 0) in
  let a5 := set_quote_balance a4 (fl 475 1) in
  let a6 := set_total_fee a5 (fl 0 0) in
  do r7 <- ExecuteOrder (AccountConfig (fl 0 0) (fl 0 0) (fl 0 0) (fl 0 0) (FeeConfig (fl 13421773 (-27)) (fl 1 0) (fl 3 (-1))) (FeeConfig (fl 0 0) (fl 0 0) (fl 0 0)) (FeeConfig (fl 0 0) (fl 0 0) (fl 0 0)) (fl 1 0) (fl 0 0)) (Order (Some MARKET) (Some SELL) (QuoteAmount (fl 25 1)) None) (OhlcTick 0 (fl 5 1) (fl 5 2) (fl 1 1) (fl 15 0) (fl 2528379 (-11))) a6 ;
  let a8 := snd r7 in
  Done (failures [(1845, (fst r7));
    (1846, feq (base_balance a8) (fl 4928307 (-19)));
    (1847, feq (quote_balance a8) (fl 999 0));
    (1848, feq (total_fee a8) (fl 7 0))]).
Check (@eq_refl (outcome (list Z)) (Done []) <: ExecuteOrderTest_MarketSellAtQuoteWithFeeAndLimitedPrecision = Done []).

(** base/account_test.cc:1851-1885 TEST(ExecuteOrderTest, StopBuyWithFeeAndLimitedPrecision): 5 checks. *)
Definition ExecuteOrderTest_StopBuyWithFeeAndLimitedPrecision : outcome (list Z) :=
  let a1 := set_market_liquidity account0 (fl 1 (-1)) in
  let a2 := set_base_unit a1 (fl 13421773 (-27)) in
  let a3 := set_quote_unit a2 (fl 1 0) in
  let a4 := set_base_balance a3 (fl 5 1) in
  let a5 := set_quote_balance a4 (fl 125 3) in
  let a6 := set_total_fee a5 (fl 0 0) in
  do r7 <- ExecuteOrder (AccountConfig (fl 0 0) (fl 0 0) (fl 0 0) (fl 0 0) (FeeConfig (fl 0 0) (fl 0 0) (fl 0 0)) (FeeConfig (fl 13421773 (-27)) (fl 1 0) (fl 3 (-1))) (FeeConfig (fl 0 0) (fl 0 0) (fl 0 0)) (fl 1 0) (fl 0 0)) (Order (Some STOP) (Some BUY) (BaseAmount (fl 5 1)) (Some (fl 25 0))) (OhlcTick 0 (fl 5 1) (fl 5 2) (fl 1 1) (fl 15 0) (fl 2528379 (-11))) a6 ;
  let a8 := snd r7 in
  do r9 <- ExecuteOrder (AccountConfig (fl 0 0) (fl 0 0) (fl 0 0) (fl 0 0) (FeeConfig (fl 0 0) (fl 0 0) (fl 0 0)) (FeeConfig (fl 13421773 (-27)) (fl 1 0) (fl 3 (-1))) (FeeConfig (fl 0 0) (fl 0 0) (fl 0 0)) (fl 1 0) (fl 0 0)) (Order (Some STOP) (Some BUY) (BaseAmount (fl 5 1)) (Some (fl 15 0))) (OhlcTick 0 (fl 5 1) (fl 5 2) (fl 1 1) (fl 15 0) (fl 2528379 (-11))) a8 ;
  let a10 := snd r9 in
  Done (failures [(1878, negb ((fst r7)));
    (1881, (fst r9));
    (1882, feq (base_balance a10) (fl 5 2));
    (1883, feq (quote_balance a10) (fl 403 1));
    (1884, feq (total_fee a10) (fl 19 0))]).
Check (@eq_refl (outcome (list Z)) (Done []) <: ExecuteOrderTest_StopBuyWithFeeAndLimitedPrecision = Done []).

(** base/account_test.cc:1887-1921 TEST(ExecuteOrderTest, StopBuyAtQuoteWithFeeAndLimitedPrecision): 5 checks. *)
Definition ExecuteOrderTest_StopBuyAtQuoteWithFeeAndLimitedPrecision : outcome (list Z) :=
  let a1 := set_market_liquidity account0 (fl 1 (-1)) in
  let a2 := set_base_unit a1 (fl 13421773 (-27)) in
  let a3 := set_quote_unit a2 (fl 1 0) in
  let a4 := set_base_balance a3 (fl 5 1) in
  let a5 := set_quote_balance a4 (fl 125 3) in
  let a6 := set_total_fee a5 (fl 0 0) in
  do r7 <- ExecuteOrder (AccountConfig (fl 0 0) (fl 0 0) (fl 0 0) (fl 0 0) (FeeConfig (fl 0 0) (fl 0 0) (fl 0 0)) (FeeConfig (fl 13421773 (-27)) (fl 1 0) (fl 3 (-1))) (FeeConfig (fl 0 0) (fl 0 0) (fl 0 0)) (fl 1 0) (fl 0 0)) (Order (Some STOP) (Some BUY) (QuoteAmount (fl 197 0)) (Some (fl 25 0))) (OhlcTick 0 (fl 5 1) (fl 5 2) (fl 1 1) (fl 15 0) (fl 2528379 (-11))) a6 ;
  let a8 := snd r7 in
  do r9 <- ExecuteOrder (AccountConfig (fl 0 0) (fl 0 0) (fl 0 0) (fl 0 0) (FeeConfig (fl 0 0) (fl 0 0) (fl 0 0)) (FeeConfig (fl 13421773 (-27)) (fl 1 0) (fl 3 (-1))) (FeeConfig (fl 0 0) (fl 0 0) (fl 0 0)) (fl 1 0) (fl 0 0)) (Order (Some STOP) (Some BUY) (QuoteAmount (fl 197 0)) (Some (fl 15 0))) (OhlcTick 0 (fl 5 1) (fl 5 2) (fl 1 1) (fl 15 0) (fl 2528379 (-11))) a8 ;
  let a10 := snd r9 in
  Done (failures [(1914, negb ((fst r7)));
    (1917, (fst r9));
    (1918, feq (base_balance a10) (fl 5 2));
    (1919, feq (quote_balance a10) (fl 403 1));
    (1920, feq (total_fee a10) (fl 19 0))]).
Check (@eq_refl (outcome (list Z)) (Done []) <: ExecuteOrderTest_StopBuyAtQuoteWithFeeAndLimitedPrecision = Done []).

(** base/account_test.cc:1923-1957 TEST(ExecuteOrderTest, StopSellWithFeeAndLimitedPrecision): 5 checks. *)
Definition ExecuteOrderTest_StopSellWithFeeAndLimitedPrecision : outcome (list Z) :=
  let a1 := set_market_liquidity account0 (fl 1 0) in
  let a2 := set_base_unit a1 (fl 13421773 (-27)) in
  let a3 := set_quote_unit a2 (fl 1 0) in
  let a4 := set_base_balance a3 (fl 15 0) in
  let a5 := set_quote_balance a4 (fl 475 1) in
  let a6 := set_total_fee a5 (fl 0 0) in
  do r7 <- ExecuteOrder (AccountConfig (fl 0 0) (fl 0 0) (fl 0 0) (fl 0 0) (FeeConfig (fl 0 0) (fl 0 0) (fl 0 0)) (FeeConfig (fl 13421773 (-27)) (fl 1 0) (fl 3 (-1))) (FeeConfig (fl 0 0) (fl 0 0) (fl 0 0)) (fl 1 0) (fl 0 0)) (Order (Some STOP) (Some SELL) (BaseAmount (fl 5 0)) (Some (fl 1 0))) (OhlcTick 0 (fl 5 1) (fl 5 2) (fl 1 1) (fl 15 0) (fl 2528379 (-11))) a6 ;
  let a8 := snd r7 in
  do r9 <- ExecuteOrder (AccountConfig (fl 0 0) (fl 0 0) (fl 0 0) (fl 0 0) (FeeConfig (fl 0 0) (fl 0 0) (fl 0 0)) (FeeConfig (fl 13421773 (-27)) (fl 1 0) (fl 3 (-1))) (FeeConfig (fl 0 0) (fl 0 0) (fl 0 0)) (fl 1 0) (fl 0 0)) (Order (Some STOP) (Some SELL) (BaseAmount (fl 5 0)) (Some (fl 5 0))) (OhlcTick 0 (fl 5 1) (fl 5 2) (fl 1 1) (fl 15 0) (fl 2528379 (-11))) a8 ;
  let a10 := snd r9 in
  Done (failures [(1950, negb ((fst r7)));
    (1953, (fst r9));
    (1954, feq (base_balance a10) (fl 5 1));
    (1955, feq (quote_balance a10) (fl 971 0));
    (1956, feq (total_fee a10) (fl 1 2))]).
Check (@eq_refl (outcome (list Z)) (Done []) <: ExecuteOrderTest_StopSellWithFeeAndLimitedPrecision = Done []).

(** base/account_test.cc:1959-1993 TEST(ExecuteOrderTest, StopSellAtQuoteWithFeeAndLimitedPrecision): 5 checks. *)
Definition ExecuteOrderTest_StopSellAtQuoteWithFeeAndLimitedPrecision : outcome (list Z) :=
  let a1 := set_market_liquidity account0 (fl 1 0) in
  let a2 := set_base_unit a1 (fl 13421773 (-27)) in
  let a3 := set_quote_unit a2 (fl 1 0) in
  let a4 := set_base_balance a3 (fl 15 0) in
  let a5 := set_quote_balance a4 (fl 475 1) in
  let a6 := set_total_fee a5 (fl 0 0) in
  do r7 <- ExecuteOrder (AccountConfig (fl 0 0) (fl 0 0) (fl 0 0) (fl 0 0) (FeeConfig (fl 0 0) (fl 0 0) (fl 0 0)) (FeeConfig (fl 13421773 (-27)) (fl 1 0) (fl 3 (-1))) (FeeConfig (fl 0 0) (fl 0 0) (fl 0 0)) (fl 1 0) (fl 0 0)) (Order (Some STOP) (Some SELL) (QuoteAmount (fl 25 1)) (Some (fl 1 0))) (OhlcTick 0 (fl 5 1) (fl 5 2) (fl 1 1) (fl 15 0) (fl 2528379 (-11))) a6 ;
  let a8 := snd r7 in
  do r9 <- ExecuteOrder (AccountConfig (fl 0 0) (fl 0 0) (fl 0 0) (fl 0 0) (FeeConfig (fl 0 0) (fl 0 0) (fl 0 0)) (FeeConfig (fl 13421773 (-27)) (fl 1 0) (fl 3 (-1))) (FeeConfig (fl 0 0) (fl 0 0) (fl 0 0)) (fl 1 0) (fl 0 0)) (Order (Some STOP) (Some SELL) (QuoteAmount (fl 25 1)) (Some (fl 5 0))) (OhlcTick 0 (fl 5 1) (fl 5 2) (fl 1 1) (fl 15 0) (fl 2528379 (-11))) a8 ;
  let a10 := snd r9 in
  Done (failures [(1986, negb ((fst r7)));
    (1989, (fst r9));
    (1990, feq (base_balance a10) (fl 15938355 (-22)));
    (1991, feq (quote_balance a10) (fl 999 0));
    (1992, feq (total_fee a10) (fl 7 0))]).
Check (@eq_refl (outcome (list Z)) (Done []) <: ExecuteOrderTest_StopSellAtQuoteWithFeeAndLimitedPrecision = Done []).

(** base/account_test.cc:1995-2029 TEST(ExecuteOrderTest, LimitBuyWithFeeAndLimitedPrecision): 5 checks. *)
Definition ExecuteOrderTest_LimitBuyWithFeeAndLimitedPrecision : outcome (list Z) :=
  let a1 := set_max_volume_ratio account0 (fl 13421773 (-27)) in
  let a2 := set_base_unit a1 (fl 13421773 (-27)) in
  let a3 := set_quote_unit a2 (fl 1 0) in
  let a4 := set_base_balance a3 (fl 5 1) in
  let a5 := set_quote_balance a4 (fl 125 3) in
  let a6 := set_total_fee a5 (fl 0 0) in
  do r7 <- ExecuteOrder (AccountConfig (fl 0 0) (fl 0 0) (fl 0 0) (fl 0 0) (FeeConfig (fl 0 0) (fl 0 0) (fl 0 0)) (FeeConfig (fl 0 0) (fl 0 0) (fl 0 0)) (FeeConfig (fl 13421773 (-27)) (fl 1 0) (fl 3 (-1))) (fl 1 0) (fl 0 0)) (Order (Some LIMIT) (Some BUY) (BaseAmount (fl 5 1)) (Some (fl 1 0))) (OhlcTick 0 (fl 5 1) (fl 5 2) (fl 1 1) (fl 15 0) (fl 2528379 (-11))) a6 ;
  let a8 := snd r7 in
  do r9 <- ExecuteOrder (AccountConfig (fl 0 0) (fl 0 0) (fl 0 0) (fl 0 0) (FeeConfig (fl 0 0) (fl 0 0) (fl 0 0)) (FeeConfig (fl 0 0) (fl 0 0) (fl 0 0)) (FeeConfig (fl 13421773 (-27)) (fl 1 0) (fl 3 (-1))) (fl 1 0) (fl 0 0)) (Order (Some LIMIT) (Some BUY) (BaseAmount (fl 5 1)) (Some (fl 5 0))) (OhlcTick 0 (fl 5 1) (fl 5 2) (fl 1 1) (fl 15 0) (fl 2528379 (-11))) a8 ;
  let a10 := snd r9 in
  Done (failures [(2022, negb ((fst r7)));
    (2025, (fst r9));
    (2026, feq (base_balance a10) (fl 5 2));
    (2027, feq (quote_balance a10) (fl 59 4));
    (2028, feq (total_fee a10) (fl 3 1))]).
Check (@eq_refl (outcome (list Z)) (Done []) <: ExecuteOrderTest_LimitBuyWithFeeAndLimitedPrecision = Done []).

(** base/account_test.cc:2031-2065 TEST(ExecuteOrderTest, LimitBuyAtQuoteWithFeeAndLimitedPrecision): 5 checks. *)
Definition ExecuteOrderTest_LimitBuyAtQuoteWithFeeAndLimitedPrecision : outcome (list Z) :=
  let a1 := set_max_volume_ratio account0 (fl 13421773 (-27)) in
  let a2 := set_base_unit a1 (fl 13421773 (-27)) in
  let a3 := set_quote_unit a2 (fl 1 0) in
  let a4 := set_base_balance a3 (fl 5 1) in
  let a5 := set_quote_balance a4 (fl 125 3) in
  let a6 := set_total_fee a5 (fl 0 0) in
  do r7 <- ExecuteOrder (AccountConfig (fl 0 0) (fl 0 0) (fl 0 0) (fl 0 0) (FeeConfig (fl 0 0) (fl 0 0) (fl 0 0)) (FeeConfig (fl 0 0) (fl 0 0) (fl 0 0)) (FeeConfig (fl 13421773 (-27)) (fl 1 0) (fl 3 (-1))) (fl 1 0) (fl 0 0)) (Order (Some LIMIT) (Some BUY) (QuoteAmount (fl 57 0)) (Some (fl 1 0))) (OhlcTick 0 (fl 5 1) (fl 5 2) (fl 1 1) (fl 15 0) (fl 2528379 (-11))) a6 ;
  let a8 := snd r7 in
  do r9 <- ExecuteOrder (AccountConfig (fl 0 0) (fl 0 0) (fl 0 0) (fl 0 0) (FeeConfig (fl 0 0) (fl 0 0) (fl 0 0)) (FeeConfig (fl 0 0) (fl 0 0) (fl 0 0)) (FeeConfig (fl 13421773 (-27)) (fl 1 0) (fl 3 (-1))) (fl 1 0) (fl 0 0)) (Order (Some LIMIT) (Some BUY) (QuoteAmount (fl 57 0)) (Some (fl 5 0))) (OhlcTick 0 (fl 5 1) (fl 5 2) (fl 1 1) (fl 15 0) (fl 2528379 (-11))) a8 ;
  let a10 := snd r9 in
  Done (failures [(2058, negb ((fst r7)));
    (2061, (fst r9));
    (2062, feq (base_balance a10) (fl 5 2));
    (2063, feq (quote_balance a10) (fl 59 4));
    (2064, feq (total_fee a10) (fl 3 1))]).
Check (@eq_refl (outcome (list Z)) (Done []) <: ExecuteOrderTest_LimitBuyAtQuoteWithFeeAndLimitedPrecision = Done []).

(** base/account_test.cc:2067-2101 TEST(ExecuteOrderTest, LimitSellWithFeeAndLimitedPrecision): 5 checks. *)
Definition ExecuteOrderTest_LimitSellWithFeeAndLimitedPrecision : outcome (list Z) :=
  let a1 := set_max_volume_ratio account0 (fl 13421773 (-27)) in
  let a2 := set_base_unit a1 (fl 13421773 (-27)) in
  let a3 := set_quote_unit a2 (fl 1 0) in
  let a4 := set_base_balance a3 (fl 15 0) in
  let a5 := set_quote_balance a4 (fl 475 1) in
  let a6 := set_total_fee a5 (fl 0 0) in
  do r7 <- ExecuteOrder (AccountConfig (fl 0 0) (fl 0 0) (fl 0 0) (fl 0 0) (FeeConfig (fl 0 0) (fl 0 0) (fl 0 0)) (FeeConfig (fl 0 0) (fl 0 0) (fl 0 0)) (FeeConfig (fl 13421773 (-27)) (fl 1 0) (fl 3 (-1))) (fl 1 0) (fl 0 0)) (Order (Some LIMIT) (Some SELL) (BaseAmount (fl 5 0)) (Some (fl 25 0))) (OhlcTick 0 (fl 5 1) (fl 5 2) (fl 1 1) (fl 15 0) (fl 2528379 (-11))) a6 ;
  let a8 := snd r7 in
  do r9 <- ExecuteOrder (AccountConfig (fl 0 0) (fl 0 0) (fl 0 0) (fl 0 0) (FeeConfig (fl 0 0) (fl 0 0) (fl 0 0)) (FeeConfig (fl 0 0) (fl 0 0) (fl 0 0)) (FeeConfig (fl 13421773 (-27)) (fl 1 0) (fl 3 (-1))) (fl 1 0) (fl 0 0)) (Order (Some LIMIT) (Some SELL) (BaseAmount (fl 5 0)) (Some (fl 5 1))) (OhlcTick 0 (fl 5 1) (fl 5 2) (fl 1 1) (fl 15 0) (fl 2528379 (-11))) a8 ;
  let a10 := snd r9 in
  Done (failures [(2094, negb ((fst r7)));
    (2097, (fst r9));
    (2098, feq (base_balance a10) (fl 5 1));
    (2099, feq (quote_balance a10) (fl 497 1));
    (2100, feq (total_fee a10) (fl 3 1))]).
Check (@eq_refl (outcome (list Z)) (Done []) <: ExecuteOrderTest_LimitSellWithFeeAndLimitedPrecision = Done []).

(** base/account_test.cc:2103-2137 TEST(ExecuteOrderTest, LimitSellAtQuoteWithFeeAndLimitedPrecision): 5 checks. *)
Definition ExecuteOrderTest_LimitSellAtQuoteWithFeeAndLimitedPrecision : outcome (list Z) :=
  let a1 := set_max_volume_ratio account0 (fl 13421773 (-27)) in
  let a2 := set_base_unit a1 (fl 13421773 (-27)) in
  let a3 := set_quote_unit a2 (fl 1 0) in
  let a4 := set_base_balance a3 (fl 15 0) in
  let a5 := set_quote_balance a4 (fl 475 1) in
  let a6 := set_total_fee a5 (fl 0 0) in
  do r7 <- ExecuteOrder (AccountConfig (fl 0 0) (fl 0 0) (fl 0 0) (fl 0 0) (FeeConfig (fl 0 0) (fl 0 0) (fl 0 0)) (FeeConfig (fl 0 0) (fl 0 0) (fl 0 0)) (FeeConfig (fl 13421773 (-27)) (fl 1 0) (fl 3 (-1))) (fl 1 0) (fl 0 0)) (Order (Some LIMIT) (Some SELL) (QuoteAmount (fl 25 1)) (Some (fl 25 0))) (OhlcTick 0 (fl 5 1) (fl 5 2) (fl 1 1) (fl 15 0) (fl 2528379 (-11))) a6 ;
  let a8 := snd r7 in
  do r9 <- ExecuteOrder (AccountConfig (fl 0 0) (fl 0 0) (fl 0 0) (fl 0 0) (FeeConfig (fl 0 0) (fl 0 0) (fl 0 0)) (FeeConfig (fl 0 0) (fl 0 0) (fl 0 0)) (FeeConfig (fl 13421773 (-27)) (fl 1 0) (fl 3 (-1))) (fl 1 0) (fl 0 0)) (Order (Some LIMIT) (Some SELL) (QuoteAmount (fl 25 1)) (Some (fl 5 1))) (OhlcTick 0 (fl 5 1) (fl 5 2) (fl 1 1) (fl 15 0) (fl 2528379 (-11))) a8 ;
  let a10 := snd r9 in
  Done (failures [(2130, negb ((fst r7)));
    (2133, (fst r9));
    (2134, feq (base_balance a10) (fl 4928307 (-19)));
    (2135, feq (quote_balance a10) (fl 999 0));
    (2136, feq (total_fee a10) (fl 7 0))]).
Check (@eq_refl (outcome (list Z)) (Done []) <: ExecuteOrderTest_LimitSellAtQuoteWithFeeAndLimitedPrecision = Done []).
