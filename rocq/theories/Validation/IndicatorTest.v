(** GENERATED from indicators/last_n_ohlc_ticks_test.cc, indicators/simple_moving_average_test.cc, indicators/exponential_moving_average_test.cc, indicators/moving_average_convergence_divergence_test.cc, indicators/stochastic_oscillator_test.cc, indicators/relative_strength_index_test.cc, indicators/volatility_test.cc by tools/gen_tests.py: the repository's unit tests, run on the
    model (see TestKit.v).  Each [Check] fails to build if a test does not pass. *)

From Coq Require Import ZArith Bool List String.
From Verif.Model Require Import Outcome Machine Types Account History SideInput Indicators
  TimeUtil TimeText Eval Traders CsvLogger MachineIEEE Proto Files.
From Verif.Validation Require Import TestKit.
Import ListNotations.
Local Open Scope Z_scope.

(** indicators/last_n_ohlc_ticks_test.cc:24-313 TEST(LastNOhlcTicksTest, GetLast3DaysWhenAdding8HourOhlcTicks): 373 checks. *)
Definition LastNOhlcTicksTest_GetLast3DaysWhenAdding8HourOhlcTicks : outcome (list Z) :=
  do x1 <- LastN_check 3 86400 ;
  do x2 <- LastN_Update record_event 3 86400 (([] : list ohlc_tick), ([] : list tick_event)) (OhlcTick 1483228800 (fl 25 2) (fl 75 1) (fl 5 4) (fl 15 3) (fl 125 3)) ;
  do x3 <- LastN_Update record_event 3 86400 x2 (OhlcTick 1483257600 (fl 15 3) (fl 45 2) (fl 25 2) (fl 75 1) (fl 125 3)) ;
  do x4 <- LastN_Update record_event 3 86400 x3 (OhlcTick 1483286400 (fl 75 1) (fl 125 1) (fl 25 2) (fl 35 2) (fl 125 3)) ;
  do x5 <- LastN_Update record_event 3 86400 x4 (OhlcTick 1483315200 (fl 35 2) (fl 75 1) (fl 5 4) (fl 25 2) (fl 125 3)) ;
  do x6 <- LastN_Update record_event 3 86400 x5 (OhlcTick 1483344000 (fl 25 2) (fl 15 3) (fl 5 2) (fl 25 1) (fl 125 3)) ;
  do x7 <- LastN_Update record_event 3 86400 x6 (OhlcTick 1483372800 (fl 25 1) (fl 25 2) (fl 5 3) (fl 5 4) (fl 125 3)) ;
  do x8 <- LastN_Update record_event 3 86400 x7 (OhlcTick 1483401600 (fl 5 4) (fl 45 2) (fl 25 1) (fl 75 1) (fl 125 3)) ;
  do x9 <- LastN_Update record_event 3 86400 x8 (OhlcTick 1483430400 (fl 75 1) (fl 125 1) (fl 15 3) (fl 15 4) (fl 125 3)) ;
  do x10 <- LastN_Update record_event 3 86400 x9 (OhlcTick 1483459200 (fl 15 4) (fl 225 1) (fl 55 2) (fl 25 4) (fl 125 3)) ;
  do x11 <- LastN_Update record_event 3 86400 x10 (OhlcTick 1483488000 (fl 25 4) (fl 225 1) (fl 125 1) (fl 75 2) (fl 125 3)) ;
  do x12 <- LastN_Update record_event 3 86400 x11 (OhlcTick 1483516800 (fl 75 2) (fl 175 2) (fl 55 2) (fl 325 1) (fl 125 3)) ;
  do x13 <- LastN_Update record_event 3 86400 x12 (OhlcTick 1483689600 (fl 325 1) (fl 25 5) (fl 75 3) (fl 375 1) (fl 125 3)) ;
  Done (failures [(55, (size (rev (fst (([] : list ohlc_tick), ([] : list tick_event)))) =? 0));
    (61, ((size (rev (fst x2))) =? 1));
    (62, ((timestamp_sec (idx tick0 (rev (fst x2)) 0)) =? 1483228800));
    (62, feq (open (idx tick0 (rev (fst x2)) 0)) (fl 25 2));
    (62, feq (high (idx tick0 (rev (fst x2)) 0)) (fl 75 1));
    (62, feq (low (idx tick0 (rev (fst x2)) 0)) (fl 5 4));
    (62, feq (close (idx tick0 (rev (fst x2)) 0)) (fl 15 3));
    (62, feq (volume (idx tick0 (rev (fst x2)) 0)) (fl 125 3));
    (64, ((size (updated_old (snd x2))) =? 0));
    (65, ((size (updated_new (snd x2))) =? 0));
    (66, ((size (added_new (snd x2))) =? 1));
    (67, ((timestamp_sec (List.last (added_new (snd x2)) tick0)) =? 1483228800));
    (67, feq (open (List.last (added_new (snd x2)) tick0)) (fl 25 2));
    (67, feq (high (List.last (added_new (snd x2)) tick0)) (fl 75 1));
    (67, feq (low (List.last (added_new (snd x2)) tick0)) (fl 5 4));
    (67, feq (close (List.last (added_new (snd x2)) tick0)) (fl 15 3));
    (67, feq (volume (List.last (added_new (snd x2)) tick0)) (fl 125 3));
    (69, ((size (shifted_removed (snd x2))) =? 0));
    (70, ((size (shifted_new (snd x2))) =? 0));
    (76, ((size (rev (fst x3))) =? 1));
    (77, ((timestamp_sec (idx tick0 (rev (fst x3)) 0)) =? 1483228800));
    (77, feq (open (idx tick0 (rev (fst x3)) 0)) (fl 25 2));
    (77, feq (high (idx tick0 (rev (fst x3)) 0)) (fl 45 2));
    (77, feq (low (idx tick0 (rev (fst x3)) 0)) (fl 5 4));
    (77, feq (close (idx tick0 (rev (fst x3)) 0)) (fl 75 1));
    (77, feq (volume (idx tick0 (rev (fst x3)) 0)) (fl 125 4));
    (79, ((size (updated_old (snd x3))) =? 1));
    (80, ((timestamp_sec (List.last (updated_old (snd x3)) tick0)) =? 1483228800));
    (80, feq (open (List.last (updated_old (snd x3)) tick0)) (fl 25 2));
    (80, feq (high (List.last (updated_old (snd x3)) tick0)) (fl 75 1));
    (80, feq (low (List.last (updated_old (snd x3)) tick0)) (fl 5 4));
    (80, feq (close (List.last (updated_old (snd x3)) tick0)) (fl 15 3));
    (80, feq (volume (List.last (updated_old (snd x3)) tick0)) (fl 125 3));
    (82, ((size (updated_new (snd x3))) =? 1));
    (83, ((timestamp_sec (List.last (updated_new (snd x3)) tick0)) =? 1483228800));
    (83, feq (open (List.last (updated_new (snd x3)) tick0)) (fl 25 2));
    (83, feq (high (List.last (updated_new (snd x3)) tick0)) (fl 45 2));
    (83, feq (low (List.last (updated_new (snd x3)) tick0)) (fl 5 4));
    (83, feq (close (List.last (updated_new (snd x3)) tick0)) (fl 75 1));
    (83, feq (volume (List.last (updated_new (snd x3)) tick0)) (fl 125 4));
    (85, ((size (added_new (snd x3))) =? 1));
    (86, ((size (shifted_removed (snd x3))) =? 0));
    (87, ((size (shifted_new (snd x3))) =? 0));
    (93, ((size (rev (fst x4))) =? 1));
    (94, ((timestamp_sec (idx tick0 (rev (fst x4)) 0)) =? 1483228800));
    (94, feq (open (idx tick0 (rev (fst x4)) 0)) (fl 25 2));
    (94, feq (high (idx tick0 (rev (fst x4)) 0)) (fl 125 1));
    (94, feq (low (idx tick0 (rev (fst x4)) 0)) (fl 5 4));
    (94, feq (close (idx tick0 (rev (fst x4)) 0)) (fl 35 2));
    (94, feq (volume (idx tick0 (rev (fst x4)) 0)) (fl 375 3));
    (96, ((size (updated_old (snd x4))) =? 2));
    (97, ((timestamp_sec (List.last (updated_old (snd x4)) tick0)) =? 1483228800));
    (97, feq (open (List.last (updated_old (snd x4)) tick0)) (fl 25 2));
    (97, feq (high (List.last (updated_old (snd x4)) tick0)) (fl 45 2));
    (97, feq (low (List.last (updated_old (snd x4)) tick0)) (fl 5 4));
    (97, feq (close (List.last (updated_old (snd x4)) tick0)) (fl 75 1));
    (97, feq (volume (List.last (updated_old (snd x4)) tick0)) (fl 125 4));
    (99, ((size (updated_new (snd x4))) =? 2));
    (100, ((timestamp_sec (List.last (updated_new (snd x4)) tick0)) =? 1483228800));
    (100, feq (open (List.last (updated_new (snd x4)) tick0)) (fl 25 2));
    (100, feq (high (List.last (updated_new (snd x4)) tick0)) (fl 125 1));
    (100, feq (low (List.last (updated_new (snd x4)) tick0)) (fl 5 4));
    (100, feq (close (List.last (updated_new (snd x4)) tick0)) (fl 35 2));
    (100, feq (volume (List.last (updated_new (snd x4)) tick0)) (fl 375 3));
    (102, ((size (added_new (snd x4))) =? 1));
    (103, ((size (shifted_removed (snd x4))) =? 0));
    (104, ((size (shifted_new (snd x4))) =? 0));
    (111, ((size (rev (fst x5))) =? 2));
    (112, ((timestamp_sec (idx tick0 (rev (fst x5)) 0)) =? 1483228800));
    (112, feq (open (idx tick0 (rev (fst x5)) 0)) (fl 25 2));
    (112, feq (high (idx tick0 (rev (fst x5)) 0)) (fl 125 1));
    (112, feq (low (idx tick0 (rev (fst x5)) 0)) (fl 5 4));
    (112, feq (close (idx tick0 (rev (fst x5)) 0)) (fl 35 2));
    (112, feq (volume (idx tick0 (rev (fst x5)) 0)) (fl 375 3));
    (114, ((timestamp_sec (idx tick0 (rev (fst x5)) 1)) =? 1483315200));
    (114, feq (open (idx tick0 (rev (fst x5)) 1)) (fl 35 2));
    (114, feq (high (idx tick0 (rev (fst x5)) 1)) (fl 75 1));
    (114, feq (low (idx tick0 (rev (fst x5)) 1)) (fl 5 4));
    (114, feq (close (idx tick0 (rev (fst x5)) 1)) (fl 25 2));
    (114, feq (volume (idx tick0 (rev (fst x5)) 1)) (fl 125 3));
    (116, ((size (updated_old (snd x5))) =? 2));
    (117, ((size (updated_new (snd x5))) =? 2));
    (118, ((size (added_new (snd x5))) =? 2));
    (119, ((timestamp_sec (List.last (added_new (snd x5)) tick0)) =? 1483315200));
    (119, feq (open (List.last (added_new (snd x5)) tick0)) (fl 35 2));
    (119, feq (high (List.last (added_new (snd x5)) tick0)) (fl 75 1));
    (119, feq (low (List.last (added_new (snd x5)) tick0)) (fl 5 4));
    (119, feq (close (List.last (added_new (snd x5)) tick0)) (fl 25 2));
    (119, feq (volume (List.last (added_new (snd x5)) tick0)) (fl 125 3));
    (121, ((size (shifted_removed (snd x5))) =? 0));
    (122, ((size (shifted_new (snd x5))) =? 0));
    (129, ((size (rev (fst x6))) =? 2));
    (130, ((timestamp_sec (idx tick0 (rev (fst x6)) 0)) =? 1483228800));
    (130, feq (open (idx tick0 (rev (fst x6)) 0)) (fl 25 2));
    (130, feq (high (idx tick0 (rev (fst x6)) 0)) (fl 125 1));
    (130, feq (low (idx tick0 (rev (fst x6)) 0)) (fl 5 4));
    (130, feq (close (idx tick0 (rev (fst x6)) 0)) (fl 35 2));
    (130, feq (volume (idx tick0 (rev (fst x6)) 0)) (fl 375 3));
    (132, ((timestamp_sec (idx tick0 (rev (fst x6)) 1)) =? 1483315200));
    (132, feq (open (idx tick0 (rev (fst x6)) 1)) (fl 35 2));
    (132, feq (high (idx tick0 (rev (fst x6)) 1)) (fl 75 1));
    (132, feq (low (idx tick0 (rev (fst x6)) 1)) (fl 5 2));
    (132, feq (close (idx tick0 (rev (fst x6)) 1)) (fl 25 1));
    (132, feq (volume (idx tick0 (rev (fst x6)) 1)) (fl 125 4));
    (134, ((size (updated_old (snd x6))) =? 3));
    (135, ((timestamp_sec (List.last (updated_old (snd x6)) tick0)) =? 1483315200));
    (135, feq (open (List.last (updated_old (snd x6)) tick0)) (fl 35 2));
    (135, feq (high (List.last (updated_old (snd x6)) tick0)) (fl 75 1));
    (135, feq (low (List.last (updated_old (snd x6)) tick0)) (fl 5 4));
    (135, feq (close (List.last (updated_old (snd x6)) tick0)) (fl 25 2));
    (135, feq (volume (List.last (updated_old (snd x6)) tick0)) (fl 125 3));
    (137, ((size (updated_new (snd x6))) =? 3));
    (138, ((timestamp_sec (List.last (updated_new (snd x6)) tick0)) =? 1483315200));
    (138, feq (open (List.last (updated_new (snd x6)) tick0)) (fl 35 2));
    (138, feq (high (List.last (updated_new (snd x6)) tick0)) (fl 75 1));
    (138, feq (low (List.last (updated_new (snd x6)) tick0)) (fl 5 2));
    (138, feq (close (List.last (updated_new (snd x6)) tick0)) (fl 25 1));
    (138, feq (volume (List.last (updated_new (snd x6)) tick0)) (fl 125 4));
    (140, ((size (added_new (snd x6))) =? 2));
    (141, ((size (shifted_removed (snd x6))) =? 0));
    (142, ((size (shifted_new (snd x6))) =? 0));
    (149, ((size (rev (fst x7))) =? 2));
    (150, ((timestamp_sec (idx tick0 (rev (fst x7)) 0)) =? 1483228800));
    (150, feq (open (idx tick0 (rev (fst x7)) 0)) (fl 25 2));
    (150, feq (high (idx tick0 (rev (fst x7)) 0)) (fl 125 1));
    (150, feq (low (idx tick0 (rev (fst x7)) 0)) (fl 5 4));
    (150, feq (close (idx tick0 (rev (fst x7)) 0)) (fl 35 2));
    (150, feq (volume (idx tick0 (rev (fst x7)) 0)) (fl 375 3));
    (152, ((timestamp_sec (idx tick0 (rev (fst x7)) 1)) =? 1483315200));
    (152, feq (open (idx tick0 (rev (fst x7)) 1)) (fl 35 2));
    (152, feq (high (idx tick0 (rev (fst x7)) 1)) (fl 75 1));
    (152, feq (low (idx tick0 (rev (fst x7)) 1)) (fl 5 2));
    (152, feq (close (idx tick0 (rev (fst x7)) 1)) (fl 5 4));
    (152, feq (volume (idx tick0 (rev (fst x7)) 1)) (fl 375 3));
    (154, ((size (updated_old (snd x7))) =? 4));
    (155, ((timestamp_sec (List.last (updated_old (snd x7)) tick0)) =? 1483315200));
    (155, feq (open (List.last (updated_old (snd x7)) tick0)) (fl 35 2));
    (155, feq (high (List.last (updated_old (snd x7)) tick0)) (fl 75 1));
    (155, feq (low (List.last (updated_old (snd x7)) tick0)) (fl 5 2));
    (155, feq (close (List.last (updated_old (snd x7)) tick0)) (fl 25 1));
    (155, feq (volume (List.last (updated_old (snd x7)) tick0)) (fl 125 4));
    (157, ((size (updated_new (snd x7))) =? 4));
    (158, ((timestamp_sec (List.last (updated_new (snd x7)) tick0)) =? 1483315200));
    (158, feq (open (List.last (updated_new (snd x7)) tick0)) (fl 35 2));
    (158, feq (high (List.last (updated_new (snd x7)) tick0)) (fl 75 1));
    (158, feq (low (List.last (updated_new (snd x7)) tick0)) (fl 5 2));
    (158, feq (close (List.last (updated_new (snd x7)) tick0)) (fl 5 4));
    (158, feq (volume (List.last (updated_new (snd x7)) tick0)) (fl 375 3));
    (160, ((size (added_new (snd x7))) =? 2));
    (161, ((size (shifted_removed (snd x7))) =? 0));
    (162, ((size (shifted_new (snd x7))) =? 0));
    (170, ((size (rev (fst x8))) =? 3));
    (171, ((timestamp_sec (idx tick0 (rev (fst x8)) 0)) =? 1483228800));
    (171, feq (open (idx tick0 (rev (fst x8)) 0)) (fl 25 2));
    (171, feq (high (idx tick0 (rev (fst x8)) 0)) (fl 125 1));
    (171, feq (low (idx tick0 (rev (fst x8)) 0)) (fl 5 4));
    (171, feq (close (idx tick0 (rev (fst x8)) 0)) (fl 35 2));
    (171, feq (volume (idx tick0 (rev (fst x8)) 0)) (fl 375 3));
    (173, ((timestamp_sec (idx tick0 (rev (fst x8)) 1)) =? 1483315200));
    (173, feq (open (idx tick0 (rev (fst x8)) 1)) (fl 35 2));
    (173, feq (high (idx tick0 (rev (fst x8)) 1)) (fl 75 1));
    (173, feq (low (idx tick0 (rev (fst x8)) 1)) (fl 5 2));
    (173, feq (close (idx tick0 (rev (fst x8)) 1)) (fl 5 4));
    (173, feq (volume (idx tick0 (rev (fst x8)) 1)) (fl 375 3));
    (175, ((timestamp_sec (idx tick0 (rev (fst x8)) 2)) =? 1483401600));
    (175, feq (open (idx tick0 (rev (fst x8)) 2)) (fl 5 4));
    (175, feq (high (idx tick0 (rev (fst x8)) 2)) (fl 45 2));
    (175, feq (low (idx tick0 (rev (fst x8)) 2)) (fl 25 1));
    (175, feq (close (idx tick0 (rev (fst x8)) 2)) (fl 75 1));
    (175, feq (volume (idx tick0 (rev (fst x8)) 2)) (fl 125 3));
    (177, ((size (updated_old (snd x8))) =? 4));
    (178, ((size (updated_new (snd x8))) =? 4));
    (179, ((size (added_new (snd x8))) =? 3));
    (180, ((timestamp_sec (List.last (added_new (snd x8)) tick0)) =? 1483401600));
    (180, feq (open (List.last (added_new (snd x8)) tick0)) (fl 5 4));
    (180, feq (high (List.last (added_new (snd x8)) tick0)) (fl 45 2));
    (180, feq (low (List.last (added_new (snd x8)) tick0)) (fl 25 1));
    (180, feq (close (List.last (added_new (snd x8)) tick0)) (fl 75 1));
    (180, feq (volume (List.last (added_new (snd x8)) tick0)) (fl 125 3));
    (182, ((size (shifted_removed (snd x8))) =? 0));
    (183, ((size (shifted_new (snd x8))) =? 0));
    (191, ((size (rev (fst x9))) =? 3));
    (192, ((timestamp_sec (idx tick0 (rev (fst x9)) 0)) =? 1483228800));
    (192, feq (open (idx tick0 (rev (fst x9)) 0)) (fl 25 2));
    (192, feq (high (idx tick0 (rev (fst x9)) 0)) (fl 125 1));
    (192, feq (low (idx tick0 (rev (fst x9)) 0)) (fl 5 4));
    (192, feq (close (idx tick0 (rev (fst x9)) 0)) (fl 35 2));
    (192, feq (volume (idx tick0 (rev (fst x9)) 0)) (fl 375 3));
    (194, ((timestamp_sec (idx tick0 (rev (fst x9)) 1)) =? 1483315200));
    (194, feq (open (idx tick0 (rev (fst x9)) 1)) (fl 35 2));
    (194, feq (high (idx tick0 (rev (fst x9)) 1)) (fl 75 1));
    (194, feq (low (idx tick0 (rev (fst x9)) 1)) (fl 5 2));
    (194, feq (close (idx tick0 (rev (fst x9)) 1)) (fl 5 4));
    (194, feq (volume (idx tick0 (rev (fst x9)) 1)) (fl 375 3));
    (196, ((timestamp_sec (idx tick0 (rev (fst x9)) 2)) =? 1483401600));
    (196, feq (open (idx tick0 (rev (fst x9)) 2)) (fl 5 4));
    (196, feq (high (idx tick0 (rev (fst x9)) 2)) (fl 125 1));
    (196, feq (low (idx tick0 (rev (fst x9)) 2)) (fl 25 1));
    (196, feq (close (idx tick0 (rev (fst x9)) 2)) (fl 15 4));
    (196, feq (volume (idx tick0 (rev (fst x9)) 2)) (fl 125 4));
    (198, ((size (updated_old (snd x9))) =? 5));
    (199, ((timestamp_sec (List.last (updated_old (snd x9)) tick0)) =? 1483401600));
    (199, feq (open (List.last (updated_old (snd x9)) tick0)) (fl 5 4));
    (199, feq (high (List.last (updated_old (snd x9)) tick0)) (fl 45 2));
    (199, feq (low (List.last (updated_old (snd x9)) tick0)) (fl 25 1));
    (199, feq (close (List.last (updated_old (snd x9)) tick0)) (fl 75 1));
    (199, feq (volume (List.last (updated_old (snd x9)) tick0)) (fl 125 3));
    (201, ((size (updated_new (snd x9))) =? 5));
    (202, ((timestamp_sec (List.last (updated_new (snd x9)) tick0)) =? 1483401600));
    (202, feq (open (List.last (updated_new (snd x9)) tick0)) (fl 5 4));
    (202, feq (high (List.last (updated_new (snd x9)) tick0)) (fl 125 1));
    (202, feq (low (List.last (updated_new (snd x9)) tick0)) (fl 25 1));
    (202, feq (close (List.last (updated_new (snd x9)) tick0)) (fl 15 4));
    (202, feq (volume (List.last (updated_new (snd x9)) tick0)) (fl 125 4));
    (204, ((size (added_new (snd x9))) =? 3));
    (205, ((size (shifted_removed (snd x9))) =? 0));
    (206, ((size (shifted_new (snd x9))) =? 0));
    (214, ((size (rev (fst x10))) =? 3));
    (215, ((timestamp_sec (idx tick0 (rev (fst x10)) 0)) =? 1483228800));
    (215, feq (open (idx tick0 (rev (fst x10)) 0)) (fl 25 2));
    (215, feq (high (idx tick0 (rev (fst x10)) 0)) (fl 125 1));
    (215, feq (low (idx tick0 (rev (fst x10)) 0)) (fl 5 4));
    (215, feq (close (idx tick0 (rev (fst x10)) 0)) (fl 35 2));
    (215, feq (volume (idx tick0 (rev (fst x10)) 0)) (fl 375 3));
    (217, ((timestamp_sec (idx tick0 (rev (fst x10)) 1)) =? 1483315200));
    (217, feq (open (idx tick0 (rev (fst x10)) 1)) (fl 35 2));
    (217, feq (high (idx tick0 (rev (fst x10)) 1)) (fl 75 1));
    (217, feq (low (idx tick0 (rev (fst x10)) 1)) (fl 5 2));
    (217, feq (close (idx tick0 (rev (fst x10)) 1)) (fl 5 4));
    (217, feq (volume (idx tick0 (rev (fst x10)) 1)) (fl 375 3));
    (219, ((timestamp_sec (idx tick0 (rev (fst x10)) 2)) =? 1483401600));
    (219, feq (open (idx tick0 (rev (fst x10)) 2)) (fl 5 4));
    (219, feq (high (idx tick0 (rev (fst x10)) 2)) (fl 225 1));
    (219, feq (low (idx tick0 (rev (fst x10)) 2)) (fl 25 1));
    (219, feq (close (idx tick0 (rev (fst x10)) 2)) (fl 25 4));
    (219, feq (volume (idx tick0 (rev (fst x10)) 2)) (fl 375 3));
    (221, ((size (updated_old (snd x10))) =? 6));
    (222, ((timestamp_sec (List.last (updated_old (snd x10)) tick0)) =? 1483401600));
    (222, feq (open (List.last (updated_old (snd x10)) tick0)) (fl 5 4));
    (222, feq (high (List.last (updated_old (snd x10)) tick0)) (fl 125 1));
    (222, feq (low (List.last (updated_old (snd x10)) tick0)) (fl 25 1));
    (222, feq (close (List.last (updated_old (snd x10)) tick0)) (fl 15 4));
    (222, feq (volume (List.last (updated_old (snd x10)) tick0)) (fl 125 4));
    (224, ((size (updated_new (snd x10))) =? 6));
    (225, ((timestamp_sec (List.last (updated_new (snd x10)) tick0)) =? 1483401600));
    (225, feq (open (List.last (updated_new (snd x10)) tick0)) (fl 5 4));
    (225, feq (high (List.last (updated_new (snd x10)) tick0)) (fl 225 1));
    (225, feq (low (List.last (updated_new (snd x10)) tick0)) (fl 25 1));
    (225, feq (close (List.last (updated_new (snd x10)) tick0)) (fl 25 4));
    (225, feq (volume (List.last (updated_new (snd x10)) tick0)) (fl 375 3));
    (227, ((size (added_new (snd x10))) =? 3));
    (228, ((size (shifted_removed (snd x10))) =? 0));
    (229, ((size (shifted_new (snd x10))) =? 0));
    (238, ((size (rev (fst x11))) =? 3));
    (239, ((timestamp_sec (idx tick0 (rev (fst x11)) 0)) =? 1483315200));
    (239, feq (open (idx tick0 (rev (fst x11)) 0)) (fl 35 2));
    (239, feq (high (idx tick0 (rev (fst x11)) 0)) (fl 75 1));
    (239, feq (low (idx tick0 (rev (fst x11)) 0)) (fl 5 2));
    (239, feq (close (idx tick0 (rev (fst x11)) 0)) (fl 5 4));
    (239, feq (volume (idx tick0 (rev (fst x11)) 0)) (fl 375 3));
    (241, ((timestamp_sec (idx tick0 (rev (fst x11)) 1)) =? 1483401600));
    (241, feq (open (idx tick0 (rev (fst x11)) 1)) (fl 5 4));
    (241, feq (high (idx tick0 (rev (fst x11)) 1)) (fl 225 1));
    (241, feq (low (idx tick0 (rev (fst x11)) 1)) (fl 25 1));
    (241, feq (close (idx tick0 (rev (fst x11)) 1)) (fl 25 4));
    (241, feq (volume (idx tick0 (rev (fst x11)) 1)) (fl 375 3));
    (243, ((timestamp_sec (idx tick0 (rev (fst x11)) 2)) =? 1483488000));
    (243, feq (open (idx tick0 (rev (fst x11)) 2)) (fl 25 4));
    (243, feq (high (idx tick0 (rev (fst x11)) 2)) (fl 225 1));
    (243, feq (low (idx tick0 (rev (fst x11)) 2)) (fl 125 1));
    (243, feq (close (idx tick0 (rev (fst x11)) 2)) (fl 75 2));
    (243, feq (volume (idx tick0 (rev (fst x11)) 2)) (fl 125 3));
    (245, ((size (updated_old (snd x11))) =? 6));
    (246, ((size (updated_new (snd x11))) =? 6));
    (247, ((size (added_new (snd x11))) =? 3));
    (248, ((size (shifted_removed (snd x11))) =? 1));
    (249, ((timestamp_sec (List.last (shifted_removed (snd x11)) tick0)) =? 1483228800));
    (249, feq (open (List.last (shifted_removed (snd x11)) tick0)) (fl 25 2));
    (249, feq (high (List.last (shifted_removed (snd x11)) tick0)) (fl 125 1));
    (249, feq (low (List.last (shifted_removed (snd x11)) tick0)) (fl 5 4));
    (249, feq (close (List.last (shifted_removed (snd x11)) tick0)) (fl 35 2));
    (249, feq (volume (List.last (shifted_removed (snd x11)) tick0)) (fl 375 3));
    (251, ((size (shifted_new (snd x11))) =? 1));
    (252, ((timestamp_sec (List.last (shifted_new (snd x11)) tick0)) =? 1483488000));
    (252, feq (open (List.last (shifted_new (snd x11)) tick0)) (fl 25 4));
    (252, feq (high (List.last (shifted_new (snd x11)) tick0)) (fl 225 1));
    (252, feq (low (List.last (shifted_new (snd x11)) tick0)) (fl 125 1));
    (252, feq (close (List.last (shifted_new (snd x11)) tick0)) (fl 75 2));
    (252, feq (volume (List.last (shifted_new (snd x11)) tick0)) (fl 125 3));
    (262, ((size (rev (fst x12))) =? 3));
    (263, ((timestamp_sec (idx tick0 (rev (fst x12)) 0)) =? 1483315200));
    (263, feq (open (idx tick0 (rev (fst x12)) 0)) (fl 35 2));
    (263, feq (high (idx tick0 (rev (fst x12)) 0)) (fl 75 1));
    (263, feq (low (idx tick0 (rev (fst x12)) 0)) (fl 5 2));
    (263, feq (close (idx tick0 (rev (fst x12)) 0)) (fl 5 4));
    (263, feq (volume (idx tick0 (rev (fst x12)) 0)) (fl 375 3));
    (265, ((timestamp_sec (idx tick0 (rev (fst x12)) 1)) =? 1483401600));
    (265, feq (open (idx tick0 (rev (fst x12)) 1)) (fl 5 4));
    (265, feq (high (idx tick0 (rev (fst x12)) 1)) (fl 225 1));
    (265, feq (low (idx tick0 (rev (fst x12)) 1)) (fl 25 1));
    (265, feq (close (idx tick0 (rev (fst x12)) 1)) (fl 25 4));
    (265, feq (volume (idx tick0 (rev (fst x12)) 1)) (fl 375 3));
    (267, ((timestamp_sec (idx tick0 (rev (fst x12)) 2)) =? 1483488000));
    (267, feq (open (idx tick0 (rev (fst x12)) 2)) (fl 25 4));
    (267, feq (high (idx tick0 (rev (fst x12)) 2)) (fl 175 2));
    (267, feq (low (idx tick0 (rev (fst x12)) 2)) (fl 55 2));
    (267, feq (close (idx tick0 (rev (fst x12)) 2)) (fl 325 1));
    (267, feq (volume (idx tick0 (rev (fst x12)) 2)) (fl 125 4));
    (269, ((size (updated_old (snd x12))) =? 7));
    (270, ((timestamp_sec (List.last (updated_old (snd x12)) tick0)) =? 1483488000));
    (270, feq (open (List.last (updated_old (snd x12)) tick0)) (fl 25 4));
    (270, feq (high (List.last (updated_old (snd x12)) tick0)) (fl 225 1));
    (270, feq (low (List.last (updated_old (snd x12)) tick0)) (fl 125 1));
    (270, feq (close (List.last (updated_old (snd x12)) tick0)) (fl 75 2));
    (270, feq (volume (List.last (updated_old (snd x12)) tick0)) (fl 125 3));
    (272, ((size (updated_new (snd x12))) =? 7));
    (273, ((timestamp_sec (List.last (updated_new (snd x12)) tick0)) =? 1483488000));
    (273, feq (open (List.last (updated_new (snd x12)) tick0)) (fl 25 4));
    (273, feq (high (List.last (updated_new (snd x12)) tick0)) (fl 175 2));
    (273, feq (low (List.last (updated_new (snd x12)) tick0)) (fl 55 2));
    (273, feq (close (List.last (updated_new (snd x12)) tick0)) (fl 325 1));
    (273, feq (volume (List.last (updated_new (snd x12)) tick0)) (fl 125 4));
    (275, ((size (added_new (snd x12))) =? 3));
    (276, ((size (shifted_removed (snd x12))) =? 1));
    (277, ((size (shifted_new (snd x12))) =? 1));
    (293, ((size (rev (fst x13))) =? 3));
    (294, ((timestamp_sec (idx tick0 (rev (fst x13)) 0)) =? 1483488000));
    (294, feq (open (idx tick0 (rev (fst x13)) 0)) (fl 25 4));
    (294, feq (high (idx tick0 (rev (fst x13)) 0)) (fl 175 2));
    (294, feq (low (idx tick0 (rev (fst x13)) 0)) (fl 55 2));
    (294, feq (close (idx tick0 (rev (fst x13)) 0)) (fl 325 1));
    (294, feq (volume (idx tick0 (rev (fst x13)) 0)) (fl 125 4));
    (296, ((timestamp_sec (idx tick0 (rev (fst x13)) 1)) =? 1483574400));
    (296, feq (open (idx tick0 (rev (fst x13)) 1)) (fl 325 1));
    (296, feq (high (idx tick0 (rev (fst x13)) 1)) (fl 325 1));
    (296, feq (low (idx tick0 (rev (fst x13)) 1)) (fl 325 1));
    (296, feq (close (idx tick0 (rev (fst x13)) 1)) (fl 325 1));
    (296, feq (volume (idx tick0 (rev (fst x13)) 1)) (fl 0 0));
    (298, ((timestamp_sec (idx tick0 (rev (fst x13)) 2)) =? 1483660800));
    (298, feq (open (idx tick0 (rev (fst x13)) 2)) (fl 325 1));
    (298, feq (high (idx tick0 (rev (fst x13)) 2)) (fl 25 5));
    (298, feq (low (idx tick0 (rev (fst x13)) 2)) (fl 75 3));
    (298, feq (close (idx tick0 (rev (fst x13)) 2)) (fl 375 1));
    (298, feq (volume (idx tick0 (rev (fst x13)) 2)) (fl 125 3));
    (300, ((size (updated_old (snd x13))) =? 7));
    (301, ((size (updated_new (snd x13))) =? 7));
    (302, ((size (added_new (snd x13))) =? 3));
    (303, ((size (shifted_removed (snd x13))) =? 3));
    (304, ((timestamp_sec (idx tick0 (shifted_removed (snd x13)) 1)) =? 1483315200));
    (304, feq (open (idx tick0 (shifted_removed (snd x13)) 1)) (fl 35 2));
    (304, feq (high (idx tick0 (shifted_removed (snd x13)) 1)) (fl 75 1));
    (304, feq (low (idx tick0 (shifted_removed (snd x13)) 1)) (fl 5 2));
    (304, feq (close (idx tick0 (shifted_removed (snd x13)) 1)) (fl 5 4));
    (304, feq (volume (idx tick0 (shifted_removed (snd x13)) 1)) (fl 375 3));
    (306, ((timestamp_sec (idx tick0 (shifted_removed (snd x13)) 2)) =? 1483401600));
    (306, feq (open (idx tick0 (shifted_removed (snd x13)) 2)) (fl 5 4));
    (306, feq (high (idx tick0 (shifted_removed (snd x13)) 2)) (fl 225 1));
    (306, feq (low (idx tick0 (shifted_removed (snd x13)) 2)) (fl 25 1));
    (306, feq (close (idx tick0 (shifted_removed (snd x13)) 2)) (fl 25 4));
    (306, feq (volume (idx tick0 (shifted_removed (snd x13)) 2)) (fl 375 3));
    (308, ((size (shifted_new (snd x13))) =? 3));
    (309, ((timestamp_sec (idx tick0 (shifted_new (snd x13)) 1)) =? 1483574400));
    (309, feq (open (idx tick0 (shifted_new (snd x13)) 1)) (fl 325 1));
    (309, feq (high (idx tick0 (shifted_new (snd x13)) 1)) (fl 325 1));
    (309, feq (low (idx tick0 (shifted_new (snd x13)) 1)) (fl 325 1));
    (309, feq (close (idx tick0 (shifted_new (snd x13)) 1)) (fl 325 1));
    (309, feq (volume (idx tick0 (shifted_new (snd x13)) 1)) (fl 0 0));
    (311, ((timestamp_sec (idx tick0 (shifted_new (snd x13)) 2)) =? 1483660800));
    (311, feq (open (idx tick0 (shifted_new (snd x13)) 2)) (fl 325 1));
    (311, feq (high (idx tick0 (shifted_new (snd x13)) 2)) (fl 25 5));
    (311, feq (low (idx tick0 (shifted_new (snd x13)) 2)) (fl 75 3));
    (311, feq (close (idx tick0 (shifted_new (snd x13)) 2)) (fl 375 1));
    (311, feq (volume (idx tick0 (shifted_new (snd x13)) 2)) (fl 125 3))]).
Check (@eq_refl (outcome (list Z)) (Done []) <: LastNOhlcTicksTest_GetLast3DaysWhenAdding8HourOhlcTicks = Done []).

(** indicators/simple_moving_average_test.cc:11-138 TEST(SimpleMovingAverageTest, Get3SMAWhenAdding8HourOhlcTicks): 26 checks. *)
Definition SimpleMovingAverageTest_Get3SMAWhenAdding8HourOhlcTicks : outcome (list Z) :=
  do x1 <- NewSma 3 86400 ;
  do x2 <- sma_Update 3 86400 x1 (OhlcTick 1483228800 (fl 25 2) (fl 75 1) (fl 5 4) (fl 15 3) (fl 125 3)) ;
  do x3 <- sma_Update 3 86400 x2 (OhlcTick 1483257600 (fl 15 3) (fl 45 2) (fl 25 2) (fl 75 1) (fl 125 3)) ;
  do x4 <- sma_Update 3 86400 x3 (OhlcTick 1483286400 (fl 75 1) (fl 125 1) (fl 25 2) (fl 35 2) (fl 125 3)) ;
  do x5 <- sma_Update 3 86400 x4 (OhlcTick 1483315200 (fl 35 2) (fl 75 1) (fl 5 4) (fl 25 2) (fl 125 3)) ;
  do x6 <- sma_Update 3 86400 x5 (OhlcTick 1483344000 (fl 25 2) (fl 15 3) (fl 5 2) (fl 25 1) (fl 125 3)) ;
  do x7 <- sma_Update 3 86400 x6 (OhlcTick 1483372800 (fl 25 1) (fl 25 2) (fl 5 3) (fl 5 4) (fl 125 3)) ;
  do x8 <- sma_Update 3 86400 x7 (OhlcTick 1483401600 (fl 5 4) (fl 45 2) (fl 25 1) (fl 75 1) (fl 125 3)) ;
  do x9 <- sma_Update 3 86400 x8 (OhlcTick 1483430400 (fl 75 1) (fl 125 1) (fl 15 3) (fl 15 4) (fl 125 3)) ;
  do x10 <- sma_Update 3 86400 x9 (OhlcTick 1483459200 (fl 15 4) (fl 225 1) (fl 55 2) (fl 25 4) (fl 125 3)) ;
  do x11 <- sma_Update 3 86400 x10 (OhlcTick 1483488000 (fl 25 4) (fl 225 1) (fl 125 1) (fl 75 2) (fl 125 3)) ;
  do x12 <- sma_Update 3 86400 x11 (OhlcTick 1483516800 (fl 75 2) (fl 175 2) (fl 55 2) (fl 325 1) (fl 125 3)) ;
  do x13 <- sma_Update 3 86400 x12 (OhlcTick 1483689600 (fl 325 1) (fl 25 5) (fl 75 3) (fl 375 1) (fl 125 3)) ;
  Done (failures [(18, feq (sma_Get x1) (fl 0 0));
    (19, ((sma_GetNumOhlcTicks x1) =? 0));
    (25, feq (sma_Get x2) (fl 15 3));
    (26, ((sma_GetNumOhlcTicks x2) =? 1));
    (32, feq (sma_Get x3) (fl 75 1));
    (33, ((sma_GetNumOhlcTicks x3) =? 1));
    (39, feq (sma_Get x4) (fl 35 2));
    (40, ((sma_GetNumOhlcTicks x4) =? 1));
    (47, feq (sma_Get x5) (fl 15 3));
    (49, ((sma_GetNumOhlcTicks x5) =? 2));
    (56, feq (sma_Get x6) (fl 95 0));
    (58, ((sma_GetNumOhlcTicks x6) =? 2));
    (65, feq (sma_Get x7) (fl 55 1));
    (67, ((sma_GetNumOhlcTicks x7) =? 2));
    (75, feq (sma_Get x8) (fl 16165547 (-17)));
    (77, ((sma_GetNumOhlcTicks x8) =? 3));
    (85, feq (sma_Get x9) (fl 10048853 (-16)));
    (87, ((sma_GetNumOhlcTicks x9) =? 3));
    (95, feq (sma_Get x10) (fl 13544107 (-16)));
    (97, ((sma_GetNumOhlcTicks x10) =? 3));
    (106, feq (sma_Get x11) (fl 65 2));
    (108, ((sma_GetNumOhlcTicks x11) =? 3));
    (117, feq (sma_Get x12) (fl 12342613 (-15)));
    (119, ((sma_GetNumOhlcTicks x12) =? 3));
    (135, feq (sma_Get x13) (fl 11195733 (-14)));
    (137, ((sma_GetNumOhlcTicks x13) =? 3))]).
Check (@eq_refl (outcome (list Z)) (Done []) <: SimpleMovingAverageTest_Get3SMAWhenAdding8HourOhlcTicks = Done []).

(** indicators/exponential_moving_average_test.cc:11-147 TEST(ExponentialMovingAverageTest, GetEMAWhenAdding8HourOhlcTicks): 26 checks. *)
Definition ExponentialMovingAverageTest_GetEMAWhenAdding8HourOhlcTicks : outcome (list Z) :=
  do x1 <- NewEma 86400 ;
  do x2 <- ema_Update (ema_weight (fl 1 1) 7) 86400 x1 (OhlcTick 1483228800 (fl 25 2) (fl 75 1) (fl 5 4) (fl 15 3) (fl 125 3)) ;
  do x3 <- ema_Update (ema_weight (fl 1 1) 7) 86400 x2 (OhlcTick 1483257600 (fl 15 3) (fl 45 2) (fl 25 2) (fl 75 1) (fl 125 3)) ;
  do x4 <- ema_Update (ema_weight (fl 1 1) 7) 86400 x3 (OhlcTick 1483286400 (fl 75 1) (fl 125 1) (fl 25 2) (fl 35 2) (fl 125 3)) ;
  do x5 <- ema_Update (ema_weight (fl 1 1) 7) 86400 x4 (OhlcTick 1483315200 (fl 35 2) (fl 75 1) (fl 5 4) (fl 25 2) (fl 125 3)) ;
  do x6 <- ema_Update (ema_weight (fl 1 1) 7) 86400 x5 (OhlcTick 1483344000 (fl 25 2) (fl 15 3) (fl 5 2) (fl 25 1) (fl 125 3)) ;
  do x7 <- ema_Update (ema_weight (fl 1 1) 7) 86400 x6 (OhlcTick 1483372800 (fl 25 1) (fl 25 2) (fl 5 3) (fl 5 4) (fl 125 3)) ;
  do x8 <- ema_Update (ema_weight (fl 1 1) 7) 86400 x7 (OhlcTick 1483401600 (fl 5 4) (fl 45 2) (fl 25 1) (fl 75 1) (fl 125 3)) ;
  do x9 <- ema_Update (ema_weight (fl 1 1) 7) 86400 x8 (OhlcTick 1483430400 (fl 75 1) (fl 125 1) (fl 15 3) (fl 15 4) (fl 125 3)) ;
  do x10 <- ema_Update (ema_weight (fl 1 1) 7) 86400 x9 (OhlcTick 1483459200 (fl 15 4) (fl 225 1) (fl 55 2) (fl 25 4) (fl 125 3)) ;
  do x11 <- ema_Update (ema_weight (fl 1 1) 7) 86400 x10 (OhlcTick 1483488000 (fl 25 4) (fl 225 1) (fl 125 1) (fl 75 2) (fl 125 3)) ;
  do x12 <- ema_Update (ema_weight (fl 1 1) 7) 86400 x11 (OhlcTick 1483516800 (fl 75 2) (fl 175 2) (fl 55 2) (fl 325 1) (fl 125 3)) ;
  do x13 <- ema_Update (ema_weight (fl 1 1) 7) 86400 x12 (OhlcTick 1483689600 (fl 325 1) (fl 25 5) (fl 75 3) (fl 375 1) (fl 125 3)) ;
  Done (failures [(20, feq (ema_Get x1) (fl 0 0));
    (21, ((ema_GetNumOhlcTicks x1) =? 0));
    (27, feq (ema_Get x2) (fl 15 3));
    (29, ((ema_GetNumOhlcTicks x2) =? 1));
    (35, feq (ema_Get x3) (fl 75 1));
    (37, ((ema_GetNumOhlcTicks x3) =? 1));
    (43, feq (ema_Get x4) (fl 35 2));
    (45, ((ema_GetNumOhlcTicks x4) =? 1));
    (52, feq (ema_Get x5) (fl 65 1));
    (55, ((ema_GetNumOhlcTicks x5) =? 2));
    (62, feq (ema_Get x6) (fl 235 (-1)));
    (64, ((ema_GetNumOhlcTicks x6) =? 2));
    (71, feq (ema_Get x7) (fl 125 0));
    (73, ((ema_GetNumOhlcTicks x7) =? 2));
    (81, feq (ema_Get x8) (fl 525 (-2)));
    (83, ((ema_GetNumOhlcTicks x8) =? 3));
    (91, feq (ema_Get x9) (fl 615 (-2)));
    (93, ((ema_GetNumOhlcTicks x9) =? 3));
    (101, feq (ema_Get x10) (fl 775 (-2)));
    (103, ((ema_GetNumOhlcTicks x10) =? 3));
    (112, feq (ema_Get x11) (fl 3525 (-4)));
    (114, ((ema_GetNumOhlcTicks x11) =? 4));
    (123, feq (ema_Get x12) (fl 4925 (-4)));
    (125, ((ema_GetNumOhlcTicks x12) =? 4));
    (141, feq (ema_Get x13) (fl 123525 (-8)));
    (146, ((ema_GetNumOhlcTicks x13) =? 6))]).
Check (@eq_refl (outcome (list Z)) (Done []) <: ExponentialMovingAverageTest_GetEMAWhenAdding8HourOhlcTicks = Done []).

(** indicators/moving_average_convergence_divergence_test.cc:11-302 TEST(MovingAverageConvergenceDivergenceTest, GetMACDWhenAdding8HourOhlcTicks): 78 checks. *)
Definition MovingAverageConvergenceDivergenceTest_GetMACDWhenAdding8HourOhlcTicks : outcome (list Z) :=
  do x1 <- NewMacd 86400 ;
  do x2 <- macd_Update 4 7 3 86400 x1 (OhlcTick 1483228800 (fl 25 2) (fl 75 1) (fl 5 4) (fl 15 3) (fl 125 3)) ;
  do x3 <- macd_Update 4 7 3 86400 x2 (OhlcTick 1483257600 (fl 15 3) (fl 45 2) (fl 25 2) (fl 75 1) (fl 125 3)) ;
  do x4 <- macd_Update 4 7 3 86400 x3 (OhlcTick 1483286400 (fl 75 1) (fl 125 1) (fl 25 2) (fl 35 2) (fl 125 3)) ;
  do x5 <- macd_Update 4 7 3 86400 x4 (OhlcTick 1483315200 (fl 35 2) (fl 75 1) (fl 5 4) (fl 25 2) (fl 125 3)) ;
  do x6 <- macd_Update 4 7 3 86400 x5 (OhlcTick 1483344000 (fl 25 2) (fl 15 3) (fl 5 2) (fl 25 1) (fl 125 3)) ;
  do x7 <- macd_Update 4 7 3 86400 x6 (OhlcTick 1483372800 (fl 25 1) (fl 25 2) (fl 5 3) (fl 5 4) (fl 125 3)) ;
  do x8 <- macd_Update 4 7 3 86400 x7 (OhlcTick 1483401600 (fl 5 4) (fl 45 2) (fl 25 1) (fl 75 1) (fl 125 3)) ;
  do x9 <- macd_Update 4 7 3 86400 x8 (OhlcTick 1483430400 (fl 75 1) (fl 125 1) (fl 15 3) (fl 15 4) (fl 125 3)) ;
  do x10 <- macd_Update 4 7 3 86400 x9 (OhlcTick 1483459200 (fl 15 4) (fl 225 1) (fl 55 2) (fl 25 4) (fl 125 3)) ;
  do x11 <- macd_Update 4 7 3 86400 x10 (OhlcTick 1483488000 (fl 25 4) (fl 225 1) (fl 125 1) (fl 75 2) (fl 125 3)) ;
  do x12 <- macd_Update 4 7 3 86400 x11 (OhlcTick 1483516800 (fl 75 2) (fl 175 2) (fl 55 2) (fl 325 1) (fl 125 3)) ;
  do x13 <- macd_Update 4 7 3 86400 x12 (OhlcTick 1483689600 (fl 325 1) (fl 25 5) (fl 75 3) (fl 375 1) (fl 125 3)) ;
  Done (failures [(20, feq (macd_GetFast x1) (fl 0 0));
    (21, feq (macd_GetSlow x1) (fl 0 0));
    (22, feq (macd_GetSeries x1) (fl 0 0));
    (23, feq (macd_GetSignal x1) (fl 0 0));
    (24, feq (macd_GetDivergence x1) (fl 0 0));
    (25, ((macd_GetNumOhlcTicks x1) =? 0));
    (31, feq (macd_GetFast x2) (fl 15 3));
    (32, feq (macd_GetSlow x2) (fl 15 3));
    (33, feq (macd_GetSeries x2) (fl 0 0));
    (34, feq (macd_GetSignal x2) (fl 0 0));
    (35, feq (macd_GetDivergence x2) (fl 0 0));
    (36, ((macd_GetNumOhlcTicks x2) =? 1));
    (42, feq (macd_GetFast x3) (fl 75 1));
    (43, feq (macd_GetSlow x3) (fl 75 1));
    (44, feq (macd_GetSeries x3) (fl 0 0));
    (45, feq (macd_GetSignal x3) (fl 0 0));
    (46, feq (macd_GetDivergence x3) (fl 0 0));
    (47, ((macd_GetNumOhlcTicks x3) =? 1));
    (53, feq (macd_GetFast x4) (fl 35 2));
    (54, feq (macd_GetSlow x4) (fl 35 2));
    (55, feq (macd_GetSeries x4) (fl 0 0));
    (56, feq (macd_GetSignal x4) (fl 0 0));
    (57, feq (macd_GetDivergence x4) (fl 0 0));
    (58, ((macd_GetNumOhlcTicks x4) =? 1));
    (65, feq (macd_GetFast x5) (fl 31 2));
    (68, feq (macd_GetSlow x5) (fl 65 1));
    (71, feq (macd_GetSeries x5) (fl (-3) 1));
    (76, feq (macd_GetSignal x5) (fl (-3) 0));
    (83, feq (macd_GetDivergence x5) (fl (-3) 0));
    (94, ((macd_GetNumOhlcTicks x5) =? 2));
    (101, feq (macd_GetFast x6) (fl 13 3));
    (103, feq (macd_GetSlow x6) (fl 235 (-1)));
    (105, feq (macd_GetSeries x6) (fl (-27) (-1)));
    (108, feq (macd_GetSignal x6) (fl (-27) (-2)));
    (112, feq (macd_GetDivergence x6) (fl (-27) (-2)));
    (119, ((macd_GetNumOhlcTicks x6) =? 2));
    (126, feq (macd_GetFast x7) (fl 29 2));
    (128, feq (macd_GetSlow x7) (fl 125 0));
    (130, feq (macd_GetSeries x7) (fl (-9) 0));
    (133, feq (macd_GetSignal x7) (fl (-9) (-1)));
    (137, feq (macd_GetDivergence x7) (fsub (macd_GetSeries x7) (macd_GetSignal x7)));
    (139, ((macd_GetNumOhlcTicks x7) =? 2));
    (147, feq (macd_GetFast x8) (fl 4246733 (-15)));
    (149, feq (macd_GetSlow x8) (fl 525 (-2)));
    (151, feq (macd_GetSeries x8) (fl (-54067) (-15)));
    (154, feq (macd_GetSignal x8) (fl (-201523) (-16)));
    (159, feq (macd_GetDivergence x8) (fsub (macd_GetSeries x8) (macd_GetSignal x8)));
    (161, ((macd_GetNumOhlcTicks x8) =? 3));
    (169, feq (macd_GetFast x9) (fl 5426381 (-15)));
    (171, feq (macd_GetSlow x9) (fl 615 (-2)));
    (173, feq (macd_GetSeries x9) (fl 388301 (-15)));
    (176, feq (macd_GetSignal x9) (fl 240845 (-16)));
    (181, feq (macd_GetDivergence x9) (fsub (macd_GetSeries x9) (macd_GetSignal x9)));
    (183, ((macd_GetNumOhlcTicks x9) =? 3));
    (191, feq (macd_GetFast x10) (fl 7523533 (-15)));
    (193, feq (macd_GetSlow x10) (fl 775 (-2)));
    (195, feq (macd_GetSeries x10) (fl 1174733 (-15)));
    (198, feq (macd_GetSignal x10) (fl 1027277 (-16)));
    (203, feq (macd_GetDivergence x10) (fsub (macd_GetSeries x10) (macd_GetSignal x10)));
    (205, ((macd_GetNumOhlcTicks x10) =? 3));
    (214, feq (macd_GetFast x11) (fl 1055785 (-12)));
    (216, feq (macd_GetSlow x11) (fl 3525 (-4)));
    (218, feq (macd_GetSeries x11) (fl 153385 (-12)));
    (221, feq (macd_GetSignal x11) (fl 3481437 (-17)));
    (230, feq (macd_GetDivergence x11) (fsub (macd_GetSeries x11) (macd_GetSignal x11)));
    (232, ((macd_GetNumOhlcTicks x11) =? 4));
    (241, feq (macd_GetFast x12) (fl 1629225 (-12)));
    (243, feq (macd_GetSlow x12) (fl 4925 (-4)));
    (245, feq (macd_GetSeries x12) (fl 368425 (-12)));
    (248, feq (macd_GetSignal x12) (fl 6922077 (-17)));
    (257, feq (macd_GetDivergence x12) (fsub (macd_GetSeries x12) (macd_GetSignal x12)));
    (259, ((macd_GetNumOhlcTicks x12) =? 4));
    (275, feq (macd_GetFast x13) (fl 2454297 (-12)));
    (277, feq (macd_GetSlow x13) (fl 123525 (-8)));
    (279, feq (macd_GetSeries x13) (fl 477897 (-12)));
    (282, feq (macd_GetSignal x13) (fl 12827231 (-17)));
    (299, feq (macd_GetDivergence x13) (fsub (macd_GetSeries x13) (macd_GetSignal x13)));
    (301, ((macd_GetNumOhlcTicks x13) =? 6))]).
Check (@eq_refl (outcome (list Z)) (Done []) <: MovingAverageConvergenceDivergenceTest_GetMACDWhenAdding8HourOhlcTicks = Done []).

(** indicators/stochastic_oscillator_test.cc:11-274 TEST(StochasticOscillatorTest, GetSOWhenAdding8HourOhlcTicks): 78 checks. *)
Definition StochasticOscillatorTest_GetSOWhenAdding8HourOhlcTicks : outcome (list Z) :=
  do x1 <- NewStoch 2 86400 ;
  do x2 <- stoch_Update 86400 x1 (OhlcTick 1483228800 (fl 25 2) (fl 75 1) (fl 5 4) (fl 15 3) (fl 125 3)) ;
  do x3 <- stoch_Update 86400 x2 (OhlcTick 1483257600 (fl 15 3) (fl 45 2) (fl 25 2) (fl 75 1) (fl 125 3)) ;
  do x4 <- stoch_Update 86400 x3 (OhlcTick 1483286400 (fl 75 1) (fl 125 1) (fl 25 2) (fl 35 2) (fl 125 3)) ;
  do x5 <- stoch_Update 86400 x4 (OhlcTick 1483315200 (fl 35 2) (fl 75 1) (fl 5 4) (fl 25 2) (fl 125 3)) ;
  do x6 <- stoch_Update 86400 x5 (OhlcTick 1483344000 (fl 25 2) (fl 15 3) (fl 5 2) (fl 25 1) (fl 125 3)) ;
  do x7 <- stoch_Update 86400 x6 (OhlcTick 1483372800 (fl 25 1) (fl 25 2) (fl 5 3) (fl 5 4) (fl 125 3)) ;
  do x8 <- stoch_Update 86400 x7 (OhlcTick 1483401600 (fl 5 4) (fl 45 2) (fl 25 1) (fl 75 1) (fl 125 3)) ;
  do x9 <- stoch_Update 86400 x8 (OhlcTick 1483430400 (fl 75 1) (fl 125 1) (fl 15 3) (fl 15 4) (fl 125 3)) ;
  do x10 <- stoch_Update 86400 x9 (OhlcTick 1483459200 (fl 15 4) (fl 225 1) (fl 55 2) (fl 25 4) (fl 125 3)) ;
  do x11 <- stoch_Update 86400 x10 (OhlcTick 1483488000 (fl 25 4) (fl 225 1) (fl 125 1) (fl 75 2) (fl 125 3)) ;
  do x12 <- stoch_Update 86400 x11 (OhlcTick 1483516800 (fl 75 2) (fl 175 2) (fl 55 2) (fl 325 1) (fl 125 3)) ;
  do x13 <- stoch_Update 86400 x12 (OhlcTick 1483689600 (fl 325 1) (fl 25 5) (fl 75 3) (fl 375 1) (fl 125 3)) ;
  Done (failures [(19, feq (stoch_GetLow x1) (fl 0 0));
    (20, feq (stoch_GetHigh x1) (fl 0 0));
    (21, feq (stoch_GetK x1) (fl 0 0));
    (22, feq (stoch_GetFastD x1) (fl 0 0));
    (23, feq (stoch_GetSlowD x1) (fl 0 0));
    (24, ((stoch_GetNumOhlcTicks x1) =? 0));
    (30, feq (stoch_GetLow x2) (fl 5 4));
    (31, feq (stoch_GetHigh x2) (fl 75 1));
    (32, feq (stoch_GetK x2) (fl 14979657 (-18)));
    (34, feq (stoch_GetFastD x2) (fl 14979657 (-18)));
    (36, feq (stoch_GetSlowD x2) (fl 14979657 (-18)));
    (38, ((stoch_GetNumOhlcTicks x2) =? 1));
    (44, feq (stoch_GetLow x3) (fl 5 4));
    (45, feq (stoch_GetHigh x3) (fl 45 2));
    (46, feq (stoch_GetK x3) (fl 35 1));
    (48, feq (stoch_GetFastD x3) (fl 35 1));
    (50, feq (stoch_GetSlowD x3) (fl 35 1));
    (52, ((stoch_GetNumOhlcTicks x3) =? 1));
    (58, feq (stoch_GetLow x4) (fl 5 4));
    (59, feq (stoch_GetHigh x4) (fl 125 1));
    (60, feq (stoch_GetK x4) (fl 9252141 (-18)));
    (62, feq (stoch_GetFastD x4) (fl 9252141 (-18)));
    (64, feq (stoch_GetSlowD x4) (fl 9252141 (-18)));
    (66, ((stoch_GetNumOhlcTicks x4) =? 1));
    (73, feq (stoch_GetLow x5) (fl 5 4));
    (74, feq (stoch_GetHigh x5) (fl 125 1));
    (76, feq (stoch_GetK x5) (fl 3084047 (-18)));
    (79, feq (stoch_GetFastD x5) (fl 3084047 (-17)));
    (80, feq (stoch_GetSlowD x5) (fl 15420235 (-19)));
    (83, ((stoch_GetNumOhlcTicks x5) =? 2));
    (90, feq (stoch_GetLow x6) (fl 5 2));
    (91, feq (stoch_GetHigh x6) (fl 125 1));
    (93, feq (stoch_GetK x6) (fl 6838539 (-19)));
    (95, feq (stoch_GetFastD x6) (fl 6335705 (-18)));
    (96, feq (stoch_GetSlowD x6) (fl 7793923 (-18)));
    (99, ((stoch_GetNumOhlcTicks x6) =? 2));
    (106, feq (stoch_GetLow x7) (fl 5 2));
    (107, feq (stoch_GetHigh x7) (fl 125 1));
    (109, feq (stoch_GetK x7) (fl 6838539 (-18)));
    (111, feq (stoch_GetFastD x7) (fl 2011335 (-16)));
    (112, feq (stoch_GetSlowD x7) (fl 2162185 (-16)));
    (115, ((stoch_GetNumOhlcTicks x7) =? 2));
    (123, feq (stoch_GetLow x8) (fl 5 2));
    (124, feq (stoch_GetHigh x8) (fl 45 2));
    (126, feq (stoch_GetK x8) (fl 325 (-2)));
    (130, feq (stoch_GetFastD x8) (fl 12463293 (-18)));
    (131, feq (stoch_GetSlowD x8) (fl 9920257 (-18)));
    (138, ((stoch_GetNumOhlcTicks x8) =? 3));
    (146, feq (stoch_GetLow x9) (fl 5 2));
    (147, feq (stoch_GetHigh x9) (fl 125 1));
    (149, feq (stoch_GetK x9) (fl 6268661 (-16)));
    (153, feq (stoch_GetFastD x9) (fl 13721775 (-18)));
    (154, feq (stoch_GetSlowD x9) (fl 1292469 (-15)));
    (161, ((stoch_GetNumOhlcTicks x9) =? 3));
    (169, feq (stoch_GetLow x10) (fl 5 2));
    (170, feq (stoch_GetHigh x10) (fl 225 1));
    (172, feq (stoch_GetK x10) (fl 11583107 (-17)));
    (176, feq (stoch_GetFastD x10) (fl 204463 (-12)));
    (177, feq (stoch_GetSlowD x10) (fl 1265963 (-15)));
    (184, ((stoch_GetNumOhlcTicks x10) =? 3));
    (193, feq (stoch_GetLow x11) (fl 25 1));
    (194, feq (stoch_GetHigh x11) (fl 225 1));
    (196, feq (stoch_GetK x11) (fl 125 (-1)));
    (200, feq (stoch_GetFastD x11) (fl 15462917 (-18)));
    (201, feq (stoch_GetSlowD x11) (fl 12197963 (-18)));
    (211, ((stoch_GetNumOhlcTicks x11) =? 4));
    (220, feq (stoch_GetLow x12) (fl 25 1));
    (221, feq (stoch_GetHigh x12) (fl 175 2));
    (223, feq (stoch_GetK x12) (fl 6049477 (-16)));
    (227, feq (stoch_GetFastD x12) (fl 9033777 (-17)));
    (228, feq (stoch_GetSlowD x12) (fl 204159 (-12)));
    (238, ((stoch_GetNumOhlcTicks x12) =? 4));
    (254, feq (stoch_GetLow x13) (fl 75 3));
    (255, feq (stoch_GetHigh x13) (fl 25 5));
    (257, feq (stoch_GetK x13) (fl 75 0));
    (261, feq (stoch_GetFastD x13) (fl 2805935 (-15)));
    (262, feq (stoch_GetSlowD x13) (fl 10688497 (-17)));
    (273, ((stoch_GetNumOhlcTicks x13) =? 6))]).
Check (@eq_refl (outcome (list Z)) (Done []) <: StochasticOscillatorTest_GetSOWhenAdding8HourOhlcTicks = Done []).

(** indicators/relative_strength_index_test.cc:11-219 TEST(RelativeStrengthIndexTest, GetRSIWhenAdding8HourOhlcTicks): 52 checks. *)
Definition RelativeStrengthIndexTest_GetRSIWhenAdding8HourOhlcTicks : outcome (list Z) :=
  do x1 <- NewRsi 86400 ;
  do x2 <- rsi_Update 3 86400 x1 (OhlcTick 1483228800 (fl 25 2) (fl 75 1) (fl 5 4) (fl 15 3) (fl 125 3)) ;
  do x3 <- rsi_Update 3 86400 x2 (OhlcTick 1483257600 (fl 15 3) (fl 45 2) (fl 25 2) (fl 75 1) (fl 125 3)) ;
  do x4 <- rsi_Update 3 86400 x3 (OhlcTick 1483286400 (fl 75 1) (fl 125 1) (fl 25 2) (fl 35 2) (fl 125 3)) ;
  do x5 <- rsi_Update 3 86400 x4 (OhlcTick 1483315200 (fl 35 2) (fl 75 1) (fl 5 4) (fl 25 2) (fl 125 3)) ;
  do x6 <- rsi_Update 3 86400 x5 (OhlcTick 1483344000 (fl 25 2) (fl 15 3) (fl 5 2) (fl 25 1) (fl 125 3)) ;
  do x7 <- rsi_Update 3 86400 x6 (OhlcTick 1483372800 (fl 25 1) (fl 25 2) (fl 5 3) (fl 5 4) (fl 125 3)) ;
  do x8 <- rsi_Update 3 86400 x7 (OhlcTick 1483401600 (fl 5 4) (fl 45 2) (fl 25 1) (fl 75 1) (fl 125 3)) ;
  do x9 <- rsi_Update 3 86400 x8 (OhlcTick 1483430400 (fl 75 1) (fl 125 1) (fl 15 3) (fl 15 4) (fl 125 3)) ;
  do x10 <- rsi_Update 3 86400 x9 (OhlcTick 1483459200 (fl 15 4) (fl 225 1) (fl 55 2) (fl 25 4) (fl 125 3)) ;
  do x11 <- rsi_Update 3 86400 x10 (OhlcTick 1483488000 (fl 25 4) (fl 225 1) (fl 125 1) (fl 75 2) (fl 125 3)) ;
  do x12 <- rsi_Update 3 86400 x11 (OhlcTick 1483516800 (fl 75 2) (fl 175 2) (fl 55 2) (fl 325 1) (fl 125 3)) ;
  do x13 <- rsi_Update 3 86400 x12 (OhlcTick 1483689600 (fl 325 1) (fl 25 5) (fl 75 3) (fl 375 1) (fl 125 3)) ;
  Done (failures [(19, feq (rsi_GetUp x1) (fl 0 0));
    (21, feq (rsi_GetDown x1) (fl 0 0));
    (23, feq (rsi_Get x1) (fl 25 1));
    (24, ((rsi_GetNumOhlcTicks x1) =? 0));
    (30, feq (rsi_GetUp x2) (fl 5 2));
    (32, feq (rsi_GetDown x2) (fl 0 0));
    (34, feq (rsi_Get x2) (fl 25 2));
    (35, ((rsi_GetNumOhlcTicks x2) =? 1));
    (41, feq (rsi_GetUp x3) (fl 25 1));
    (43, feq (rsi_GetDown x3) (fl 0 0));
    (45, feq (rsi_Get x3) (fl 25 2));
    (46, ((rsi_GetNumOhlcTicks x3) =? 1));
    (52, feq (rsi_GetUp x4) (fl 5 3));
    (54, feq (rsi_GetDown x4) (fl 0 0));
    (56, feq (rsi_Get x4) (fl 25 2));
    (57, ((rsi_GetNumOhlcTicks x4) =? 1));
    (64, feq (rsi_GetUp x5) (fl 5 2));
    (67, feq (rsi_GetDown x5) (fl 5 2));
    (70, feq (rsi_Get x5) (fl 25 1));
    (72, ((rsi_GetNumOhlcTicks x5) =? 2));
    (79, feq (rsi_GetUp x6) (fl 5 2));
    (82, feq (rsi_GetDown x6) (fl 45 0));
    (85, feq (rsi_Get x6) (fl 504123 (-14)));
    (87, ((rsi_GetNumOhlcTicks x6) =? 2));
    (94, feq (rsi_GetUp x7) (fl 5 2));
    (97, feq (rsi_GetDown x7) (fl 15 1));
    (100, feq (rsi_Get x7) (fl 10485761 (-18)));
    (102, ((rsi_GetNumOhlcTicks x7) =? 2));
    (110, feq (rsi_GetUp x8) (fl 9611947 (-18)));
    (113, feq (rsi_GetDown x8) (fl 5 2));
    (116, feq (rsi_Get x8) (fl 4240565 (-16)));
    (118, ((rsi_GetNumOhlcTicks x8) =? 3));
    (126, feq (rsi_GetUp x9) (fl 8738133 (-17)));
    (129, feq (rsi_GetDown x9) (fl 5 2));
    (132, feq (rsi_Get x9) (fl 10082461 (-17)));
    (134, ((rsi_GetNumOhlcTicks x9) =? 3));
    (142, feq (rsi_GetUp x10) (fl 15 3));
    (145, feq (rsi_GetDown x10) (fl 5 2));
    (148, feq (rsi_Get x10) (fl 11234743 (-17)));
    (150, ((rsi_GetNumOhlcTicks x10) =? 3));
    (159, feq (rsi_GetUp x11) (fl 10485759 (-17)));
    (162, feq (rsi_GetDown x11) (fl 12233387 (-18)));
    (166, feq (rsi_Get x11) (fl 1034779 (-14)));
    (169, ((rsi_GetNumOhlcTicks x11) =? 4));
    (178, feq (rsi_GetUp x12) (fl 5352107 (-15)));
    (181, feq (rsi_GetDown x12) (fl 13981013 (-20)));
    (184, feq (rsi_Get x12) (fl 12117977 (-17)));
    (187, ((rsi_GetNumOhlcTicks x12) =? 4));
    (203, feq (rsi_GetUp x13) (fl 13883923 (-17)));
    (208, feq (rsi_GetDown x13) (fl 6213783 (-20)));
    (211, feq (rsi_Get x13) (fl 12412779 (-17)));
    (218, ((rsi_GetNumOhlcTicks x13) =? 6))]).
Check (@eq_refl (outcome (list Z)) (Done []) <: RelativeStrengthIndexTest_GetRSIWhenAdding8HourOhlcTicks = Done []).

(** indicators/volatility_test.cc:11-229 TEST(RelativeStrengthIndexTest, GetVolatilityWhenAdding8HourOhlcTicks): 27 checks. *)
Definition RelativeStrengthIndexTest_GetVolatilityWhenAdding8HourOhlcTicks : outcome (list Z) :=
  do x1 <- NewVolatility 3 86400 ;
  do x2 <- vol_Update 86400 x1 (OhlcTick 1483228800 (fl 25 2) (fl 75 1) (fl 5 4) (fl 15 3) (fl 125 3)) (fl 5 0) (fl 125 3) ;
  do x3 <- vol_Update 86400 x2 (OhlcTick 1483257600 (fl 15 3) (fl 45 2) (fl 25 2) (fl 75 1) (fl 125 3)) (fl 5 0) (fl 125 3) ;
  do x4 <- vol_Update 86400 x3 (OhlcTick 1483286400 (fl 75 1) (fl 125 1) (fl 25 2) (fl 35 2) (fl 125 3)) (fl 5 0) (fl 125 3) ;
  do x5 <- vol_Update 86400 x4 (OhlcTick 1483315200 (fl 35 2) (fl 75 1) (fl 5 4) (fl 25 2) (fl 125 3)) (fl 5 0) (fl 125 3) ;
  do x6 <- vol_Update 86400 x5 (OhlcTick 1483344000 (fl 25 2) (fl 15 3) (fl 5 2) (fl 25 1) (fl 125 3)) (fl 5 0) (fl 125 3) ;
  do x7 <- vol_Update 86400 x6 (OhlcTick 1483372800 (fl 25 1) (fl 25 2) (fl 5 3) (fl 5 4) (fl 125 3)) (fl 5 0) (fl 125 3) ;
  do x8 <- vol_Update 86400 x7 (OhlcTick 1483401600 (fl 5 4) (fl 45 2) (fl 25 1) (fl 75 1) (fl 125 3)) (fl 5 0) (fl 125 3) ;
  do x9 <- vol_Update 86400 x8 (OhlcTick 1483430400 (fl 75 1) (fl 125 1) (fl 15 3) (fl 15 4) (fl 125 3)) (fl 3 1) (fl 425 1) ;
  do x10 <- vol_Update 86400 x9 (OhlcTick 1483459200 (fl 15 4) (fl 225 1) (fl 55 2) (fl 25 4) (fl 125 3)) (fl 3 1) (fl 425 1) ;
  do x11 <- vol_Update 86400 x10 (OhlcTick 1483488000 (fl 25 4) (fl 225 1) (fl 125 1) (fl 75 2) (fl 125 3)) (fl 3 1) (fl 425 1) ;
  do x12 <- vol_Update 86400 x11 (OhlcTick 1483516800 (fl 75 2) (fl 175 2) (fl 55 2) (fl 325 1) (fl 125 3)) (fl 3 1) (fl 425 1) ;
  do x13 <- vol_Update 86400 x12 (OhlcTick 1483689600 (fl 325 1) (fl 25 5) (fl 75 3) (fl 375 1) (fl 125 3)) (fl 3 1) (fl 425 1) ;
  Done (failures [(22, feq (vol_Get x1) (fl 0 0));
    (23, ((vol_GetNumOhlcTicks x1) =? 0));
    (29, feq (vol_Get x2) (fl 0 0));
    (30, ((vol_GetNumOhlcTicks x2) =? 1));
    (36, feq (vol_Get x3) (fl 0 0));
    (37, ((vol_GetNumOhlcTicks x3) =? 1));
    (43, feq (vol_Get x4) (fl 0 0));
    (44, ((vol_GetNumOhlcTicks x4) =? 1));
    (61, feq (vol_Get x5) (fl 2099889 (-24)));
    (62, ((vol_GetNumOhlcTicks x5) =? 2));
    (76, feq (vol_Get x6) (fl 14517253 (-26)));
    (77, ((vol_GetNumOhlcTicks x6) =? 2));
    (91, feq (vol_Get x7) (fl 2678643 (-24)));
    (92, ((vol_GetNumOhlcTicks x7) =? 2));
    (109, feq (vol_Get x8) (fl 5978423 (-25)));
    (110, ((vol_GetNumOhlcTicks x8) =? 3));
    (128, feq (vol_Get x8) (fl 5978423 (-25)));
    (145, feq (vol_Get x9) (fl 1175995 (-22)));
    (146, ((vol_GetNumOhlcTicks x9) =? 3));
    (163, feq (vol_Get x10) (fl 14540597 (-25)));
    (164, ((vol_GetNumOhlcTicks x10) =? 3));
    (182, feq (vol_Get x11) (fl 8235839 (-24)));
    (183, ((vol_GetNumOhlcTicks x11) =? 4));
    (201, feq (vol_Get x12) (fl 7111711 (-24)));
    (202, ((vol_GetNumOhlcTicks x12) =? 4));
    (227, feq (vol_Get x13) (fl 2658845 (-24)));
    (228, ((vol_GetNumOhlcTicks x13) =? 6))]).
Check (@eq_refl (outcome (list Z)) (Done []) <: RelativeStrengthIndexTest_GetVolatilityWhenAdding8HourOhlcTicks = Done []).
