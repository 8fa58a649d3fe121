(** GENERATED from indicators/util_test.cc by tools/gen_tests.py: the repository's unit tests, run on the
    model (see TestKit.v).  Each [Check] fails to build if a test does not pass. *)

From Coq Require Import ZArith Bool List String.
From Verif.Model Require Import Outcome Machine Types Account History SideInput Indicators
  TimeUtil TimeText Eval Traders CsvLogger MachineIEEE Proto Files.
From Verif.Validation Require Import TestKit.
Import ListNotations.
Local Open Scope Z_scope.

(** indicators/util_test.cc:9-146 TEST(SlidingWindowMeanAndVarianceTest, GetMeanAndVarianceWithoutWindow): 65 checks. *)
Definition SlidingWindowMeanAndVarianceTest_GetMeanAndVarianceWithoutWindow : outcome (list Z) :=
  let x1 := NewMeanVar 0 in
  let x2 := mv_AddNewValue x1 (fl 25 2) in
  do x3 <- mv_UpdateCurrentValue x2 (fl 25 3) ;
  let x4 := mv_AddNewValue x3 (fl 25 2) in
  do x5 <- mv_UpdateCurrentValue x4 (fl 25 4) ;
  let x6 := mv_AddNewValue x5 (fl 75 2) in
  do x7 <- mv_UpdateCurrentValue x6 (fl 75 3) ;
  let x8 := mv_AddNewValue x7 (fl 25 2) in
  do x9 <- mv_UpdateCurrentValue x8 (fl 25 3) ;
  let x10 := mv_AddNewValue x9 (fl 25 4) in
  do x11 <- mv_UpdateCurrentValue x10 (fl 25 2) ;
  let x12 := mv_AddNewValue x11 (fl 125 2) in
  do x13 <- mv_UpdateCurrentValue x12 (fl 75 2) ;
  Done (failures [(13, feq (mv_GetMean x1) (fl 0 0));
    (14, feq (mv_GetVariance x1) (fl 0 0));
    (15, feq (mv_GetStandardDeviation x1) (fl 0 0));
    (16, ((mv_num_values x1) =? 0));
    (17, ((mv_GetWindowSize x1) =? 0));
    (22, feq (mv_GetMean x2) (fl 25 2));
    (23, feq (mv_GetVariance x2) (fl 0 0));
    (24, feq (mv_GetStandardDeviation x2) (fl 0 0));
    (25, ((mv_num_values x2) =? 1));
    (26, ((mv_GetWindowSize x2) =? 1));
    (31, feq (mv_GetMean x3) (fl 25 3));
    (32, feq (mv_GetVariance x3) (fl 0 0));
    (33, feq (mv_GetStandardDeviation x3) (fl 0 0));
    (34, ((mv_num_values x3) =? 1));
    (35, ((mv_GetWindowSize x3) =? 1));
    (40, feq (mv_GetMean x4) (fl 75 1));
    (41, feq (mv_GetVariance x4) (fl 625 2));
    (42, feq (mv_GetStandardDeviation x4) (fl 25 1));
    (43, ((mv_num_values x4) =? 2));
    (44, ((mv_GetWindowSize x4) =? 2));
    (49, feq (mv_GetMean x5) (fl 75 2));
    (50, feq (mv_GetVariance x5) (fl 625 4));
    (51, feq (mv_GetStandardDeviation x5) (fl 25 2));
    (52, ((mv_num_values x5) =? 2));
    (53, ((mv_GetWindowSize x5) =? 2));
    (60, feq (mv_GetMean x6) (fl 75 2));
    (61, feq (mv_GetVariance x6) (fl 13653333 (-11)));
    (62, feq (mv_GetStandardDeviation x6) (fl 334437 (-12)));
    (63, ((mv_num_values x6) =? 3));
    (64, ((mv_GetWindowSize x6) =? 3));
    (71, feq (mv_GetMean x7) (fl 25 4));
    (72, feq (mv_GetVariance x7) (fl 13653333 (-9)));
    (73, feq (mv_GetStandardDeviation x7) (fl 334437 (-11)));
    (74, ((mv_num_values x7) =? 3));
    (75, ((mv_GetWindowSize x7) =? 3));
    (82, feq (mv_GetMean x8) (fl 325 0));
    (83, feq (mv_GetVariance x8) (fl 36875 0));
    (84, feq (mv_GetStandardDeviation x8) (fl 12584789 (-16)));
    (85, ((mv_num_values x8) =? 4));
    (86, ((mv_GetWindowSize x8) =? 4));
    (93, feq (mv_GetMean x9) (fl 175 1));
    (94, feq (mv_GetVariance x9) (fl 6875 2));
    (95, feq (mv_GetStandardDeviation x9) (fl 2716979 (-14)));
    (96, ((mv_num_values x9) =? 4));
    (97, ((mv_GetWindowSize x9) =? 4));
    (105, feq (mv_GetMean x10) (fl 45 3));
    (106, feq (mv_GetVariance x10) (fl 175 7));
    (107, feq (mv_GetStandardDeviation x10) (fl 4904265 (-15)));
    (108, ((mv_num_values x10) =? 5));
    (109, ((mv_GetWindowSize x10) =? 5));
    (117, feq (mv_GetMean x11) (fl 75 2));
    (118, feq (mv_GetVariance x11) (fl 125 8));
    (119, feq (mv_GetStandardDeviation x11) (fl 2930859 (-14)));
    (120, ((mv_num_values x11) =? 5));
    (121, ((mv_GetWindowSize x11) =? 5));
    (129, feq (mv_GetMean x12) (fl 10922667 (-15)));
    (130, feq (mv_GetVariance x12) (fl 8248889 (-8)));
    (131, feq (mv_GetStandardDeviation x12) (fl 1470509 (-13)));
    (132, ((mv_num_values x12) =? 6));
    (133, ((mv_GetWindowSize x12) =? 6));
    (141, feq (mv_GetMean x13) (fl 75 2));
    (142, feq (mv_GetVariance x13) (fl 13653333 (-9)));
    (143, feq (mv_GetStandardDeviation x13) (fl 334437 (-11)));
    (144, ((mv_num_values x13) =? 6));
    (145, ((mv_GetWindowSize x13) =? 6))]).
Check (@eq_refl (outcome (list Z)) (Done []) <: SlidingWindowMeanAndVarianceTest_GetMeanAndVarianceWithoutWindow = Done []).

(** indicators/util_test.cc:148-239 TEST(SlidingWindowMeanAndVarianceTest, GetMeanAndVarianceWithWindowSize1): 65 checks. *)
Definition SlidingWindowMeanAndVarianceTest_GetMeanAndVarianceWithWindowSize1 : outcome (list Z) :=
  let x1 := NewMeanVar 1 in
  let x2 := mv_AddNewValue x1 (fl 25 2) in
  do x3 <- mv_UpdateCurrentValue x2 (fl 25 3) ;
  let x4 := mv_AddNewValue x3 (fl 25 2) in
  do x5 <- mv_UpdateCurrentValue x4 (fl 25 4) ;
  let x6 := mv_AddNewValue x5 (fl 75 2) in
  do x7 <- mv_UpdateCurrentValue x6 (fl 75 3) ;
  let x8 := mv_AddNewValue x7 (fl 25 2) in
  do x9 <- mv_UpdateCurrentValue x8 (fl 25 3) ;
  let x10 := mv_AddNewValue x9 (fl 25 4) in
  do x11 <- mv_UpdateCurrentValue x10 (fl 25 2) ;
  let x12 := mv_AddNewValue x11 (fl 125 2) in
  do x13 <- mv_UpdateCurrentValue x12 (fl 75 2) ;
  Done (failures [(150, feq (mv_GetMean x1) (fl 0 0));
    (151, feq (mv_GetVariance x1) (fl 0 0));
    (152, feq (mv_GetStandardDeviation x1) (fl 0 0));
    (153, ((mv_num_values x1) =? 0));
    (154, ((mv_GetWindowSize x1) =? 0));
    (157, feq (mv_GetMean x2) (fl 25 2));
    (158, feq (mv_GetVariance x2) (fl 0 0));
    (159, feq (mv_GetStandardDeviation x2) (fl 0 0));
    (160, ((mv_num_values x2) =? 1));
    (161, ((mv_GetWindowSize x2) =? 1));
    (164, feq (mv_GetMean x3) (fl 25 3));
    (165, feq (mv_GetVariance x3) (fl 0 0));
    (166, feq (mv_GetStandardDeviation x3) (fl 0 0));
    (167, ((mv_num_values x3) =? 1));
    (168, ((mv_GetWindowSize x3) =? 1));
    (171, feq (mv_GetMean x4) (fl 25 2));
    (172, feq (mv_GetVariance x4) (fl 0 0));
    (173, feq (mv_GetStandardDeviation x4) (fl 0 0));
    (174, ((mv_num_values x4) =? 2));
    (175, ((mv_GetWindowSize x4) =? 1));
    (178, feq (mv_GetMean x5) (fl 25 4));
    (179, feq (mv_GetVariance x5) (fl 0 0));
    (180, feq (mv_GetStandardDeviation x5) (fl 0 0));
    (181, ((mv_num_values x5) =? 2));
    (182, ((mv_GetWindowSize x5) =? 1));
    (185, feq (mv_GetMean x6) (fl 75 2));
    (186, feq (mv_GetVariance x6) (fl 0 0));
    (187, feq (mv_GetStandardDeviation x6) (fl 0 0));
    (188, ((mv_num_values x6) =? 3));
    (189, ((mv_GetWindowSize x6) =? 1));
    (192, feq (mv_GetMean x7) (fl 75 3));
    (193, feq (mv_GetVariance x7) (fl 0 0));
    (194, feq (mv_GetStandardDeviation x7) (fl 0 0));
    (195, ((mv_num_values x7) =? 3));
    (196, ((mv_GetWindowSize x7) =? 1));
    (199, feq (mv_GetMean x8) (fl 25 2));
    (200, feq (mv_GetVariance x8) (fl 0 0));
    (201, feq (mv_GetStandardDeviation x8) (fl 0 0));
    (202, ((mv_num_values x8) =? 4));
    (203, ((mv_GetWindowSize x8) =? 1));
    (206, feq (mv_GetMean x9) (fl 25 3));
    (207, feq (mv_GetVariance x9) (fl 0 0));
    (208, feq (mv_GetStandardDeviation x9) (fl 0 0));
    (209, ((mv_num_values x9) =? 4));
    (210, ((mv_GetWindowSize x9) =? 1));
    (213, feq (mv_GetMean x10) (fl 25 4));
    (214, feq (mv_GetVariance x10) (fl 0 0));
    (215, feq (mv_GetStandardDeviation x10) (fl 0 0));
    (216, ((mv_num_values x10) =? 5));
    (217, ((mv_GetWindowSize x10) =? 1));
    (220, feq (mv_GetMean x11) (fl 25 2));
    (221, feq (mv_GetVariance x11) (fl 0 0));
    (222, feq (mv_GetStandardDeviation x11) (fl 0 0));
    (223, ((mv_num_values x11) =? 5));
    (224, ((mv_GetWindowSize x11) =? 1));
    (227, feq (mv_GetMean x12) (fl 125 2));
    (228, feq (mv_GetVariance x12) (fl 0 0));
    (229, feq (mv_GetStandardDeviation x12) (fl 0 0));
    (230, ((mv_num_values x12) =? 6));
    (231, ((mv_GetWindowSize x12) =? 1));
    (234, feq (mv_GetMean x13) (fl 75 2));
    (235, feq (mv_GetVariance x13) (fl 0 0));
    (236, feq (mv_GetStandardDeviation x13) (fl 0 0));
    (237, ((mv_num_values x13) =? 6));
    (238, ((mv_GetWindowSize x13) =? 1))]).
Check (@eq_refl (outcome (list Z)) (Done []) <: SlidingWindowMeanAndVarianceTest_GetMeanAndVarianceWithWindowSize1 = Done []).

(** indicators/util_test.cc:241-374 TEST(SlidingWindowMeanAndVarianceTest, GetMeanAndVarianceWithWindowSize4): 65 checks. *)
Definition SlidingWindowMeanAndVarianceTest_GetMeanAndVarianceWithWindowSize4 : outcome (list Z) :=
  let x1 := NewMeanVar 4 in
  let x2 := mv_AddNewValue x1 (fl 25 2) in
  do x3 <- mv_UpdateCurrentValue x2 (fl 25 3) ;
  let x4 := mv_AddNewValue x3 (fl 25 2) in
  do x5 <- mv_UpdateCurrentValue x4 (fl 25 4) ;
  let x6 := mv_AddNewValue x5 (fl 75 2) in
  do x7 <- mv_UpdateCurrentValue x6 (fl 75 3) ;
  let x8 := mv_AddNewValue x7 (fl 25 2) in
  do x9 <- mv_UpdateCurrentValue x8 (fl 25 3) ;
  let x10 := mv_AddNewValue x9 (fl 25 4) in
  do x11 <- mv_UpdateCurrentValue x10 (fl 25 2) ;
  let x12 := mv_AddNewValue x11 (fl 125 2) in
  do x13 <- mv_UpdateCurrentValue x12 (fl 75 2) ;
  Done (failures [(245, feq (mv_GetMean x1) (fl 0 0));
    (246, feq (mv_GetVariance x1) (fl 0 0));
    (247, feq (mv_GetStandardDeviation x1) (fl 0 0));
    (248, ((mv_num_values x1) =? 0));
    (249, ((mv_GetWindowSize x1) =? 0));
    (254, feq (mv_GetMean x2) (fl 25 2));
    (255, feq (mv_GetVariance x2) (fl 0 0));
    (256, feq (mv_GetStandardDeviation x2) (fl 0 0));
    (257, ((mv_num_values x2) =? 1));
    (258, ((mv_GetWindowSize x2) =? 1));
    (263, feq (mv_GetMean x3) (fl 25 3));
    (264, feq (mv_GetVariance x3) (fl 0 0));
    (265, feq (mv_GetStandardDeviation x3) (fl 0 0));
    (266, ((mv_num_values x3) =? 1));
    (267, ((mv_GetWindowSize x3) =? 1));
    (272, feq (mv_GetMean x4) (fl 75 1));
    (273, feq (mv_GetVariance x4) (fl 625 2));
    (274, feq (mv_GetStandardDeviation x4) (fl 25 1));
    (275, ((mv_num_values x4) =? 2));
    (276, ((mv_GetWindowSize x4) =? 2));
    (281, feq (mv_GetMean x5) (fl 75 2));
    (282, feq (mv_GetVariance x5) (fl 625 4));
    (283, feq (mv_GetStandardDeviation x5) (fl 25 2));
    (284, ((mv_num_values x5) =? 2));
    (285, ((mv_GetWindowSize x5) =? 2));
    (292, feq (mv_GetMean x6) (fl 75 2));
    (293, feq (mv_GetVariance x6) (fl 13653333 (-11)));
    (294, feq (mv_GetStandardDeviation x6) (fl 334437 (-12)));
    (295, ((mv_num_values x6) =? 3));
    (296, ((mv_GetWindowSize x6) =? 3));
    (303, feq (mv_GetMean x7) (fl 25 4));
    (304, feq (mv_GetVariance x7) (fl 13653333 (-9)));
    (305, feq (mv_GetStandardDeviation x7) (fl 334437 (-11)));
    (306, ((mv_num_values x7) =? 3));
    (307, ((mv_GetWindowSize x7) =? 3));
    (314, feq (mv_GetMean x8) (fl 325 0));
    (315, feq (mv_GetVariance x8) (fl 36875 0));
    (316, feq (mv_GetStandardDeviation x8) (fl 12584789 (-16)));
    (317, ((mv_num_values x8) =? 4));
    (318, ((mv_GetWindowSize x8) =? 4));
    (325, feq (mv_GetMean x9) (fl 175 1));
    (326, feq (mv_GetVariance x9) (fl 6875 2));
    (327, feq (mv_GetStandardDeviation x9) (fl 2716979 (-14)));
    (328, ((mv_num_values x9) =? 4));
    (329, ((mv_GetWindowSize x9) =? 4));
    (336, feq (mv_GetMean x10) (fl 25 4));
    (337, feq (mv_GetVariance x10) (fl 625 5));
    (338, feq (mv_GetStandardDeviation x10) (fl 4634095 (-15)));
    (339, ((mv_num_values x10) =? 5));
    (340, ((mv_GetWindowSize x10) =? 4));
    (347, feq (mv_GetMean x11) (fl 325 0));
    (348, feq (mv_GetVariance x11) (fl 36875 0));
    (349, feq (mv_GetStandardDeviation x11) (fl 12584789 (-16)));
    (350, ((mv_num_values x11) =? 5));
    (351, ((mv_GetWindowSize x11) =? 4));
    (358, feq (mv_GetMean x12) (fl 175 1));
    (359, feq (mv_GetVariance x12) (fl 10625 2));
    (360, feq (mv_GetStandardDeviation x12) (fl 13510593 (-16)));
    (361, ((mv_num_values x12) =? 6));
    (362, ((mv_GetWindowSize x12) =? 4));
    (369, feq (mv_GetMean x13) (fl 75 2));
    (370, feq (mv_GetVariance x13) (fl 4375 3));
    (371, feq (mv_GetStandardDeviation x13) (fl 12260663 (-16)));
    (372, ((mv_num_values x13) =? 6));
    (373, ((mv_GetWindowSize x13) =? 4))]).
Check (@eq_refl (outcome (list Z)) (Done []) <: SlidingWindowMeanAndVarianceTest_GetMeanAndVarianceWithWindowSize4 = Done []).

(** indicators/util_test.cc:376-408 TEST(ExponentialMovingAverageHelperTest, GetExponentialMovingAverage): 14 checks. *)
Definition ExponentialMovingAverageHelperTest_GetExponentialMovingAverage : outcome (list Z) :=
  do x1 <- ema_AddNewValue NewEmaHelper (fl 25 2) (fl 13421773 (-27)) ;
  do x2 <- ema_UpdateCurrentValue x1 (fl 25 3) (fl 13421773 (-27)) ;
  do x3 <- ema_AddNewValue x2 (fl 25 2) (fl 13421773 (-27)) ;
  do x4 <- ema_UpdateCurrentValue x3 (fl 25 4) (fl 13421773 (-27)) ;
  do x5 <- ema_AddNewValue x4 (fl 25 2) (fl 13421773 (-27)) ;
  do x6 <- ema_UpdateCurrentValue x5 (fl 25 3) (fl 13421773 (-27)) ;
  Done (failures [(378, feq (current_ema NewEmaHelper) (fl 0 0));
    (379, ((ema_num_values NewEmaHelper) =? 0));
    (382, feq (current_ema x1) (fl 25 2));
    (383, ((ema_num_values x1) =? 1));
    (386, feq (current_ema x2) (fl 25 3));
    (387, ((ema_num_values x2) =? 1));
    (390, feq (current_ema x3) (fl 95 1));
    (392, ((ema_num_values x3) =? 2));
    (395, feq (current_ema x4) (fl 55 2));
    (397, ((ema_num_values x4) =? 2));
    (400, feq (current_ema x5) (fl 13 4));
    (402, ((ema_num_values x5) =? 3));
    (405, feq (current_ema x6) (fl 109 1));
    (407, ((ema_num_values x6) =? 3))]).
Check (@eq_refl (outcome (list Z)) (Done []) <: ExponentialMovingAverageHelperTest_GetExponentialMovingAverage = Done []).

(** indicators/util_test.cc:410-536 TEST(SlidingWindowMinimumTest, GetSlidingWindowMinimum): 63 checks. *)
Definition SlidingWindowMinimumTest_GetSlidingWindowMinimum : outcome (list Z) :=
  do x1 <- NewSlidingMin 5 ;
  do x2 <- sm_AddNewValue x1 (fl 25 2) ;
  do x3 <- sm_UpdateCurrentValue x2 (fl 25 1) ;
  do x4 <- sm_UpdateCurrentValue x3 (fl 75 1) ;
  do x5 <- sm_AddNewValue x4 (fl 25 2) ;
  do x6 <- sm_UpdateCurrentValue x5 (fl 25 1) ;
  do x7 <- sm_UpdateCurrentValue x6 (fl 25 3) ;
  do x8 <- sm_AddNewValue x7 (fl 25 2) ;
  do x9 <- sm_UpdateCurrentValue x8 (fl 75 2) ;
  do x10 <- sm_AddNewValue x9 (fl 25 2) ;
  do x11 <- sm_UpdateCurrentValue x10 (fl 125 1) ;
  do x12 <- sm_AddNewValue x11 (fl 25 4) ;
  do x13 <- sm_UpdateCurrentValue x12 (fl 25 2) ;
  do x14 <- sm_UpdateCurrentValue x13 (fl 125 2) ;
  do x15 <- sm_AddNewValue x14 (fl 25 2) ;
  do x16 <- sm_UpdateCurrentValue x15 (fl 25 4) ;
  do x17 <- sm_AddNewValue x16 (fl 75 3) ;
  do x18 <- sm_UpdateCurrentValue x17 (fl 25 3) ;
  do x19 <- sm_AddNewValue x18 (fl 75 3) ;
  do x20 <- sm_UpdateCurrentValue x19 (fl 25 2) ;
  do x21 <- sm_UpdateCurrentValue x20 (fl 125 2) ;
  Done (failures [(413, feq (sm_Get x1) (fl 0 0));
    (414, ((sm_num_values x1) =? 0));
    (415, ((sm_GetWindowSize x1) =? 0));
    (419, feq (sm_Get x2) (fl 25 2));
    (420, ((sm_num_values x2) =? 1));
    (421, ((sm_GetWindowSize x2) =? 1));
    (425, feq (sm_Get x3) (fl 25 1));
    (426, ((sm_num_values x3) =? 1));
    (427, ((sm_GetWindowSize x3) =? 1));
    (431, feq (sm_Get x4) (fl 75 1));
    (432, ((sm_num_values x4) =? 1));
    (433, ((sm_GetWindowSize x4) =? 1));
    (437, feq (sm_Get x5) (fl 25 2));
    (438, ((sm_num_values x5) =? 2));
    (439, ((sm_GetWindowSize x5) =? 2));
    (443, feq (sm_Get x6) (fl 25 1));
    (444, ((sm_num_values x6) =? 2));
    (445, ((sm_GetWindowSize x6) =? 2));
    (449, feq (sm_Get x7) (fl 75 1));
    (450, ((sm_num_values x7) =? 2));
    (451, ((sm_GetWindowSize x7) =? 2));
    (455, feq (sm_Get x8) (fl 25 2));
    (456, ((sm_num_values x8) =? 3));
    (457, ((sm_GetWindowSize x8) =? 3));
    (461, feq (sm_Get x9) (fl 75 1));
    (462, ((sm_num_values x9) =? 3));
    (463, ((sm_GetWindowSize x9) =? 3));
    (467, feq (sm_Get x10) (fl 25 2));
    (468, ((sm_num_values x10) =? 4));
    (469, ((sm_GetWindowSize x10) =? 4));
    (473, feq (sm_Get x11) (fl 75 1));
    (474, ((sm_num_values x11) =? 4));
    (475, ((sm_GetWindowSize x11) =? 4));
    (479, feq (sm_Get x12) (fl 75 1));
    (480, ((sm_num_values x12) =? 5));
    (481, ((sm_GetWindowSize x12) =? 5));
    (485, feq (sm_Get x13) (fl 25 2));
    (486, ((sm_num_values x13) =? 5));
    (487, ((sm_GetWindowSize x13) =? 5));
    (491, feq (sm_Get x14) (fl 75 1));
    (492, ((sm_num_values x14) =? 5));
    (493, ((sm_GetWindowSize x14) =? 5));
    (497, feq (sm_Get x15) (fl 25 2));
    (498, ((sm_num_values x15) =? 6));
    (499, ((sm_GetWindowSize x15) =? 5));
    (503, feq (sm_Get x16) (fl 25 3));
    (504, ((sm_num_values x16) =? 6));
    (505, ((sm_GetWindowSize x16) =? 5));
    (509, feq (sm_Get x17) (fl 125 1));
    (510, ((sm_num_values x17) =? 7));
    (511, ((sm_GetWindowSize x17) =? 5));
    (515, feq (sm_Get x18) (fl 25 3));
    (516, ((sm_num_values x18) =? 7));
    (517, ((sm_GetWindowSize x18) =? 5));
    (521, feq (sm_Get x19) (fl 25 3));
    (522, ((sm_num_values x19) =? 8));
    (523, ((sm_GetWindowSize x19) =? 5));
    (527, feq (sm_Get x20) (fl 25 2));
    (528, ((sm_num_values x20) =? 8));
    (529, ((sm_GetWindowSize x20) =? 5));
    (533, feq (sm_Get x21) (fl 25 3));
    (534, ((sm_num_values x21) =? 8));
    (535, ((sm_GetWindowSize x21) =? 5))]).
Check (@eq_refl (outcome (list Z)) (Done []) <: SlidingWindowMinimumTest_GetSlidingWindowMinimum = Done []).

(** indicators/util_test.cc:538-664 TEST(SlidingWindowMaximumTest, GetSlidingWindowMaximum): 63 checks. *)
Definition SlidingWindowMaximumTest_GetSlidingWindowMaximum : outcome (list Z) :=
  do x1 <- NewSlidingMin 5 ;
  do x2 <- sx_AddNewValue x1 (fl 25 2) ;
  do x3 <- sx_UpdateCurrentValue x2 (fl 25 1) ;
  do x4 <- sx_UpdateCurrentValue x3 (fl 75 1) ;
  do x5 <- sx_AddNewValue x4 (fl 25 2) ;
  do x6 <- sx_UpdateCurrentValue x5 (fl 25 1) ;
  do x7 <- sx_UpdateCurrentValue x6 (fl 25 3) ;
  do x8 <- sx_AddNewValue x7 (fl 25 2) ;
  do x9 <- sx_UpdateCurrentValue x8 (fl 75 2) ;
  do x10 <- sx_AddNewValue x9 (fl 25 2) ;
  do x11 <- sx_UpdateCurrentValue x10 (fl 125 1) ;
  do x12 <- sx_AddNewValue x11 (fl 25 4) ;
  do x13 <- sx_UpdateCurrentValue x12 (fl 25 2) ;
  do x14 <- sx_UpdateCurrentValue x13 (fl 125 2) ;
  do x15 <- sx_AddNewValue x14 (fl 25 2) ;
  do x16 <- sx_UpdateCurrentValue x15 (fl 25 4) ;
  do x17 <- sx_AddNewValue x16 (fl 75 3) ;
  do x18 <- sx_UpdateCurrentValue x17 (fl 25 3) ;
  do x19 <- sx_AddNewValue x18 (fl 75 3) ;
  do x20 <- sx_UpdateCurrentValue x19 (fl 25 2) ;
  do x21 <- sx_UpdateCurrentValue x20 (fl 125 2) ;
  Done (failures [(541, feq (sx_Get x1) (fl 0 0));
    (542, ((sm_num_values x1) =? 0));
    (543, ((sm_GetWindowSize x1) =? 0));
    (547, feq (sx_Get x2) (fl 25 2));
    (548, ((sm_num_values x2) =? 1));
    (549, ((sm_GetWindowSize x2) =? 1));
    (553, feq (sx_Get x3) (fl 25 1));
    (554, ((sm_num_values x3) =? 1));
    (555, ((sm_GetWindowSize x3) =? 1));
    (559, feq (sx_Get x4) (fl 75 1));
    (560, ((sm_num_values x4) =? 1));
    (561, ((sm_GetWindowSize x4) =? 1));
    (565, feq (sx_Get x5) (fl 75 1));
    (566, ((sm_num_values x5) =? 2));
    (567, ((sm_GetWindowSize x5) =? 2));
    (571, feq (sx_Get x6) (fl 75 1));
    (572, ((sm_num_values x6) =? 2));
    (573, ((sm_GetWindowSize x6) =? 2));
    (577, feq (sx_Get x7) (fl 25 3));
    (578, ((sm_num_values x7) =? 2));
    (579, ((sm_GetWindowSize x7) =? 2));
    (583, feq (sx_Get x8) (fl 25 3));
    (584, ((sm_num_values x8) =? 3));
    (585, ((sm_GetWindowSize x8) =? 3));
    (589, feq (sx_Get x9) (fl 75 2));
    (590, ((sm_num_values x9) =? 3));
    (591, ((sm_GetWindowSize x9) =? 3));
    (595, feq (sx_Get x10) (fl 75 2));
    (596, ((sm_num_values x10) =? 4));
    (597, ((sm_GetWindowSize x10) =? 4));
    (601, feq (sx_Get x11) (fl 75 2));
    (602, ((sm_num_values x11) =? 4));
    (603, ((sm_GetWindowSize x11) =? 4));
    (607, feq (sx_Get x12) (fl 25 4));
    (608, ((sm_num_values x12) =? 5));
    (609, ((sm_GetWindowSize x12) =? 5));
    (613, feq (sx_Get x13) (fl 75 2));
    (614, ((sm_num_values x13) =? 5));
    (615, ((sm_GetWindowSize x13) =? 5));
    (619, feq (sx_Get x14) (fl 125 2));
    (620, ((sm_num_values x14) =? 5));
    (621, ((sm_GetWindowSize x14) =? 5));
    (625, feq (sx_Get x15) (fl 125 2));
    (626, ((sm_num_values x15) =? 6));
    (627, ((sm_GetWindowSize x15) =? 5));
    (631, feq (sx_Get x16) (fl 125 2));
    (632, ((sm_num_values x16) =? 6));
    (633, ((sm_GetWindowSize x16) =? 5));
    (637, feq (sx_Get x17) (fl 75 3));
    (638, ((sm_num_values x17) =? 7));
    (639, ((sm_GetWindowSize x17) =? 5));
    (643, feq (sx_Get x18) (fl 125 2));
    (644, ((sm_num_values x18) =? 7));
    (645, ((sm_GetWindowSize x18) =? 5));
    (649, feq (sx_Get x19) (fl 75 3));
    (650, ((sm_num_values x19) =? 8));
    (651, ((sm_GetWindowSize x19) =? 5));
    (655, feq (sx_Get x20) (fl 125 2));
    (656, ((sm_num_values x20) =? 8));
    (657, ((sm_GetWindowSize x20) =? 5));
    (661, feq (sx_Get x21) (fl 125 2));
    (662, ((sm_num_values x21) =? 8));
    (663, ((sm_GetWindowSize x21) =? 5))]).
Check (@eq_refl (outcome (list Z)) (Done []) <: SlidingWindowMaximumTest_GetSlidingWindowMaximum = Done []).
