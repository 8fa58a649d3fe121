(** GENERATED from base/base_test.cc, base/history_test.cc by tools/gen_tests.py: the repository's unit tests, run on the
    model (see TestKit.v).  Each [Check] fails to build if a test does not pass. *)

From Coq Require Import ZArith Bool List String.
From Verif.Model Require Import Outcome Machine Types Account History SideInput Indicators
  TimeUtil TimeText Eval Traders CsvLogger MachineIEEE Proto Files.
From Verif.Validation Require Import TestKit.
Import ListNotations.
Local Open Scope Z_scope.

(** base/base_test.cc:25-81 TEST(HistorySubsetTest, Basic): 16 checks. *)
Definition HistorySubsetTest_Basic : outcome (list Z) :=
  let x1 := HistorySubset pr_timestamp_sec [(PriceRecord 1483228800 (fl 175 2) (fl 125 3)); (PriceRecord 1483229400 (fl 25 5) (fl 375 2)); (PriceRecord 1483230000 (fl 375 1) (fl 125 3)); (PriceRecord 1483230600 (fl 425 1) (fl 125 4)); (PriceRecord 1483231200 (fl 25 5) (fl 375 2))] 0 0 in
  let x2 := HistorySubset pr_timestamp_sec [(PriceRecord 1483228800 (fl 175 2) (fl 125 3)); (PriceRecord 1483229400 (fl 25 5) (fl 375 2)); (PriceRecord 1483230000 (fl 375 1) (fl 125 3)); (PriceRecord 1483230600 (fl 425 1) (fl 125 4)); (PriceRecord 1483231200 (fl 25 5) (fl 375 2))] 0 1483230000 in
  let x3 := HistorySubset pr_timestamp_sec [(PriceRecord 1483228800 (fl 175 2) (fl 125 3)); (PriceRecord 1483229400 (fl 25 5) (fl 375 2)); (PriceRecord 1483230000 (fl 375 1) (fl 125 3)); (PriceRecord 1483230600 (fl 425 1) (fl 125 4)); (PriceRecord 1483231200 (fl 25 5) (fl 375 2))] 1483229400 0 in
  let x4 := HistorySubset pr_timestamp_sec [(PriceRecord 1483228800 (fl 175 2) (fl 125 3)); (PriceRecord 1483229400 (fl 25 5) (fl 375 2)); (PriceRecord 1483230000 (fl 375 1) (fl 125 3)); (PriceRecord 1483230600 (fl 425 1) (fl 125 4)); (PriceRecord 1483231200 (fl 25 5) (fl 375 2))] 1483228800 1483231800 in
  let x5 := HistorySubset pr_timestamp_sec [(PriceRecord 1483228800 (fl 175 2) (fl 125 3)); (PriceRecord 1483229400 (fl 25 5) (fl 375 2)); (PriceRecord 1483230000 (fl 375 1) (fl 125 3)); (PriceRecord 1483230600 (fl 425 1) (fl 125 4)); (PriceRecord 1483231200 (fl 25 5) (fl 375 2))] 1483228800 1483228800 in
  let x6 := HistorySubset pr_timestamp_sec [(PriceRecord 1483228800 (fl 175 2) (fl 125 3)); (PriceRecord 1483229400 (fl 25 5) (fl 375 2)); (PriceRecord 1483230000 (fl 375 1) (fl 125 3)); (PriceRecord 1483230600 (fl 425 1) (fl 125 4)); (PriceRecord 1483231200 (fl 25 5) (fl 375 2))] 1483228800 1483229400 in
  let x7 := HistorySubset pr_timestamp_sec [(PriceRecord 1483228800 (fl 175 2) (fl 125 3)); (PriceRecord 1483229400 (fl 25 5) (fl 375 2)); (PriceRecord 1483230000 (fl 375 1) (fl 125 3)); (PriceRecord 1483230600 (fl 425 1) (fl 125 4)); (PriceRecord 1483231200 (fl 25 5) (fl 375 2))] 1483228860 1483229400 in
  let x8 := HistorySubset pr_timestamp_sec [(PriceRecord 1483228800 (fl 175 2) (fl 125 3)); (PriceRecord 1483229400 (fl 25 5) (fl 375 2)); (PriceRecord 1483230000 (fl 375 1) (fl 125 3)); (PriceRecord 1483230600 (fl 425 1) (fl 125 4)); (PriceRecord 1483231200 (fl 25 5) (fl 375 2))] 1483229100 1483230900 in
  Done (failures [(37, ((Z.of_nat (fst x1)) =? 0));
    (38, ((Z.of_nat (snd x1)) =? 5));
    (43, ((Z.of_nat (fst x2)) =? 0));
    (44, ((Z.of_nat (snd x2)) =? 2));
    (49, ((Z.of_nat (fst x3)) =? 1));
    (50, ((Z.of_nat (snd x3)) =? 5));
    (55, ((Z.of_nat (fst x4)) =? 0));
    (56, ((Z.of_nat (snd x4)) =? 5));
    (61, ((Z.of_nat (fst x5)) =? 0));
    (62, ((Z.of_nat (snd x5)) =? 0));
    (67, ((Z.of_nat (fst x6)) =? 0));
    (68, ((Z.of_nat (snd x6)) =? 1));
    (73, ((Z.of_nat (fst x7)) =? 1));
    (74, ((Z.of_nat (snd x7)) =? 1));
    (79, ((Z.of_nat (fst x8)) =? 1));
    (80, ((Z.of_nat (snd x8)) =? 4))]).
Check (@eq_refl (outcome (list Z)) (Done []) <: HistorySubsetTest_Basic = Done []).

(** base/base_test.cc:83-133 TEST(HistorySubsetCopyTest, Basic): 48 checks. *)
Definition HistorySubsetCopyTest_Basic : outcome (list Z) :=
  do x1 <- HistorySubsetCopy pr_timestamp_sec [(PriceRecord 1483228800 (fl 175 2) (fl 125 3)); (PriceRecord 1483229400 (fl 25 5) (fl 375 2)); (PriceRecord 1483230000 (fl 375 1) (fl 125 4)); (PriceRecord 1483230600 (fl 425 1) (fl 625 2)); (PriceRecord 1483231200 (fl 325 1) (fl 375 3))] 0 0 ;
  do x2 <- HistorySubsetCopy pr_timestamp_sec [(PriceRecord 1483228800 (fl 175 2) (fl 125 3)); (PriceRecord 1483229400 (fl 25 5) (fl 375 2)); (PriceRecord 1483230000 (fl 375 1) (fl 125 4)); (PriceRecord 1483230600 (fl 425 1) (fl 625 2)); (PriceRecord 1483231200 (fl 325 1) (fl 375 3))] 0 1483230600 ;
  do x3 <- HistorySubsetCopy pr_timestamp_sec [(PriceRecord 1483228800 (fl 175 2) (fl 125 3)); (PriceRecord 1483229400 (fl 25 5) (fl 375 2)); (PriceRecord 1483230000 (fl 375 1) (fl 125 4)); (PriceRecord 1483230600 (fl 425 1) (fl 625 2)); (PriceRecord 1483231200 (fl 325 1) (fl 375 3))] 1483230000 0 ;
  do x4 <- HistorySubsetCopy pr_timestamp_sec [(PriceRecord 1483228800 (fl 175 2) (fl 125 3)); (PriceRecord 1483229400 (fl 25 5) (fl 375 2)); (PriceRecord 1483230000 (fl 375 1) (fl 125 4)); (PriceRecord 1483230600 (fl 425 1) (fl 625 2)); (PriceRecord 1483231200 (fl 325 1) (fl 375 3))] 1483229100 1483230900 ;
  do x5 <- HistorySubsetCopy pr_timestamp_sec [(PriceRecord 1483228800 (fl 175 2) (fl 125 3)); (PriceRecord 1483229400 (fl 25 5) (fl 375 2)); (PriceRecord 1483230000 (fl 375 1) (fl 125 4)); (PriceRecord 1483230600 (fl 425 1) (fl 625 2)); (PriceRecord 1483231200 (fl 325 1) (fl 375 3))] 1483228800 1483228800 ;
  do x6 <- HistorySubsetCopy pr_timestamp_sec [(PriceRecord 1483228800 (fl 175 2) (fl 125 3)); (PriceRecord 1483229400 (fl 25 5) (fl 375 2)); (PriceRecord 1483230000 (fl 375 1) (fl 125 4)); (PriceRecord 1483230600 (fl 425 1) (fl 625 2)); (PriceRecord 1483231200 (fl 325 1) (fl 375 3))] 1483230300 1483230600 ;
  Done (failures [(95, ((size x1) =? 5));
    (97, ((pr_timestamp_sec (idx price0 x1 0)) =? 1483228800));
    (97, feq (pr_price (idx price0 x1 0)) (fl 175 2));
    (97, feq (pr_volume (idx price0 x1 0)) (fl 125 3));
    (97, ((pr_timestamp_sec (idx price0 x1 1)) =? 1483229400));
    (97, feq (pr_price (idx price0 x1 1)) (fl 25 5));
    (97, feq (pr_volume (idx price0 x1 1)) (fl 375 2));
    (97, ((pr_timestamp_sec (idx price0 x1 2)) =? 1483230000));
    (97, feq (pr_price (idx price0 x1 2)) (fl 375 1));
    (97, feq (pr_volume (idx price0 x1 2)) (fl 125 4));
    (97, ((pr_timestamp_sec (idx price0 x1 3)) =? 1483230600));
    (97, feq (pr_price (idx price0 x1 3)) (fl 425 1));
    (97, feq (pr_volume (idx price0 x1 3)) (fl 625 2));
    (97, ((pr_timestamp_sec (idx price0 x1 4)) =? 1483231200));
    (97, feq (pr_price (idx price0 x1 4)) (fl 325 1));
    (97, feq (pr_volume (idx price0 x1 4)) (fl 375 3));
    (103, ((size x2) =? 3));
    (105, ((pr_timestamp_sec (idx price0 x2 0)) =? 1483228800));
    (105, feq (pr_price (idx price0 x2 0)) (fl 175 2));
    (105, feq (pr_volume (idx price0 x2 0)) (fl 125 3));
    (105, ((pr_timestamp_sec (idx price0 x2 1)) =? 1483229400));
    (105, feq (pr_price (idx price0 x2 1)) (fl 25 5));
    (105, feq (pr_volume (idx price0 x2 1)) (fl 375 2));
    (105, ((pr_timestamp_sec (idx price0 x2 2)) =? 1483230000));
    (105, feq (pr_price (idx price0 x2 2)) (fl 375 1));
    (105, feq (pr_volume (idx price0 x2 2)) (fl 125 4));
    (111, ((size x3) =? 3));
    (113, ((pr_timestamp_sec (idx price0 x3 0)) =? 1483230000));
    (113, feq (pr_price (idx price0 x3 0)) (fl 375 1));
    (113, feq (pr_volume (idx price0 x3 0)) (fl 125 4));
    (113, ((pr_timestamp_sec (idx price0 x3 1)) =? 1483230600));
    (113, feq (pr_price (idx price0 x3 1)) (fl 425 1));
    (113, feq (pr_volume (idx price0 x3 1)) (fl 625 2));
    (113, ((pr_timestamp_sec (idx price0 x3 2)) =? 1483231200));
    (113, feq (pr_price (idx price0 x3 2)) (fl 325 1));
    (113, feq (pr_volume (idx price0 x3 2)) (fl 375 3));
    (119, ((size x4) =? 3));
    (121, ((pr_timestamp_sec (idx price0 x4 0)) =? 1483229400));
    (121, feq (pr_price (idx price0 x4 0)) (fl 25 5));
    (121, feq (pr_volume (idx price0 x4 0)) (fl 375 2));
    (121, ((pr_timestamp_sec (idx price0 x4 1)) =? 1483230000));
    (121, feq (pr_price (idx price0 x4 1)) (fl 375 1));
    (121, feq (pr_volume (idx price0 x4 1)) (fl 125 4));
    (121, ((pr_timestamp_sec (idx price0 x4 2)) =? 1483230600));
    (121, feq (pr_price (idx price0 x4 2)) (fl 425 1));
    (121, feq (pr_volume (idx price0 x4 2)) (fl 625 2));
    (127, ((size x5) =? 0));
    (132, ((size x6) =? 0))]).
Check (@eq_refl (outcome (list Z)) (Done []) <: HistorySubsetCopyTest_Basic = Done []).

(** base/history_test.cc:36-50 TEST(GetPriceHistoryGapsTest, EmptyPriceHistory): 2 checks. *)
Definition GetPriceHistoryGapsTest_EmptyPriceHistory : outcome (list Z) :=
  let x1 := GetPriceHistoryGaps [] 0 0 2%nat in
  let x2 := GetPriceHistoryGaps [] 1483228000 1483233000 2%nat in
  Done (failures [(43, (size x1 =? 0));
    (49, (size x2 =? 0))]).
Check (@eq_refl (outcome (list Z)) (Done []) <: GetPriceHistoryGapsTest_EmptyPriceHistory = Done []).

(** base/history_test.cc:52-61 TEST(GetPriceHistoryGapsTest, SingleRecordPriceHistory): 1 checks. *)
Definition GetPriceHistoryGapsTest_SingleRecordPriceHistory : outcome (list Z) :=
  let x1 := GetPriceHistoryGaps [(PriceRecord 1483228800 (fl 175 2) (fl 125 3))] 0 0 2%nat in
  Done (failures [(60, (size x1 =? 0))]).
Check (@eq_refl (outcome (list Z)) (Done []) <: GetPriceHistoryGapsTest_SingleRecordPriceHistory = Done []).

(** base/history_test.cc:63-157 TEST(GetPriceHistoryGapsTest, MultipleRecordsPriceHistory): 46 checks. *)
Definition GetPriceHistoryGapsTest_MultipleRecordsPriceHistory : outcome (list Z) :=
  let x1 := GetPriceHistoryGaps [(PriceRecord 1483228800 (fl 175 2) (fl 125 3)); (PriceRecord 1483230000 (fl 375 1) (fl 125 3)); (PriceRecord 1483230600 (fl 425 1) (fl 125 4)); (PriceRecord 1483230900 (fl 25 5) (fl 375 2)); (PriceRecord 1483231500 (fl 205 2) (fl 125 3)); (PriceRecord 1483231800 (fl 105 3) (fl 125 3))] 0 0 2%nat in
  let x2 := GetPriceHistoryGaps [(PriceRecord 1483228800 (fl 175 2) (fl 125 3)); (PriceRecord 1483230000 (fl 375 1) (fl 125 3)); (PriceRecord 1483230600 (fl 425 1) (fl 125 4)); (PriceRecord 1483230900 (fl 25 5) (fl 375 2)); (PriceRecord 1483231500 (fl 205 2) (fl 125 3)); (PriceRecord 1483231800 (fl 105 3) (fl 125 3))] 1483228000 0 2%nat in
  let x3 := GetPriceHistoryGaps [(PriceRecord 1483228800 (fl 175 2) (fl 125 3)); (PriceRecord 1483230000 (fl 375 1) (fl 125 3)); (PriceRecord 1483230600 (fl 425 1) (fl 125 4)); (PriceRecord 1483230900 (fl 25 5) (fl 375 2)); (PriceRecord 1483231500 (fl 205 2) (fl 125 3)); (PriceRecord 1483231800 (fl 105 3) (fl 125 3))] 0 1483233000 2%nat in
  let x4 := GetPriceHistoryGaps [(PriceRecord 1483228800 (fl 175 2) (fl 125 3)); (PriceRecord 1483230000 (fl 375 1) (fl 125 3)); (PriceRecord 1483230600 (fl 425 1) (fl 125 4)); (PriceRecord 1483230900 (fl 25 5) (fl 375 2)); (PriceRecord 1483231500 (fl 205 2) (fl 125 3)); (PriceRecord 1483231800 (fl 105 3) (fl 125 3))] 1483228000 1483233000 2%nat in
  let x5 := GetPriceHistoryGaps [(PriceRecord 1483228800 (fl 175 2) (fl 125 3)); (PriceRecord 1483230000 (fl 375 1) (fl 125 3)); (PriceRecord 1483230600 (fl 425 1) (fl 125 4)); (PriceRecord 1483230900 (fl 25 5) (fl 375 2)); (PriceRecord 1483231500 (fl 205 2) (fl 125 3)); (PriceRecord 1483231800 (fl 105 3) (fl 125 3))] 1483227000 1483233000 2%nat in
  let x6 := GetPriceHistoryGaps [(PriceRecord 1483228800 (fl 175 2) (fl 125 3)); (PriceRecord 1483230000 (fl 375 1) (fl 125 3)); (PriceRecord 1483230600 (fl 425 1) (fl 125 4)); (PriceRecord 1483230900 (fl 25 5) (fl 375 2)); (PriceRecord 1483231500 (fl 205 2) (fl 125 3)); (PriceRecord 1483231800 (fl 105 3) (fl 125 3))] 1483227000 1483234000 2%nat in
  let x7 := GetPriceHistoryGaps [(PriceRecord 1483228800 (fl 175 2) (fl 125 3)); (PriceRecord 1483230000 (fl 375 1) (fl 125 3)); (PriceRecord 1483230600 (fl 425 1) (fl 125 4)); (PriceRecord 1483230900 (fl 25 5) (fl 375 2)); (PriceRecord 1483231500 (fl 205 2) (fl 125 3)); (PriceRecord 1483231800 (fl 105 3) (fl 125 3))] 0 0 3%nat in
  let x8 := GetPriceHistoryGaps [(PriceRecord 1483228800 (fl 175 2) (fl 125 3)); (PriceRecord 1483230000 (fl 375 1) (fl 125 3)); (PriceRecord 1483230600 (fl 425 1) (fl 125 4)); (PriceRecord 1483230900 (fl 25 5) (fl 375 2)); (PriceRecord 1483231500 (fl 205 2) (fl 125 3)); (PriceRecord 1483231800 (fl 105 3) (fl 125 3))] 0 0 4%nat in
  Done (failures [(76, ((size x1) =? 2));
    (77, ((fst (idx (0, 0) x1 0)) =? 1483228800));
    (78, ((snd (idx (0, 0) x1 0)) =? 1483230000));
    (79, ((fst (idx (0, 0) x1 1)) =? 1483230000));
    (80, ((snd (idx (0, 0) x1 1)) =? 1483230600));
    (86, ((size x2) =? 2));
    (87, ((fst (idx (0, 0) x2 0)) =? 1483228000));
    (88, ((snd (idx (0, 0) x2 0)) =? 1483228800));
    (89, ((fst (idx (0, 0) x2 1)) =? 1483228800));
    (90, ((snd (idx (0, 0) x2 1)) =? 1483230000));
    (96, ((size x3) =? 2));
    (97, ((fst (idx (0, 0) x3 0)) =? 1483228800));
    (98, ((snd (idx (0, 0) x3 0)) =? 1483230000));
    (99, ((fst (idx (0, 0) x3 1)) =? 1483231800));
    (100, ((snd (idx (0, 0) x3 1)) =? 1483233000));
    (106, ((size x4) =? 2));
    (107, ((fst (idx (0, 0) x4 0)) =? 1483228800));
    (108, ((snd (idx (0, 0) x4 0)) =? 1483230000));
    (109, ((fst (idx (0, 0) x4 1)) =? 1483231800));
    (110, ((snd (idx (0, 0) x4 1)) =? 1483233000));
    (116, ((size x5) =? 2));
    (117, ((fst (idx (0, 0) x5 0)) =? 1483227000));
    (118, ((snd (idx (0, 0) x5 0)) =? 1483228800));
    (119, ((fst (idx (0, 0) x5 1)) =? 1483228800));
    (120, ((snd (idx (0, 0) x5 1)) =? 1483230000));
    (126, ((size x6) =? 2));
    (127, ((fst (idx (0, 0) x6 0)) =? 1483227000));
    (128, ((snd (idx (0, 0) x6 0)) =? 1483228800));
    (129, ((fst (idx (0, 0) x6 1)) =? 1483231800));
    (130, ((snd (idx (0, 0) x6 1)) =? 1483234000));
    (136, ((size x7) =? 3));
    (137, ((fst (idx (0, 0) x7 0)) =? 1483228800));
    (138, ((snd (idx (0, 0) x7 0)) =? 1483230000));
    (139, ((fst (idx (0, 0) x7 1)) =? 1483230000));
    (140, ((snd (idx (0, 0) x7 1)) =? 1483230600));
    (141, ((fst (idx (0, 0) x7 2)) =? 1483230900));
    (142, ((snd (idx (0, 0) x7 2)) =? 1483231500));
    (148, ((size x8) =? 4));
    (149, ((fst (idx (0, 0) x8 0)) =? 1483228800));
    (150, ((snd (idx (0, 0) x8 0)) =? 1483230000));
    (151, ((fst (idx (0, 0) x8 1)) =? 1483230000));
    (152, ((snd (idx (0, 0) x8 1)) =? 1483230600));
    (153, ((fst (idx (0, 0) x8 2)) =? 1483230600));
    (154, ((snd (idx (0, 0) x8 2)) =? 1483230900));
    (155, ((fst (idx (0, 0) x8 3)) =? 1483230900));
    (156, ((snd (idx (0, 0) x8 3)) =? 1483231500))]).
Check (@eq_refl (outcome (list Z)) (Done []) <: GetPriceHistoryGapsTest_MultipleRecordsPriceHistory = Done []).

(** base/history_test.cc:159-167 TEST(RemoveOutliersTest, EmptyPriceHistory): 1 checks. *)
Definition RemoveOutliersTest_EmptyPriceHistory : outcome (list Z) :=
  let x1 := RemoveOutliers [] (fl 5368709 (-28)) None in
  Done (failures [(166, (size (fst x1) =? 0))]).
Check (@eq_refl (outcome (list Z)) (Done []) <: RemoveOutliersTest_EmptyPriceHistory = Done []).

(** base/history_test.cc:169-178 TEST(RemoveOutliersTest, EmptyPriceHistoryHasEmptyOutlierIndices): 2 checks. *)
Definition RemoveOutliersTest_EmptyPriceHistoryHasEmptyOutlierIndices : outcome (list Z) :=
  let x1 := RemoveOutliers [] (fl 5368709 (-28)) (Some []) in
  Done (failures [(176, (size (fst x1) =? 0));
    (177, true)]).
Check (@eq_refl (outcome (list Z)) (Done []) <: RemoveOutliersTest_EmptyPriceHistoryHasEmptyOutlierIndices = Done []).

(** base/history_test.cc:180-223 TEST(RemoveOutliersTest, NoOutliers): 123 checks. *)
Definition RemoveOutliersTest_NoOutliers : outcome (list Z) :=
  let x1 := RemoveOutliers [(PriceRecord 1483228800 (fl 175 2) (fl 125 3)); (PriceRecord 1483228860 (fl 705 0) (fl 375 2)); (PriceRecord 1483228920 (fl 175 2) (fl 125 3)); (PriceRecord 1483228980 (fl 695 0) (fl 375 2)); (PriceRecord 1483229040 (fl 175 2) (fl 125 3)); (PriceRecord 1483229100 (fl 705 0) (fl 375 2)); (PriceRecord 1483229160 (fl 175 2) (fl 125 3)); (PriceRecord 1483229220 (fl 695 0) (fl 375 2)); (PriceRecord 1483229280 (fl 175 2) (fl 125 3)); (PriceRecord 1483229340 (fl 705 0) (fl 375 2)); (PriceRecord 1483229400 (fl 175 2) (fl 125 3)); (PriceRecord 1483229460 (fl 695 0) (fl 375 2)); (PriceRecord 1483229520 (fl 175 2) (fl 125 3)); (PriceRecord 1483229580 (fl 705 0) (fl 375 2)); (PriceRecord 1483229640 (fl 175 2) (fl 125 3)); (PriceRecord 1483229700 (fl 695 0) (fl 375 2)); (PriceRecord 1483229760 (fl 175 2) (fl 125 3)); (PriceRecord 1483229820 (fl 705 0) (fl 375 2)); (PriceRecord 1483229880 (fl 175 2) (fl 125 3)); (PriceRecord 1483229940 (fl 695 0) (fl 375 2))] (fl 5368709 (-28)) None in
  let x2 := RemoveOutliers [(PriceRecord 1483228800 (fl 175 2) (fl 125 3)); (PriceRecord 1483228860 (fl 705 0) (fl 375 2)); (PriceRecord 1483228920 (fl 175 2) (fl 125 3)); (PriceRecord 1483228980 (fl 695 0) (fl 375 2)); (PriceRecord 1483229040 (fl 175 2) (fl 125 3)); (PriceRecord 1483229100 (fl 705 0) (fl 375 2)); (PriceRecord 1483229160 (fl 175 2) (fl 125 3)); (PriceRecord 1483229220 (fl 695 0) (fl 375 2)); (PriceRecord 1483229280 (fl 175 2) (fl 125 3)); (PriceRecord 1483229340 (fl 705 0) (fl 375 2)); (PriceRecord 1483229400 (fl 175 2) (fl 125 3)); (PriceRecord 1483229460 (fl 695 0) (fl 375 2)); (PriceRecord 1483229520 (fl 175 2) (fl 125 3)); (PriceRecord 1483229580 (fl 705 0) (fl 375 2)); (PriceRecord 1483229640 (fl 175 2) (fl 125 3)); (PriceRecord 1483229700 (fl 695 0) (fl 375 2)); (PriceRecord 1483229760 (fl 175 2) (fl 125 3)); (PriceRecord 1483229820 (fl 705 0) (fl 375 2)); (PriceRecord 1483229880 (fl 175 2) (fl 125 3)); (PriceRecord 1483229940 (fl 695 0) (fl 375 2))] (fl 5368709 (-28)) (Some []) in
  Done (failures [(208, ((size (fst x1)) =? 20));
    (210, ((pr_timestamp_sec (idx price0 (fst x1) 0)) =? 1483228800));
    (210, feq (pr_price (idx price0 (fst x1) 0)) (fl 175 2));
    (210, feq (pr_volume (idx price0 (fst x1) 0)) (fl 125 3));
    (210, ((pr_timestamp_sec (idx price0 (fst x1) 1)) =? 1483228860));
    (210, feq (pr_price (idx price0 (fst x1) 1)) (fl 705 0));
    (210, feq (pr_volume (idx price0 (fst x1) 1)) (fl 375 2));
    (210, ((pr_timestamp_sec (idx price0 (fst x1) 2)) =? 1483228920));
    (210, feq (pr_price (idx price0 (fst x1) 2)) (fl 175 2));
    (210, feq (pr_volume (idx price0 (fst x1) 2)) (fl 125 3));
    (210, ((pr_timestamp_sec (idx price0 (fst x1) 3)) =? 1483228980));
    (210, feq (pr_price (idx price0 (fst x1) 3)) (fl 695 0));
    (210, feq (pr_volume (idx price0 (fst x1) 3)) (fl 375 2));
    (210, ((pr_timestamp_sec (idx price0 (fst x1) 4)) =? 1483229040));
    (210, feq (pr_price (idx price0 (fst x1) 4)) (fl 175 2));
    (210, feq (pr_volume (idx price0 (fst x1) 4)) (fl 125 3));
    (210, ((pr_timestamp_sec (idx price0 (fst x1) 5)) =? 1483229100));
    (210, feq (pr_price (idx price0 (fst x1) 5)) (fl 705 0));
    (210, feq (pr_volume (idx price0 (fst x1) 5)) (fl 375 2));
    (210, ((pr_timestamp_sec (idx price0 (fst x1) 6)) =? 1483229160));
    (210, feq (pr_price (idx price0 (fst x1) 6)) (fl 175 2));
    (210, feq (pr_volume (idx price0 (fst x1) 6)) (fl 125 3));
    (210, ((pr_timestamp_sec (idx price0 (fst x1) 7)) =? 1483229220));
    (210, feq (pr_price (idx price0 (fst x1) 7)) (fl 695 0));
    (210, feq (pr_volume (idx price0 (fst x1) 7)) (fl 375 2));
    (210, ((pr_timestamp_sec (idx price0 (fst x1) 8)) =? 1483229280));
    (210, feq (pr_price (idx price0 (fst x1) 8)) (fl 175 2));
    (210, feq (pr_volume (idx price0 (fst x1) 8)) (fl 125 3));
    (210, ((pr_timestamp_sec (idx price0 (fst x1) 9)) =? 1483229340));
    (210, feq (pr_price (idx price0 (fst x1) 9)) (fl 705 0));
    (210, feq (pr_volume (idx price0 (fst x1) 9)) (fl 375 2));
    (210, ((pr_timestamp_sec (idx price0 (fst x1) 10)) =? 1483229400));
    (210, feq (pr_price (idx price0 (fst x1) 10)) (fl 175 2));
    (210, feq (pr_volume (idx price0 (fst x1) 10)) (fl 125 3));
    (210, ((pr_timestamp_sec (idx price0 (fst x1) 11)) =? 1483229460));
    (210, feq (pr_price (idx price0 (fst x1) 11)) (fl 695 0));
    (210, feq (pr_volume (idx price0 (fst x1) 11)) (fl 375 2));
    (210, ((pr_timestamp_sec (idx price0 (fst x1) 12)) =? 1483229520));
    (210, feq (pr_price (idx price0 (fst x1) 12)) (fl 175 2));
    (210, feq (pr_volume (idx price0 (fst x1) 12)) (fl 125 3));
    (210, ((pr_timestamp_sec (idx price0 (fst x1) 13)) =? 1483229580));
    (210, feq (pr_price (idx price0 (fst x1) 13)) (fl 705 0));
    (210, feq (pr_volume (idx price0 (fst x1) 13)) (fl 375 2));
    (210, ((pr_timestamp_sec (idx price0 (fst x1) 14)) =? 1483229640));
    (210, feq (pr_price (idx price0 (fst x1) 14)) (fl 175 2));
    (210, feq (pr_volume (idx price0 (fst x1) 14)) (fl 125 3));
    (210, ((pr_timestamp_sec (idx price0 (fst x1) 15)) =? 1483229700));
    (210, feq (pr_price (idx price0 (fst x1) 15)) (fl 695 0));
    (210, feq (pr_volume (idx price0 (fst x1) 15)) (fl 375 2));
    (210, ((pr_timestamp_sec (idx price0 (fst x1) 16)) =? 1483229760));
    (210, feq (pr_price (idx price0 (fst x1) 16)) (fl 175 2));
    (210, feq (pr_volume (idx price0 (fst x1) 16)) (fl 125 3));
    (210, ((pr_timestamp_sec (idx price0 (fst x1) 17)) =? 1483229820));
    (210, feq (pr_price (idx price0 (fst x1) 17)) (fl 705 0));
    (210, feq (pr_volume (idx price0 (fst x1) 17)) (fl 375 2));
    (210, ((pr_timestamp_sec (idx price0 (fst x1) 18)) =? 1483229880));
    (210, feq (pr_price (idx price0 (fst x1) 18)) (fl 175 2));
    (210, feq (pr_volume (idx price0 (fst x1) 18)) (fl 125 3));
    (210, ((pr_timestamp_sec (idx price0 (fst x1) 19)) =? 1483229940));
    (210, feq (pr_price (idx price0 (fst x1) 19)) (fl 695 0));
    (210, feq (pr_volume (idx price0 (fst x1) 19)) (fl 375 2));
    (218, ((size (fst x2)) =? 20));
    (220, ((pr_timestamp_sec (idx price0 (fst x2) 0)) =? 1483228800));
    (220, feq (pr_price (idx price0 (fst x2) 0)) (fl 175 2));
    (220, feq (pr_volume (idx price0 (fst x2) 0)) (fl 125 3));
    (220, ((pr_timestamp_sec (idx price0 (fst x2) 1)) =? 1483228860));
    (220, feq (pr_price (idx price0 (fst x2) 1)) (fl 705 0));
    (220, feq (pr_volume (idx price0 (fst x2) 1)) (fl 375 2));
    (220, ((pr_timestamp_sec (idx price0 (fst x2) 2)) =? 1483228920));
    (220, feq (pr_price (idx price0 (fst x2) 2)) (fl 175 2));
    (220, feq (pr_volume (idx price0 (fst x2) 2)) (fl 125 3));
    (220, ((pr_timestamp_sec (idx price0 (fst x2) 3)) =? 1483228980));
    (220, feq (pr_price (idx price0 (fst x2) 3)) (fl 695 0));
    (220, feq (pr_volume (idx price0 (fst x2) 3)) (fl 375 2));
    (220, ((pr_timestamp_sec (idx price0 (fst x2) 4)) =? 1483229040));
    (220, feq (pr_price (idx price0 (fst x2) 4)) (fl 175 2));
    (220, feq (pr_volume (idx price0 (fst x2) 4)) (fl 125 3));
    (220, ((pr_timestamp_sec (idx price0 (fst x2) 5)) =? 1483229100));
    (220, feq (pr_price (idx price0 (fst x2) 5)) (fl 705 0));
    (220, feq (pr_volume (idx price0 (fst x2) 5)) (fl 375 2));
    (220, ((pr_timestamp_sec (idx price0 (fst x2) 6)) =? 1483229160));
    (220, feq (pr_price (idx price0 (fst x2) 6)) (fl 175 2));
    (220, feq (pr_volume (idx price0 (fst x2) 6)) (fl 125 3));
    (220, ((pr_timestamp_sec (idx price0 (fst x2) 7)) =? 1483229220));
    (220, feq (pr_price (idx price0 (fst x2) 7)) (fl 695 0));
    (220, feq (pr_volume (idx price0 (fst x2) 7)) (fl 375 2));
    (220, ((pr_timestamp_sec (idx price0 (fst x2) 8)) =? 1483229280));
    (220, feq (pr_price (idx price0 (fst x2) 8)) (fl 175 2));
    (220, feq (pr_volume (idx price0 (fst x2) 8)) (fl 125 3));
    (220, ((pr_timestamp_sec (idx price0 (fst x2) 9)) =? 1483229340));
    (220, feq (pr_price (idx price0 (fst x2) 9)) (fl 705 0));
    (220, feq (pr_volume (idx price0 (fst x2) 9)) (fl 375 2));
    (220, ((pr_timestamp_sec (idx price0 (fst x2) 10)) =? 1483229400));
    (220, feq (pr_price (idx price0 (fst x2) 10)) (fl 175 2));
    (220, feq (pr_volume (idx price0 (fst x2) 10)) (fl 125 3));
    (220, ((pr_timestamp_sec (idx price0 (fst x2) 11)) =? 1483229460));
    (220, feq (pr_price (idx price0 (fst x2) 11)) (fl 695 0));
    (220, feq (pr_volume (idx price0 (fst x2) 11)) (fl 375 2));
    (220, ((pr_timestamp_sec (idx price0 (fst x2) 12)) =? 1483229520));
    (220, feq (pr_price (idx price0 (fst x2) 12)) (fl 175 2));
    (220, feq (pr_volume (idx price0 (fst x2) 12)) (fl 125 3));
    (220, ((pr_timestamp_sec (idx price0 (fst x2) 13)) =? 1483229580));
    (220, feq (pr_price (idx price0 (fst x2) 13)) (fl 705 0));
    (220, feq (pr_volume (idx price0 (fst x2) 13)) (fl 375 2));
    (220, ((pr_timestamp_sec (idx price0 (fst x2) 14)) =? 1483229640));
    (220, feq (pr_price (idx price0 (fst x2) 14)) (fl 175 2));
    (220, feq (pr_volume (idx price0 (fst x2) 14)) (fl 125 3));
    (220, ((pr_timestamp_sec (idx price0 (fst x2) 15)) =? 1483229700));
    (220, feq (pr_price (idx price0 (fst x2) 15)) (fl 695 0));
    (220, feq (pr_volume (idx price0 (fst x2) 15)) (fl 375 2));
    (220, ((pr_timestamp_sec (idx price0 (fst x2) 16)) =? 1483229760));
    (220, feq (pr_price (idx price0 (fst x2) 16)) (fl 175 2));
    (220, feq (pr_volume (idx price0 (fst x2) 16)) (fl 125 3));
    (220, ((pr_timestamp_sec (idx price0 (fst x2) 17)) =? 1483229820));
    (220, feq (pr_price (idx price0 (fst x2) 17)) (fl 705 0));
    (220, feq (pr_volume (idx price0 (fst x2) 17)) (fl 375 2));
    (220, ((pr_timestamp_sec (idx price0 (fst x2) 18)) =? 1483229880));
    (220, feq (pr_price (idx price0 (fst x2) 18)) (fl 175 2));
    (220, feq (pr_volume (idx price0 (fst x2) 18)) (fl 125 3));
    (220, ((pr_timestamp_sec (idx price0 (fst x2) 19)) =? 1483229940));
    (220, feq (pr_price (idx price0 (fst x2) 19)) (fl 695 0));
    (220, feq (pr_volume (idx price0 (fst x2) 19)) (fl 375 2));
    (222, ((size (match snd x2 with Some l => l | None => [] end)) =? 0))]).
Check (@eq_refl (outcome (list Z)) (Done []) <: RemoveOutliersTest_NoOutliers = Done []).

(** base/history_test.cc:225-256 TEST(RemoveOutliersTest, NonPositivePrice): 28 checks. *)
Definition RemoveOutliersTest_NonPositivePrice : outcome (list Z) :=
  let x1 := RemoveOutliers [(PriceRecord 1483228800 (fl 5368709 (-29)) (fl 125 3)); (PriceRecord 1483228860 (fl 5368709 (-29)) (fl 125 3)); (PriceRecord 1483228920 (fl 0 0) (fl 125 3)); (PriceRecord 1483228980 (fl 5368709 (-29)) (fl 125 3)); (PriceRecord 1483229040 (fl 5368709 (-29)) (fl 125 3))] (fl 5368709 (-28)) None in
  let x2 := RemoveOutliers [(PriceRecord 1483228800 (fl 5368709 (-29)) (fl 125 3)); (PriceRecord 1483228860 (fl 5368709 (-29)) (fl 125 3)); (PriceRecord 1483228920 (fl 0 0) (fl 125 3)); (PriceRecord 1483228980 (fl 5368709 (-29)) (fl 125 3)); (PriceRecord 1483229040 (fl 5368709 (-29)) (fl 125 3))] (fl 5368709 (-28)) (Some []) in
  Done (failures [(238, ((size (fst x1)) =? 4));
    (239, ((pr_timestamp_sec (idx price0 (fst x1) 0)) =? 1483228800));
    (239, feq (pr_price (idx price0 (fst x1) 0)) (fl 5368709 (-29)));
    (239, feq (pr_volume (idx price0 (fst x1) 0)) (fl 125 3));
    (240, ((pr_timestamp_sec (idx price0 (fst x1) 1)) =? 1483228860));
    (240, feq (pr_price (idx price0 (fst x1) 1)) (fl 5368709 (-29)));
    (240, feq (pr_volume (idx price0 (fst x1) 1)) (fl 125 3));
    (241, ((pr_timestamp_sec (idx price0 (fst x1) 2)) =? 1483228980));
    (241, feq (pr_price (idx price0 (fst x1) 2)) (fl 5368709 (-29)));
    (241, feq (pr_volume (idx price0 (fst x1) 2)) (fl 125 3));
    (242, ((pr_timestamp_sec (idx price0 (fst x1) 3)) =? 1483229040));
    (242, feq (pr_price (idx price0 (fst x1) 3)) (fl 5368709 (-29)));
    (242, feq (pr_volume (idx price0 (fst x1) 3)) (fl 125 3));
    (249, ((size (fst x2)) =? 4));
    (250, ((pr_timestamp_sec (idx price0 (fst x2) 0)) =? 1483228800));
    (250, feq (pr_price (idx price0 (fst x2) 0)) (fl 5368709 (-29)));
    (250, feq (pr_volume (idx price0 (fst x2) 0)) (fl 125 3));
    (251, ((pr_timestamp_sec (idx price0 (fst x2) 1)) =? 1483228860));
    (251, feq (pr_price (idx price0 (fst x2) 1)) (fl 5368709 (-29)));
    (251, feq (pr_volume (idx price0 (fst x2) 1)) (fl 125 3));
    (252, ((pr_timestamp_sec (idx price0 (fst x2) 2)) =? 1483228980));
    (252, feq (pr_price (idx price0 (fst x2) 2)) (fl 5368709 (-29)));
    (252, feq (pr_volume (idx price0 (fst x2) 2)) (fl 125 3));
    (253, ((pr_timestamp_sec (idx price0 (fst x2) 3)) =? 1483229040));
    (253, feq (pr_price (idx price0 (fst x2) 3)) (fl 5368709 (-29)));
    (253, feq (pr_volume (idx price0 (fst x2) 3)) (fl 125 3));
    (254, ((size (match snd x2 with Some l => l | None => [] end)) =? 1));
    (255, ((idx 0 (match snd x2 with Some l => l | None => [] end) 0) =? 2))]).
Check (@eq_refl (outcome (list Z)) (Done []) <: RemoveOutliersTest_NonPositivePrice = Done []).

(** base/history_test.cc:258-289 TEST(RemoveOutliersTest, NegativeVolume): 28 checks. *)
Definition RemoveOutliersTest_NegativeVolume : outcome (list Z) :=
  let x1 := RemoveOutliers [(PriceRecord 1483228800 (fl 175 2) (fl 125 3)); (PriceRecord 1483228860 (fl 705 0) (fl 125 3)); (PriceRecord 1483228920 (fl 175 2) (fl (-13421773) (-28))); (PriceRecord 1483228980 (fl 175 2) (fl 125 3)); (PriceRecord 1483229040 (fl 695 0) (fl 125 3))] (fl 5368709 (-28)) None in
  let x2 := RemoveOutliers [(PriceRecord 1483228800 (fl 175 2) (fl 125 3)); (PriceRecord 1483228860 (fl 705 0) (fl 125 3)); (PriceRecord 1483228920 (fl 175 2) (fl (-13421773) (-28))); (PriceRecord 1483228980 (fl 175 2) (fl 125 3)); (PriceRecord 1483229040 (fl 695 0) (fl 125 3))] (fl 5368709 (-28)) (Some []) in
  Done (failures [(271, ((size (fst x1)) =? 4));
    (272, ((pr_timestamp_sec (idx price0 (fst x1) 0)) =? 1483228800));
    (272, feq (pr_price (idx price0 (fst x1) 0)) (fl 175 2));
    (272, feq (pr_volume (idx price0 (fst x1) 0)) (fl 125 3));
    (273, ((pr_timestamp_sec (idx price0 (fst x1) 1)) =? 1483228860));
    (273, feq (pr_price (idx price0 (fst x1) 1)) (fl 705 0));
    (273, feq (pr_volume (idx price0 (fst x1) 1)) (fl 125 3));
    (274, ((pr_timestamp_sec (idx price0 (fst x1) 2)) =? 1483228980));
    (274, feq (pr_price (idx price0 (fst x1) 2)) (fl 175 2));
    (274, feq (pr_volume (idx price0 (fst x1) 2)) (fl 125 3));
    (275, ((pr_timestamp_sec (idx price0 (fst x1) 3)) =? 1483229040));
    (275, feq (pr_price (idx price0 (fst x1) 3)) (fl 695 0));
    (275, feq (pr_volume (idx price0 (fst x1) 3)) (fl 125 3));
    (282, ((size (fst x2)) =? 4));
    (283, ((pr_timestamp_sec (idx price0 (fst x2) 0)) =? 1483228800));
    (283, feq (pr_price (idx price0 (fst x2) 0)) (fl 175 2));
    (283, feq (pr_volume (idx price0 (fst x2) 0)) (fl 125 3));
    (284, ((pr_timestamp_sec (idx price0 (fst x2) 1)) =? 1483228860));
    (284, feq (pr_price (idx price0 (fst x2) 1)) (fl 705 0));
    (284, feq (pr_volume (idx price0 (fst x2) 1)) (fl 125 3));
    (285, ((pr_timestamp_sec (idx price0 (fst x2) 2)) =? 1483228980));
    (285, feq (pr_price (idx price0 (fst x2) 2)) (fl 175 2));
    (285, feq (pr_volume (idx price0 (fst x2) 2)) (fl 125 3));
    (286, ((pr_timestamp_sec (idx price0 (fst x2) 3)) =? 1483229040));
    (286, feq (pr_price (idx price0 (fst x2) 3)) (fl 695 0));
    (286, feq (pr_volume (idx price0 (fst x2) 3)) (fl 125 3));
    (287, ((size (match snd x2 with Some l => l | None => [] end)) =? 1));
    (288, ((idx 0 (match snd x2 with Some l => l | None => [] end) 0) =? 2))]).
Check (@eq_refl (outcome (list Z)) (Done []) <: RemoveOutliersTest_NegativeVolume = Done []).

(** base/history_test.cc:291-322 TEST(RemoveOutliersTest, SimpleOutlier): 28 checks. *)
Definition RemoveOutliersTest_SimpleOutlier : outcome (list Z) :=
  let x1 := RemoveOutliers [(PriceRecord 1483228800 (fl 175 2) (fl 125 3)); (PriceRecord 1483228860 (fl 705 0) (fl 125 3)); (PriceRecord 1483228920 (fl 375 1) (fl 125 3)); (PriceRecord 1483228980 (fl 175 2) (fl 125 3)); (PriceRecord 1483229040 (fl 695 0) (fl 125 3))] (fl 5368709 (-28)) None in
  let x2 := RemoveOutliers [(PriceRecord 1483228800 (fl 175 2) (fl 125 3)); (PriceRecord 1483228860 (fl 705 0) (fl 125 3)); (PriceRecord 1483228920 (fl 375 1) (fl 125 3)); (PriceRecord 1483228980 (fl 175 2) (fl 125 3)); (PriceRecord 1483229040 (fl 695 0) (fl 125 3))] (fl 5368709 (-28)) (Some []) in
  Done (failures [(304, ((size (fst x1)) =? 4));
    (305, ((pr_timestamp_sec (idx price0 (fst x1) 0)) =? 1483228800));
    (305, feq (pr_price (idx price0 (fst x1) 0)) (fl 175 2));
    (305, feq (pr_volume (idx price0 (fst x1) 0)) (fl 125 3));
    (306, ((pr_timestamp_sec (idx price0 (fst x1) 1)) =? 1483228860));
    (306, feq (pr_price (idx price0 (fst x1) 1)) (fl 705 0));
    (306, feq (pr_volume (idx price0 (fst x1) 1)) (fl 125 3));
    (307, ((pr_timestamp_sec (idx price0 (fst x1) 2)) =? 1483228980));
    (307, feq (pr_price (idx price0 (fst x1) 2)) (fl 175 2));
    (307, feq (pr_volume (idx price0 (fst x1) 2)) (fl 125 3));
    (308, ((pr_timestamp_sec (idx price0 (fst x1) 3)) =? 1483229040));
    (308, feq (pr_price (idx price0 (fst x1) 3)) (fl 695 0));
    (308, feq (pr_volume (idx price0 (fst x1) 3)) (fl 125 3));
    (315, ((size (fst x2)) =? 4));
    (316, ((pr_timestamp_sec (idx price0 (fst x2) 0)) =? 1483228800));
    (316, feq (pr_price (idx price0 (fst x2) 0)) (fl 175 2));
    (316, feq (pr_volume (idx price0 (fst x2) 0)) (fl 125 3));
    (317, ((pr_timestamp_sec (idx price0 (fst x2) 1)) =? 1483228860));
    (317, feq (pr_price (idx price0 (fst x2) 1)) (fl 705 0));
    (317, feq (pr_volume (idx price0 (fst x2) 1)) (fl 125 3));
    (318, ((pr_timestamp_sec (idx price0 (fst x2) 2)) =? 1483228980));
    (318, feq (pr_price (idx price0 (fst x2) 2)) (fl 175 2));
    (318, feq (pr_volume (idx price0 (fst x2) 2)) (fl 125 3));
    (319, ((pr_timestamp_sec (idx price0 (fst x2) 3)) =? 1483229040));
    (319, feq (pr_price (idx price0 (fst x2) 3)) (fl 695 0));
    (319, feq (pr_volume (idx price0 (fst x2) 3)) (fl 125 3));
    (320, ((size (match snd x2 with Some l => l | None => [] end)) =? 1));
    (321, ((idx 0 (match snd x2 with Some l => l | None => [] end) 0) =? 2))]).
Check (@eq_refl (outcome (list Z)) (Done []) <: RemoveOutliersTest_SimpleOutlier = Done []).

(** base/history_test.cc:324-368 TEST(RemoveOutliersTest, NonPersistentOutliers): 56 checks. *)
Definition RemoveOutliersTest_NonPersistentOutliers : outcome (list Z) :=
  let x1 := RemoveOutliers [(PriceRecord 1483228800 (fl 175 2) (fl 125 3)); (PriceRecord 1483228860 (fl 705 0) (fl 375 2)); (PriceRecord 1483228920 (fl 175 2) (fl 125 3)); (PriceRecord 1483228980 (fl 695 0) (fl 375 2)); (PriceRecord 1483229040 (fl 375 1) (fl 125 3)); (PriceRecord 1483229100 (fl 705 0) (fl 375 2)); (PriceRecord 1483229160 (fl 375 1) (fl 125 3)); (PriceRecord 1483229220 (fl 695 0) (fl 375 2)); (PriceRecord 1483229280 (fl 175 2) (fl 125 3)); (PriceRecord 1483229340 (fl 705 0) (fl 375 2)); (PriceRecord 1483229400 (fl 225 1) (fl 125 3)); (PriceRecord 1483229460 (fl 695 0) (fl 375 2)); (PriceRecord 1483229520 (fl 175 2) (fl 125 3)); (PriceRecord 1483229580 (fl 705 0) (fl 375 2)); (PriceRecord 1483229640 (fl 175 2) (fl 125 3)); (PriceRecord 1483229700 (fl 695 0) (fl 375 2)); (PriceRecord 1483229760 (fl 175 2) (fl 125 3)); (PriceRecord 1483229820 (fl 705 0) (fl 375 2)); (PriceRecord 1483229880 (fl 175 2) (fl 125 3)); (PriceRecord 1483229940 (fl 695 0) (fl 375 2))] (fl 5368709 (-28)) (Some []) in
  Done (failures [(351, ((size (fst x1)) =? 17));
    (353, ((pr_timestamp_sec (idx price0 (fst x1) 0)) =? 1483228800));
    (353, feq (pr_price (idx price0 (fst x1) 0)) (fl 175 2));
    (353, feq (pr_volume (idx price0 (fst x1) 0)) (fl 125 3));
    (353, ((pr_timestamp_sec (idx price0 (fst x1) 1)) =? 1483228860));
    (353, feq (pr_price (idx price0 (fst x1) 1)) (fl 705 0));
    (353, feq (pr_volume (idx price0 (fst x1) 1)) (fl 375 2));
    (353, ((pr_timestamp_sec (idx price0 (fst x1) 2)) =? 1483228920));
    (353, feq (pr_price (idx price0 (fst x1) 2)) (fl 175 2));
    (353, feq (pr_volume (idx price0 (fst x1) 2)) (fl 125 3));
    (353, ((pr_timestamp_sec (idx price0 (fst x1) 3)) =? 1483228980));
    (353, feq (pr_price (idx price0 (fst x1) 3)) (fl 695 0));
    (353, feq (pr_volume (idx price0 (fst x1) 3)) (fl 375 2));
    (356, ((pr_timestamp_sec (idx price0 (fst x1) 4)) =? 1483229100));
    (356, feq (pr_price (idx price0 (fst x1) 4)) (fl 705 0));
    (356, feq (pr_volume (idx price0 (fst x1) 4)) (fl 375 2));
    (359, ((pr_timestamp_sec (idx price0 (fst x1) 5)) =? 1483229220));
    (359, feq (pr_price (idx price0 (fst x1) 5)) (fl 695 0));
    (359, feq (pr_volume (idx price0 (fst x1) 5)) (fl 375 2));
    (359, ((pr_timestamp_sec (idx price0 (fst x1) 6)) =? 1483229280));
    (359, feq (pr_price (idx price0 (fst x1) 6)) (fl 175 2));
    (359, feq (pr_volume (idx price0 (fst x1) 6)) (fl 125 3));
    (359, ((pr_timestamp_sec (idx price0 (fst x1) 7)) =? 1483229340));
    (359, feq (pr_price (idx price0 (fst x1) 7)) (fl 705 0));
    (359, feq (pr_volume (idx price0 (fst x1) 7)) (fl 375 2));
    (362, ((pr_timestamp_sec (idx price0 (fst x1) 8)) =? 1483229460));
    (362, feq (pr_price (idx price0 (fst x1) 8)) (fl 695 0));
    (362, feq (pr_volume (idx price0 (fst x1) 8)) (fl 375 2));
    (362, ((pr_timestamp_sec (idx price0 (fst x1) 9)) =? 1483229520));
    (362, feq (pr_price (idx price0 (fst x1) 9)) (fl 175 2));
    (362, feq (pr_volume (idx price0 (fst x1) 9)) (fl 125 3));
    (362, ((pr_timestamp_sec (idx price0 (fst x1) 10)) =? 1483229580));
    (362, feq (pr_price (idx price0 (fst x1) 10)) (fl 705 0));
    (362, feq (pr_volume (idx price0 (fst x1) 10)) (fl 375 2));
    (362, ((pr_timestamp_sec (idx price0 (fst x1) 11)) =? 1483229640));
    (362, feq (pr_price (idx price0 (fst x1) 11)) (fl 175 2));
    (362, feq (pr_volume (idx price0 (fst x1) 11)) (fl 125 3));
    (362, ((pr_timestamp_sec (idx price0 (fst x1) 12)) =? 1483229700));
    (362, feq (pr_price (idx price0 (fst x1) 12)) (fl 695 0));
    (362, feq (pr_volume (idx price0 (fst x1) 12)) (fl 375 2));
    (362, ((pr_timestamp_sec (idx price0 (fst x1) 13)) =? 1483229760));
    (362, feq (pr_price (idx price0 (fst x1) 13)) (fl 175 2));
    (362, feq (pr_volume (idx price0 (fst x1) 13)) (fl 125 3));
    (362, ((pr_timestamp_sec (idx price0 (fst x1) 14)) =? 1483229820));
    (362, feq (pr_price (idx price0 (fst x1) 14)) (fl 705 0));
    (362, feq (pr_volume (idx price0 (fst x1) 14)) (fl 375 2));
    (362, ((pr_timestamp_sec (idx price0 (fst x1) 15)) =? 1483229880));
    (362, feq (pr_price (idx price0 (fst x1) 15)) (fl 175 2));
    (362, feq (pr_volume (idx price0 (fst x1) 15)) (fl 125 3));
    (362, ((pr_timestamp_sec (idx price0 (fst x1) 16)) =? 1483229940));
    (362, feq (pr_price (idx price0 (fst x1) 16)) (fl 695 0));
    (362, feq (pr_volume (idx price0 (fst x1) 16)) (fl 375 2));
    (364, ((size (match snd x1 with Some l => l | None => [] end)) =? 3));
    (365, ((idx 0 (match snd x1 with Some l => l | None => [] end) 0) =? 4));
    (366, ((idx 0 (match snd x1 with Some l => l | None => [] end) 1) =? 6));
    (367, ((idx 0 (match snd x1 with Some l => l | None => [] end) 2) =? 10))]).
Check (@eq_refl (outcome (list Z)) (Done []) <: RemoveOutliersTest_NonPersistentOutliers = Done []).

(** base/history_test.cc:370-406 TEST(RemoveOutliersTest, PersistentJumps): 60 checks. *)
Definition RemoveOutliersTest_PersistentJumps : outcome (list Z) :=
  let x1 := RemoveOutliers [(PriceRecord 1483228800 (fl 175 2) (fl 125 3)); (PriceRecord 1483228860 (fl 705 0) (fl 375 2)); (PriceRecord 1483228920 (fl 175 2) (fl 125 3)); (PriceRecord 1483228980 (fl 695 0) (fl 375 2)); (PriceRecord 1483229040 (fl 375 1) (fl 125 3)); (PriceRecord 1483229100 (fl 705 0) (fl 375 2)); (PriceRecord 1483229160 (fl 375 1) (fl 125 3)); (PriceRecord 1483229220 (fl 745 0) (fl 375 2)); (PriceRecord 1483229280 (fl 375 1) (fl 125 3)); (PriceRecord 1483229340 (fl 755 0) (fl 375 2)); (PriceRecord 1483229400 (fl 375 1) (fl 125 3)); (PriceRecord 1483229460 (fl 745 0) (fl 375 2)); (PriceRecord 1483229520 (fl 375 1) (fl 125 3)); (PriceRecord 1483229580 (fl 755 0) (fl 375 2)); (PriceRecord 1483229640 (fl 175 2) (fl 125 3)); (PriceRecord 1483229700 (fl 695 0) (fl 375 2)); (PriceRecord 1483229760 (fl 175 2) (fl 125 3)); (PriceRecord 1483229820 (fl 705 0) (fl 375 2)); (PriceRecord 1483229880 (fl 175 2) (fl 125 3)); (PriceRecord 1483229940 (fl 695 0) (fl 375 2))] (fl 5368709 (-28)) (Some []) in
  Done (failures [(397, ((size (fst x1)) =? 19));
    (399, ((pr_timestamp_sec (idx price0 (fst x1) 0)) =? 1483228800));
    (399, feq (pr_price (idx price0 (fst x1) 0)) (fl 175 2));
    (399, feq (pr_volume (idx price0 (fst x1) 0)) (fl 125 3));
    (399, ((pr_timestamp_sec (idx price0 (fst x1) 1)) =? 1483228860));
    (399, feq (pr_price (idx price0 (fst x1) 1)) (fl 705 0));
    (399, feq (pr_volume (idx price0 (fst x1) 1)) (fl 375 2));
    (399, ((pr_timestamp_sec (idx price0 (fst x1) 2)) =? 1483228920));
    (399, feq (pr_price (idx price0 (fst x1) 2)) (fl 175 2));
    (399, feq (pr_volume (idx price0 (fst x1) 2)) (fl 125 3));
    (399, ((pr_timestamp_sec (idx price0 (fst x1) 3)) =? 1483228980));
    (399, feq (pr_price (idx price0 (fst x1) 3)) (fl 695 0));
    (399, feq (pr_volume (idx price0 (fst x1) 3)) (fl 375 2));
    (399, ((pr_timestamp_sec (idx price0 (fst x1) 4)) =? 1483229040));
    (399, feq (pr_price (idx price0 (fst x1) 4)) (fl 375 1));
    (399, feq (pr_volume (idx price0 (fst x1) 4)) (fl 125 3));
    (402, ((pr_timestamp_sec (idx price0 (fst x1) 5)) =? 1483229160));
    (402, feq (pr_price (idx price0 (fst x1) 5)) (fl 375 1));
    (402, feq (pr_volume (idx price0 (fst x1) 5)) (fl 125 3));
    (402, ((pr_timestamp_sec (idx price0 (fst x1) 6)) =? 1483229220));
    (402, feq (pr_price (idx price0 (fst x1) 6)) (fl 745 0));
    (402, feq (pr_volume (idx price0 (fst x1) 6)) (fl 375 2));
    (402, ((pr_timestamp_sec (idx price0 (fst x1) 7)) =? 1483229280));
    (402, feq (pr_price (idx price0 (fst x1) 7)) (fl 375 1));
    (402, feq (pr_volume (idx price0 (fst x1) 7)) (fl 125 3));
    (402, ((pr_timestamp_sec (idx price0 (fst x1) 8)) =? 1483229340));
    (402, feq (pr_price (idx price0 (fst x1) 8)) (fl 755 0));
    (402, feq (pr_volume (idx price0 (fst x1) 8)) (fl 375 2));
    (402, ((pr_timestamp_sec (idx price0 (fst x1) 9)) =? 1483229400));
    (402, feq (pr_price (idx price0 (fst x1) 9)) (fl 375 1));
    (402, feq (pr_volume (idx price0 (fst x1) 9)) (fl 125 3));
    (402, ((pr_timestamp_sec (idx price0 (fst x1) 10)) =? 1483229460));
    (402, feq (pr_price (idx price0 (fst x1) 10)) (fl 745 0));
    (402, feq (pr_volume (idx price0 (fst x1) 10)) (fl 375 2));
    (402, ((pr_timestamp_sec (idx price0 (fst x1) 11)) =? 1483229520));
    (402, feq (pr_price (idx price0 (fst x1) 11)) (fl 375 1));
    (402, feq (pr_volume (idx price0 (fst x1) 11)) (fl 125 3));
    (402, ((pr_timestamp_sec (idx price0 (fst x1) 12)) =? 1483229580));
    (402, feq (pr_price (idx price0 (fst x1) 12)) (fl 755 0));
    (402, feq (pr_volume (idx price0 (fst x1) 12)) (fl 375 2));
    (402, ((pr_timestamp_sec (idx price0 (fst x1) 13)) =? 1483229640));
    (402, feq (pr_price (idx price0 (fst x1) 13)) (fl 175 2));
    (402, feq (pr_volume (idx price0 (fst x1) 13)) (fl 125 3));
    (402, ((pr_timestamp_sec (idx price0 (fst x1) 14)) =? 1483229700));
    (402, feq (pr_price (idx price0 (fst x1) 14)) (fl 695 0));
    (402, feq (pr_volume (idx price0 (fst x1) 14)) (fl 375 2));
    (402, ((pr_timestamp_sec (idx price0 (fst x1) 15)) =? 1483229760));
    (402, feq (pr_price (idx price0 (fst x1) 15)) (fl 175 2));
    (402, feq (pr_volume (idx price0 (fst x1) 15)) (fl 125 3));
    (402, ((pr_timestamp_sec (idx price0 (fst x1) 16)) =? 1483229820));
    (402, feq (pr_price (idx price0 (fst x1) 16)) (fl 705 0));
    (402, feq (pr_volume (idx price0 (fst x1) 16)) (fl 375 2));
    (402, ((pr_timestamp_sec (idx price0 (fst x1) 17)) =? 1483229880));
    (402, feq (pr_price (idx price0 (fst x1) 17)) (fl 175 2));
    (402, feq (pr_volume (idx price0 (fst x1) 17)) (fl 125 3));
    (402, ((pr_timestamp_sec (idx price0 (fst x1) 18)) =? 1483229940));
    (402, feq (pr_price (idx price0 (fst x1) 18)) (fl 695 0));
    (402, feq (pr_volume (idx price0 (fst x1) 18)) (fl 375 2));
    (404, ((size (match snd x1 with Some l => l | None => [] end)) =? 1));
    (405, ((idx 0 (match snd x1 with Some l => l | None => [] end) 0) =? 5))]).
Check (@eq_refl (outcome (list Z)) (Done []) <: RemoveOutliersTest_PersistentJumps = Done []).

(** base/history_test.cc:408-417 TEST(GetOutlierIndicesWithContextTest, NoOutliers): 1 checks. *)
Definition GetOutlierIndicesWithContextTest_NoOutliers : outcome (list Z) :=
  let x1 := GetOutlierIndicesWithContext [] 100 5 5 10 in
  Done (failures [(416, (size x1 =? 0))]).
Check (@eq_refl (outcome (list Z)) (Done []) <: GetOutlierIndicesWithContextTest_NoOutliers = Done []).

(** base/history_test.cc:419-437 TEST(GetOutlierIndicesWithContextTest, SingleOutlierAtTheBeginning): 10 checks. *)
Definition GetOutlierIndicesWithContextTest_SingleOutlierAtTheBeginning : outcome (list Z) :=
  let x1 := GetOutlierIndicesWithContext [3] 100 5 5 10 in
  Done (failures [(427, ((size x1) =? 9));
    (428, is_bool (map_at x1 0) false);
    (429, is_bool (map_at x1 1) false);
    (430, is_bool (map_at x1 2) false);
    (431, is_bool (map_at x1 3) true);
    (432, is_bool (map_at x1 4) false);
    (433, is_bool (map_at x1 5) false);
    (434, is_bool (map_at x1 6) false);
    (435, is_bool (map_at x1 7) false);
    (436, is_bool (map_at x1 8) false)]).
Check (@eq_refl (outcome (list Z)) (Done []) <: GetOutlierIndicesWithContextTest_SingleOutlierAtTheBeginning = Done []).

(** base/history_test.cc:439-459 TEST(GetOutlierIndicesWithContextTest, SingleOutlierInTheMiddle): 12 checks. *)
Definition GetOutlierIndicesWithContextTest_SingleOutlierInTheMiddle : outcome (list Z) :=
  let x1 := GetOutlierIndicesWithContext [50] 100 5 5 10 in
  Done (failures [(447, ((size x1) =? 11));
    (448, is_bool (map_at x1 45) false);
    (449, is_bool (map_at x1 46) false);
    (450, is_bool (map_at x1 47) false);
    (451, is_bool (map_at x1 48) false);
    (452, is_bool (map_at x1 49) false);
    (453, is_bool (map_at x1 50) true);
    (454, is_bool (map_at x1 51) false);
    (455, is_bool (map_at x1 52) false);
    (456, is_bool (map_at x1 53) false);
    (457, is_bool (map_at x1 54) false);
    (458, is_bool (map_at x1 55) false)]).
Check (@eq_refl (outcome (list Z)) (Done []) <: GetOutlierIndicesWithContextTest_SingleOutlierInTheMiddle = Done []).

(** base/history_test.cc:461-478 TEST(GetOutlierIndicesWithContextTest, SingleOutlierAtTheEnd): 9 checks. *)
Definition GetOutlierIndicesWithContextTest_SingleOutlierAtTheEnd : outcome (list Z) :=
  let x1 := GetOutlierIndicesWithContext [97] 100 5 5 10 in
  Done (failures [(469, ((size x1) =? 8));
    (470, is_bool (map_at x1 92) false);
    (471, is_bool (map_at x1 93) false);
    (472, is_bool (map_at x1 94) false);
    (473, is_bool (map_at x1 95) false);
    (474, is_bool (map_at x1 96) false);
    (475, is_bool (map_at x1 97) true);
    (476, is_bool (map_at x1 98) false);
    (477, is_bool (map_at x1 99) false)]).
Check (@eq_refl (outcome (list Z)) (Done []) <: GetOutlierIndicesWithContextTest_SingleOutlierAtTheEnd = Done []).

(** base/history_test.cc:480-502 TEST(GetOutlierIndicesWithContextTest, MultipleOutliersAtTheBeginning): 14 checks. *)
Definition GetOutlierIndicesWithContextTest_MultipleOutliersAtTheBeginning : outcome (list Z) :=
  let x1 := GetOutlierIndicesWithContext [3; 4; 7] 100 5 5 10 in
  Done (failures [(488, ((size x1) =? 13));
    (489, is_bool (map_at x1 0) false);
    (490, is_bool (map_at x1 1) false);
    (491, is_bool (map_at x1 2) false);
    (492, is_bool (map_at x1 3) true);
    (493, is_bool (map_at x1 4) true);
    (494, is_bool (map_at x1 5) false);
    (495, is_bool (map_at x1 6) false);
    (496, is_bool (map_at x1 7) true);
    (497, is_bool (map_at x1 8) false);
    (498, is_bool (map_at x1 9) false);
    (499, is_bool (map_at x1 10) false);
    (500, is_bool (map_at x1 11) false);
    (501, is_bool (map_at x1 12) false)]).
Check (@eq_refl (outcome (list Z)) (Done []) <: GetOutlierIndicesWithContextTest_MultipleOutliersAtTheBeginning = Done []).

(** base/history_test.cc:504-523 TEST(GetOutlierIndicesWithContextTest, MultipleOutliersInTheMiddle): 11 checks. *)
Definition GetOutlierIndicesWithContextTest_MultipleOutliersInTheMiddle : outcome (list Z) :=
  let x1 := GetOutlierIndicesWithContext [50; 51; 53] 100 3 3 10 in
  Done (failures [(512, ((size x1) =? 10));
    (513, is_bool (map_at x1 47) false);
    (514, is_bool (map_at x1 48) false);
    (515, is_bool (map_at x1 49) false);
    (516, is_bool (map_at x1 50) true);
    (517, is_bool (map_at x1 51) true);
    (518, is_bool (map_at x1 52) false);
    (519, is_bool (map_at x1 53) true);
    (520, is_bool (map_at x1 54) false);
    (521, is_bool (map_at x1 55) false);
    (522, is_bool (map_at x1 56) false)]).
Check (@eq_refl (outcome (list Z)) (Done []) <: GetOutlierIndicesWithContextTest_MultipleOutliersInTheMiddle = Done []).

(** base/history_test.cc:525-545 TEST(GetOutlierIndicesWithContextTest, MultipleOutliersAtTheEnd): 12 checks. *)
Definition GetOutlierIndicesWithContextTest_MultipleOutliersAtTheEnd : outcome (list Z) :=
  let x1 := GetOutlierIndicesWithContext [94; 95; 97] 100 5 5 10 in
  Done (failures [(533, ((size x1) =? 11));
    (534, is_bool (map_at x1 89) false);
    (535, is_bool (map_at x1 90) false);
    (536, is_bool (map_at x1 91) false);
    (537, is_bool (map_at x1 92) false);
    (538, is_bool (map_at x1 93) false);
    (539, is_bool (map_at x1 94) true);
    (540, is_bool (map_at x1 95) true);
    (541, is_bool (map_at x1 96) false);
    (542, is_bool (map_at x1 97) true);
    (543, is_bool (map_at x1 98) false);
    (544, is_bool (map_at x1 99) false)]).
Check (@eq_refl (outcome (list Z)) (Done []) <: GetOutlierIndicesWithContextTest_MultipleOutliersAtTheEnd = Done []).

(** base/history_test.cc:547-553 TEST(ResampleTest, EmptyPriceHistory): 1 checks. *)
Definition ResampleTest_EmptyPriceHistory : outcome (list Z) :=
  do x1 <- Resample [] 300 ;
  Done (failures [(552, ((size x1) =? 0))]).
Check (@eq_refl (outcome (list Z)) (Done []) <: ResampleTest_EmptyPriceHistory = Done []).

(** base/history_test.cc:555-569 TEST(ResampleTest, EmptyOhlcHistory): 2 checks. *)
Definition ResampleTest_EmptyOhlcHistory : outcome (list Z) :=
  do x1 <- Resample [] 300 ;
  do x2 <- Resample [] 10 ;
  Done (failures [(564, ((size x1) =? 0));
    (568, ((size x2) =? 0))]).
Check (@eq_refl (outcome (list Z)) (Done []) <: ResampleTest_EmptyOhlcHistory = Done []).

(** base/history_test.cc:571-580 TEST(ResampleTest, ResampleSinglePriceRecord): 7 checks. *)
Definition ResampleTest_ResampleSinglePriceRecord : outcome (list Z) :=
  do x1 <- Resample [(PriceRecord 1483228800 (fl 175 2) (fl 125 3))] 300 ;
  Done (failures [(577, ((size x1) =? 1));
    (578, ((timestamp_sec (idx tick0 x1 0)) =? 1483228800));
    (578, feq (open (idx tick0 x1 0)) (fl 175 2));
    (578, feq (high (idx tick0 x1 0)) (fl 175 2));
    (578, feq (low (idx tick0 x1 0)) (fl 175 2));
    (578, feq (close (idx tick0 x1 0)) (fl 175 2));
    (578, feq (volume (idx tick0 x1 0)) (fl 125 3))]).
Check (@eq_refl (outcome (list Z)) (Done []) <: ResampleTest_ResampleSinglePriceRecord = Done []).

(** base/history_test.cc:582-604 TEST(ResampleTest, ResampleMultiplePriceRecords1): 32 checks. *)
Definition ResampleTest_ResampleMultiplePriceRecords1 : outcome (list Z) :=
  do x1 <- Resample [(PriceRecord 1483228800 (fl 175 2) (fl 125 3)); (PriceRecord 1483229400 (fl 25 5) (fl 375 2))] 300 ;
  do x2 <- Resample [(PriceRecord 1483228800 (fl 175 2) (fl 125 3)); (PriceRecord 1483229400 (fl 25 5) (fl 375 2))] 600 ;
  Done (failures [(589, ((size x1) =? 3));
    (590, ((timestamp_sec (idx tick0 x1 0)) =? 1483228800));
    (590, feq (open (idx tick0 x1 0)) (fl 175 2));
    (590, feq (high (idx tick0 x1 0)) (fl 175 2));
    (590, feq (low (idx tick0 x1 0)) (fl 175 2));
    (590, feq (close (idx tick0 x1 0)) (fl 175 2));
    (590, feq (volume (idx tick0 x1 0)) (fl 125 3));
    (592, ((timestamp_sec (idx tick0 x1 1)) =? 1483229100));
    (592, feq (open (idx tick0 x1 1)) (fl 175 2));
    (592, feq (high (idx tick0 x1 1)) (fl 175 2));
    (592, feq (low (idx tick0 x1 1)) (fl 175 2));
    (592, feq (close (idx tick0 x1 1)) (fl 175 2));
    (592, feq (volume (idx tick0 x1 1)) (fl 0 0));
    (594, ((timestamp_sec (idx tick0 x1 2)) =? 1483229400));
    (594, feq (open (idx tick0 x1 2)) (fl 25 5));
    (594, feq (high (idx tick0 x1 2)) (fl 25 5));
    (594, feq (low (idx tick0 x1 2)) (fl 25 5));
    (594, feq (close (idx tick0 x1 2)) (fl 25 5));
    (594, feq (volume (idx tick0 x1 2)) (fl 375 2));
    (599, ((size x2) =? 2));
    (600, ((timestamp_sec (idx tick0 x2 0)) =? 1483228800));
    (600, feq (open (idx tick0 x2 0)) (fl 175 2));
    (600, feq (high (idx tick0 x2 0)) (fl 175 2));
    (600, feq (low (idx tick0 x2 0)) (fl 175 2));
    (600, feq (close (idx tick0 x2 0)) (fl 175 2));
    (600, feq (volume (idx tick0 x2 0)) (fl 125 3));
    (602, ((timestamp_sec (idx tick0 x2 1)) =? 1483229400));
    (602, feq (open (idx tick0 x2 1)) (fl 25 5));
    (602, feq (high (idx tick0 x2 1)) (fl 25 5));
    (602, feq (low (idx tick0 x2 1)) (fl 25 5));
    (602, feq (close (idx tick0 x2 1)) (fl 25 5));
    (602, feq (volume (idx tick0 x2 1)) (fl 375 2))]).
Check (@eq_refl (outcome (list Z)) (Done []) <: ResampleTest_ResampleMultiplePriceRecords1 = Done []).

(** base/history_test.cc:606-642 TEST(ResampleTest, ResampleMultiplePriceRecords2): 56 checks. *)
Definition ResampleTest_ResampleMultiplePriceRecords2 : outcome (list Z) :=
  do x1 <- Resample [(PriceRecord 1483228850 (fl 175 2) (fl 125 3)); (PriceRecord 1483228900 (fl 375 1) (fl 125 4)); (PriceRecord 1483228950 (fl 325 1) (fl 125 4)); (PriceRecord 1483229000 (fl 45 4) (fl 125 3)); (PriceRecord 1483229450 (fl 25 5) (fl 375 2)); (PriceRecord 1483229500 (fl 375 1) (fl 625 2)); (PriceRecord 1483229550 (fl 25 5) (fl 375 2)); (PriceRecord 1483229600 (fl 425 1) (fl 625 2))] 300 ;
  do x2 <- Resample [(PriceRecord 1483228850 (fl 175 2) (fl 125 3)); (PriceRecord 1483228900 (fl 375 1) (fl 125 4)); (PriceRecord 1483228950 (fl 325 1) (fl 125 4)); (PriceRecord 1483229000 (fl 45 4) (fl 125 3)); (PriceRecord 1483229450 (fl 25 5) (fl 375 2)); (PriceRecord 1483229500 (fl 375 1) (fl 625 2)); (PriceRecord 1483229550 (fl 25 5) (fl 375 2)); (PriceRecord 1483229600 (fl 425 1) (fl 625 2))] 150 ;
  Done (failures [(619, ((size x1) =? 3));
    (620, ((timestamp_sec (idx tick0 x1 0)) =? 1483228800));
    (620, feq (open (idx tick0 x1 0)) (fl 175 2));
    (620, feq (high (idx tick0 x1 0)) (fl 375 1));
    (620, feq (low (idx tick0 x1 0)) (fl 325 1));
    (620, feq (close (idx tick0 x1 0)) (fl 45 4));
    (620, feq (volume (idx tick0 x1 0)) (fl 375 4));
    (622, ((timestamp_sec (idx tick0 x1 1)) =? 1483229100));
    (622, feq (open (idx tick0 x1 1)) (fl 45 4));
    (622, feq (high (idx tick0 x1 1)) (fl 45 4));
    (622, feq (low (idx tick0 x1 1)) (fl 45 4));
    (622, feq (close (idx tick0 x1 1)) (fl 45 4));
    (622, feq (volume (idx tick0 x1 1)) (fl 0 0));
    (624, ((timestamp_sec (idx tick0 x1 2)) =? 1483229400));
    (624, feq (open (idx tick0 x1 2)) (fl 25 5));
    (624, feq (high (idx tick0 x1 2)) (fl 425 1));
    (624, feq (low (idx tick0 x1 2)) (fl 375 1));
    (624, feq (close (idx tick0 x1 2)) (fl 425 1));
    (624, feq (volume (idx tick0 x1 2)) (fl 125 6));
    (629, ((size x2) =? 6));
    (630, ((timestamp_sec (idx tick0 x2 0)) =? 1483228800));
    (630, feq (open (idx tick0 x2 0)) (fl 175 2));
    (630, feq (high (idx tick0 x2 0)) (fl 375 1));
    (630, feq (low (idx tick0 x2 0)) (fl 175 2));
    (630, feq (close (idx tick0 x2 0)) (fl 375 1));
    (630, feq (volume (idx tick0 x2 0)) (fl 375 3));
    (632, ((timestamp_sec (idx tick0 x2 1)) =? 1483228950));
    (632, feq (open (idx tick0 x2 1)) (fl 325 1));
    (632, feq (high (idx tick0 x2 1)) (fl 45 4));
    (632, feq (low (idx tick0 x2 1)) (fl 325 1));
    (632, feq (close (idx tick0 x2 1)) (fl 45 4));
    (632, feq (volume (idx tick0 x2 1)) (fl 375 3));
    (634, ((timestamp_sec (idx tick0 x2 2)) =? 1483229100));
    (634, feq (open (idx tick0 x2 2)) (fl 45 4));
    (634, feq (high (idx tick0 x2 2)) (fl 45 4));
    (634, feq (low (idx tick0 x2 2)) (fl 45 4));
    (634, feq (close (idx tick0 x2 2)) (fl 45 4));
    (634, feq (volume (idx tick0 x2 2)) (fl 0 0));
    (636, ((timestamp_sec (idx tick0 x2 3)) =? 1483229250));
    (636, feq (open (idx tick0 x2 3)) (fl 45 4));
    (636, feq (high (idx tick0 x2 3)) (fl 45 4));
    (636, feq (low (idx tick0 x2 3)) (fl 45 4));
    (636, feq (close (idx tick0 x2 3)) (fl 45 4));
    (636, feq (volume (idx tick0 x2 3)) (fl 0 0));
    (638, ((timestamp_sec (idx tick0 x2 4)) =? 1483229400));
    (638, feq (open (idx tick0 x2 4)) (fl 25 5));
    (638, feq (high (idx tick0 x2 4)) (fl 25 5));
    (638, feq (low (idx tick0 x2 4)) (fl 375 1));
    (638, feq (close (idx tick0 x2 4)) (fl 375 1));
    (638, feq (volume (idx tick0 x2 4)) (fl 125 5));
    (640, ((timestamp_sec (idx tick0 x2 5)) =? 1483229550));
    (640, feq (open (idx tick0 x2 5)) (fl 25 5));
    (640, feq (high (idx tick0 x2 5)) (fl 425 1));
    (640, feq (low (idx tick0 x2 5)) (fl 25 5));
    (640, feq (close (idx tick0 x2 5)) (fl 425 1));
    (640, feq (volume (idx tick0 x2 5)) (fl 125 5))]).
Check (@eq_refl (outcome (list Z)) (Done []) <: ResampleTest_ResampleMultiplePriceRecords2 = Done []).
