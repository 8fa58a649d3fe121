(** GENERATED from util/proto_test.cc by tools/gen_tests.py: the repository's unit tests, run on the
    model (see TestKit.v).  Each [Check] fails to build if a test does not pass. *)

From Coq Require Import ZArith Bool List String.
From Verif.Model Require Import Outcome Machine Types Account History SideInput Indicators
  TimeUtil TimeText Eval Traders CsvLogger MachineIEEE Proto Files.
From Verif.Validation Require Import TestKit.
Import ListNotations.
Local Open Scope Z_scope.

(** util/proto_test.cc:12-17 TEST(ReadWriteDelimitedTest, ReadWriteEmptyStream): 2 checks. *)
Definition ReadWriteDelimitedTest_ReadWriteEmptyStream : outcome (list Z) :=
  let d1 := ReadDelimitedVector PriceRecordType [] in
  Done (failures [(15, (match d1 with Some (_, Ok) => true | _ => false end));
    (16, ((size (match d1 with Some (ms, _) => map (price_of_msg (lm := test_libm) (as_ := true)) ms | None => [] end)) =? 0))]).
Check (@eq_refl (outcome (list Z)) (Done []) <: ReadWriteDelimitedTest_ReadWriteEmptyStream = Done []).

(** util/proto_test.cc:19-37 TEST(ReadWriteDelimitedTest, ReadWriteSinglePriceRecord): 6 checks. *)
Definition ReadWriteDelimitedTest_ReadWriteSinglePriceRecord : outcome (list Z) :=
  let b1 := WriteDelimitedMessages PriceRecordType [(PriceMsg (Some 1483228800) (Some (f32_bits (fl 175 2))) (Some (f32_bits (fl 1875 3))))] in
  let d2 := ReadDelimitedVector PriceRecordType b1 in
  Done (failures [(26, true);
    (32, (match d2 with Some (_, Ok) => true | _ => false end));
    (33, ((size (match d2 with Some (ms, _) => map (price_of_msg (lm := test_libm) (as_ := true)) ms | None => [] end)) =? 1));
    (34, ((pr_timestamp_sec (idx price0 (match d2 with Some (ms, _) => map (price_of_msg (lm := test_libm) (as_ := true)) ms | None => [] end) 0)) =? 1483228800));
    (35, feq (pr_price (idx price0 (match d2 with Some (ms, _) => map (price_of_msg (lm := test_libm) (as_ := true)) ms | None => [] end) 0)) (fl 175 2));
    (36, feq (pr_volume (idx price0 (match d2 with Some (ms, _) => map (price_of_msg (lm := test_libm) (as_ := true)) ms | None => [] end) 0)) (fl 1875 3))]).
Check (@eq_refl (outcome (list Z)) (Done []) <: ReadWriteDelimitedTest_ReadWriteSinglePriceRecord = Done []).

(** util/proto_test.cc:39-66 TEST(ReadWriteDelimitedTest, ReadWriteMultipleOhlcTicks): 53 checks. *)
Definition ReadWriteDelimitedTest_ReadWriteMultipleOhlcTicks : outcome (list Z) :=
  let b1 := WriteDelimitedMessages OhlcTickType [(TickMsg None (Some (f32_bits (fl 25 2))) (Some (f32_bits (fl 15 3))) (Some (f32_bits (fl 5 4))) (Some (f32_bits (fl 55 1))) (Some (f32_bits (fl 1875 3)))); (TickMsg None (Some (f32_bits (fl 55 1))) (Some (f32_bits (fl 35 2))) (Some (f32_bits (fl 45 1))) (Some (f32_bits (fl 15 3))) (Some (f32_bits (fl 125 7)))); (TickMsg None (Some (f32_bits (fl 15 3))) (Some (f32_bits (fl 5 5))) (Some (f32_bits (fl 25 2))) (Some (f32_bits (fl 65 1))) (Some (f32_bits (fl 2125 3)))); (TickMsg None (Some (f32_bits (fl 65 1))) (Some (f32_bits (fl 45 2))) (Some (f32_bits (fl 55 1))) (Some (f32_bits (fl 35 2))) (Some (f32_bits (fl 1125 4)))); (TickMsg None (Some (f32_bits (fl 35 2))) (Some (f32_bits (fl 25 3))) (Some (f32_bits (fl 15 3))) (Some (f32_bits (fl 75 1))) (Some (f32_bits (fl 2375 3)))); (TickMsg None (Some (f32_bits (fl 75 1))) (Some (f32_bits (fl 55 2))) (Some (f32_bits (fl 65 1))) (Some (f32_bits (fl 5 5))) (Some (f32_bits (fl 625 5)))); (TickMsg None (Some (f32_bits (fl 5 5))) (Some (f32_bits (fl 15 4))) (Some (f32_bits (fl 35 2))) (Some (f32_bits (fl 85 1))) (Some (f32_bits (fl 2625 3)))); (TickMsg None (Some (f32_bits (fl 85 1))) (Some (f32_bits (fl 65 2))) (Some (f32_bits (fl 75 1))) (Some (f32_bits (fl 45 2))) (Some (f32_bits (fl 1375 4)))); (TickMsg None (Some (f32_bits (fl 45 2))) (Some (f32_bits (fl 35 3))) (Some (f32_bits (fl 5 5))) (Some (f32_bits (fl 95 1))) (Some (f32_bits (fl 2875 3)))); (TickMsg None (Some (f32_bits (fl 95 1))) (Some (f32_bits (fl 75 2))) (Some (f32_bits (fl 85 1))) (Some (f32_bits (fl 25 3))) (Some (f32_bits (fl 375 6))))] in
  let d2 := ReadDelimitedVector OhlcTickType b1 in
  Done (failures [(51, true);
    (57, (match d2 with Some (_, Ok) => true | _ => false end));
    (58, ((size (match d2 with Some (ms, _) => map (tick_of_msg (lm := test_libm) (as_ := true)) ms | None => [] end)) =? 10));
    (60, feq (open (idx tick0 (match d2 with Some (ms, _) => map (tick_of_msg (lm := test_libm) (as_ := true)) ms | None => [] end) 0)) (fl 25 2));
    (61, feq (high (idx tick0 (match d2 with Some (ms, _) => map (tick_of_msg (lm := test_libm) (as_ := true)) ms | None => [] end) 0)) (fl 15 3));
    (62, feq (low (idx tick0 (match d2 with Some (ms, _) => map (tick_of_msg (lm := test_libm) (as_ := true)) ms | None => [] end) 0)) (fl 5 4));
    (63, feq (close (idx tick0 (match d2 with Some (ms, _) => map (tick_of_msg (lm := test_libm) (as_ := true)) ms | None => [] end) 0)) (fl 55 1));
    (64, feq (volume (idx tick0 (match d2 with Some (ms, _) => map (tick_of_msg (lm := test_libm) (as_ := true)) ms | None => [] end) 0)) (fl 1875 3));
    (60, feq (open (idx tick0 (match d2 with Some (ms, _) => map (tick_of_msg (lm := test_libm) (as_ := true)) ms | None => [] end) 1)) (fl 55 1));
    (61, feq (high (idx tick0 (match d2 with Some (ms, _) => map (tick_of_msg (lm := test_libm) (as_ := true)) ms | None => [] end) 1)) (fl 35 2));
    (62, feq (low (idx tick0 (match d2 with Some (ms, _) => map (tick_of_msg (lm := test_libm) (as_ := true)) ms | None => [] end) 1)) (fl 45 1));
    (63, feq (close (idx tick0 (match d2 with Some (ms, _) => map (tick_of_msg (lm := test_libm) (as_ := true)) ms | None => [] end) 1)) (fl 15 3));
    (64, feq (volume (idx tick0 (match d2 with Some (ms, _) => map (tick_of_msg (lm := test_libm) (as_ := true)) ms | None => [] end) 1)) (fl 125 7));
    (60, feq (open (idx tick0 (match d2 with Some (ms, _) => map (tick_of_msg (lm := test_libm) (as_ := true)) ms | None => [] end) 2)) (fl 15 3));
    (61, feq (high (idx tick0 (match d2 with Some (ms, _) => map (tick_of_msg (lm := test_libm) (as_ := true)) ms | None => [] end) 2)) (fl 5 5));
    (62, feq (low (idx tick0 (match d2 with Some (ms, _) => map (tick_of_msg (lm := test_libm) (as_ := true)) ms | None => [] end) 2)) (fl 25 2));
    (63, feq (close (idx tick0 (match d2 with Some (ms, _) => map (tick_of_msg (lm := test_libm) (as_ := true)) ms | None => [] end) 2)) (fl 65 1));
    (64, feq (volume (idx tick0 (match d2 with Some (ms, _) => map (tick_of_msg (lm := test_libm) (as_ := true)) ms | None => [] end) 2)) (fl 2125 3));
    (60, feq (open (idx tick0 (match d2 with Some (ms, _) => map (tick_of_msg (lm := test_libm) (as_ := true)) ms | None => [] end) 3)) (fl 65 1));
    (61, feq (high (idx tick0 (match d2 with Some (ms, _) => map (tick_of_msg (lm := test_libm) (as_ := true)) ms | None => [] end) 3)) (fl 45 2));
    (62, feq (low (idx tick0 (match d2 with Some (ms, _) => map (tick_of_msg (lm := test_libm) (as_ := true)) ms | None => [] end) 3)) (fl 55 1));
    (63, feq (close (idx tick0 (match d2 with Some (ms, _) => map (tick_of_msg (lm := test_libm) (as_ := true)) ms | None => [] end) 3)) (fl 35 2));
    (64, feq (volume (idx tick0 (match d2 with Some (ms, _) => map (tick_of_msg (lm := test_libm) (as_ := true)) ms | None => [] end) 3)) (fl 1125 4));
    (60, feq (open (idx tick0 (match d2 with Some (ms, _) => map (tick_of_msg (lm := test_libm) (as_ := true)) ms | None => [] end) 4)) (fl 35 2));
    (61, feq (high (idx tick0 (match d2 with Some (ms, _) => map (tick_of_msg (lm := test_libm) (as_ := true)) ms | None => [] end) 4)) (fl 25 3));
    (62, feq (low (idx tick0 (match d2 with Some (ms, _) => map (tick_of_msg (lm := test_libm) (as_ := true)) ms | None => [] end) 4)) (fl 15 3));
    (63, feq (close (idx tick0 (match d2 with Some (ms, _) => map (tick_of_msg (lm := test_libm) (as_ := true)) ms | None => [] end) 4)) (fl 75 1));
    (64, feq (volume (idx tick0 (match d2 with Some (ms, _) => map (tick_of_msg (lm := test_libm) (as_ := true)) ms | None => [] end) 4)) (fl 2375 3));
    (60, feq (open (idx tick0 (match d2 with Some (ms, _) => map (tick_of_msg (lm := test_libm) (as_ := true)) ms | None => [] end) 5)) (fl 75 1));
    (61, feq (high (idx tick0 (match d2 with Some (ms, _) => map (tick_of_msg (lm := test_libm) (as_ := true)) ms | None => [] end) 5)) (fl 55 2));
    (62, feq (low (idx tick0 (match d2 with Some (ms, _) => map (tick_of_msg (lm := test_libm) (as_ := true)) ms | None => [] end) 5)) (fl 65 1));
    (63, feq (close (idx tick0 (match d2 with Some (ms, _) => map (tick_of_msg (lm := test_libm) (as_ := true)) ms | None => [] end) 5)) (fl 5 5));
    (64, feq (volume (idx tick0 (match d2 with Some (ms, _) => map (tick_of_msg (lm := test_libm) (as_ := true)) ms | None => [] end) 5)) (fl 625 5));
    (60, feq (open (idx tick0 (match d2 with Some (ms, _) => map (tick_of_msg (lm := test_libm) (as_ := true)) ms | None => [] end) 6)) (fl 5 5));
    (61, feq (high (idx tick0 (match d2 with Some (ms, _) => map (tick_of_msg (lm := test_libm) (as_ := true)) ms | None => [] end) 6)) (fl 15 4));
    (62, feq (low (idx tick0 (match d2 with Some (ms, _) => map (tick_of_msg (lm := test_libm) (as_ := true)) ms | None => [] end) 6)) (fl 35 2));
    (63, feq (close (idx tick0 (match d2 with Some (ms, _) => map (tick_of_msg (lm := test_libm) (as_ := true)) ms | None => [] end) 6)) (fl 85 1));
    (64, feq (volume (idx tick0 (match d2 with Some (ms, _) => map (tick_of_msg (lm := test_libm) (as_ := true)) ms | None => [] end) 6)) (fl 2625 3));
    (60, feq (open (idx tick0 (match d2 with Some (ms, _) => map (tick_of_msg (lm := test_libm) (as_ := true)) ms | None => [] end) 7)) (fl 85 1));
    (61, feq (high (idx tick0 (match d2 with Some (ms, _) => map (tick_of_msg (lm := test_libm) (as_ := true)) ms | None => [] end) 7)) (fl 65 2));
    (62, feq (low (idx tick0 (match d2 with Some (ms, _) => map (tick_of_msg (lm := test_libm) (as_ := true)) ms | None => [] end) 7)) (fl 75 1));
    (63, feq (close (idx tick0 (match d2 with Some (ms, _) => map (tick_of_msg (lm := test_libm) (as_ := true)) ms | None => [] end) 7)) (fl 45 2));
    (64, feq (volume (idx tick0 (match d2 with Some (ms, _) => map (tick_of_msg (lm := test_libm) (as_ := true)) ms | None => [] end) 7)) (fl 1375 4));
    (60, feq (open (idx tick0 (match d2 with Some (ms, _) => map (tick_of_msg (lm := test_libm) (as_ := true)) ms | None => [] end) 8)) (fl 45 2));
    (61, feq (high (idx tick0 (match d2 with Some (ms, _) => map (tick_of_msg (lm := test_libm) (as_ := true)) ms | None => [] end) 8)) (fl 35 3));
    (62, feq (low (idx tick0 (match d2 with Some (ms, _) => map (tick_of_msg (lm := test_libm) (as_ := true)) ms | None => [] end) 8)) (fl 5 5));
    (63, feq (close (idx tick0 (match d2 with Some (ms, _) => map (tick_of_msg (lm := test_libm) (as_ := true)) ms | None => [] end) 8)) (fl 95 1));
    (64, feq (volume (idx tick0 (match d2 with Some (ms, _) => map (tick_of_msg (lm := test_libm) (as_ := true)) ms | None => [] end) 8)) (fl 2875 3));
    (60, feq (open (idx tick0 (match d2 with Some (ms, _) => map (tick_of_msg (lm := test_libm) (as_ := true)) ms | None => [] end) 9)) (fl 95 1));
    (61, feq (high (idx tick0 (match d2 with Some (ms, _) => map (tick_of_msg (lm := test_libm) (as_ := true)) ms | None => [] end) 9)) (fl 75 2));
    (62, feq (low (idx tick0 (match d2 with Some (ms, _) => map (tick_of_msg (lm := test_libm) (as_ := true)) ms | None => [] end) 9)) (fl 85 1));
    (63, feq (close (idx tick0 (match d2 with Some (ms, _) => map (tick_of_msg (lm := test_libm) (as_ := true)) ms | None => [] end) 9)) (fl 25 3));
    (64, feq (volume (idx tick0 (match d2 with Some (ms, _) => map (tick_of_msg (lm := test_libm) (as_ := true)) ms | None => [] end) 9)) (fl 375 6))]).
Check (@eq_refl (outcome (list Z)) (Done []) <: ReadWriteDelimitedTest_ReadWriteMultipleOhlcTicks = Done []).
