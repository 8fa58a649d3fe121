(** GENERATED from util/time_test.cc by tools/gen_tests.py: the repository's unit tests, run on the
    model (see TestKit.v).  Each [Check] fails to build if a test does not pass. *)

From Coq Require Import ZArith Bool List String.
From Verif.Model Require Import Outcome Machine Types Account History SideInput Indicators
  TimeUtil TimeText Eval Traders CsvLogger MachineIEEE Proto Files.
From Verif.Validation Require Import TestKit.
Import ListNotations.
Local Open Scope Z_scope.

(** util/time_test.cc:12-42 TEST(ParseTimeTest, Basic_Y_m_d_Format): 16 checks. *)
Definition ParseTimeTest_Basic_Y_m_d_Format : outcome (list Z) :=
  let t1 := ParseTime "Hello World!"%string in
  let t2 := ParseTime "1970-01-01"%string in
  let t3 := ParseTime "2000-02-29"%string in
  let t4 := ParseTime "2017-01-01"%string in
  let t5 := ParseTime "2017-01-01 +02:00"%string in
  let t6 := ParseTime "2017-00-01"%string in
  let t7 := ParseTime "2017-13-01"%string in
  let t8 := ParseTime "2017-01-00"%string in
  let t9 := ParseTime "2017-01-32"%string in
  Done (failures [(14, (match t1 with None => true | Some _ => false end));
    (19, (match t2 with Some _ => true | None => false end));
    (20, ((match t2 with Some t => t | None => 0 end) =? 0));
    (22, String.eqb (FormatTimeUTC (match t2 with Some t => t | None => 0 end)) "1970-01-01 00:00:00"%string);
    (25, (match t3 with Some _ => true | None => false end));
    (26, ((match t3 with Some t => t | None => 0 end) =? 951782400));
    (27, String.eqb (FormatTimeUTC (match t3 with Some t => t | None => 0 end)) "2000-02-29 00:00:00"%string);
    (30, (match t4 with Some _ => true | None => false end));
    (31, ((match t4 with Some t => t | None => 0 end) =? 1483228800));
    (32, String.eqb (FormatTimeUTC (match t4 with Some t => t | None => 0 end)) "2017-01-01 00:00:00"%string);
    (35, (match t5 with Some _ => true | None => false end));
    (36, ((match t5 with Some t => t | None => 0 end) =? 1483221600));
    (38, negb ((match t6 with Some _ => true | None => false end)));
    (39, negb ((match t7 with Some _ => true | None => false end)));
    (40, negb ((match t8 with Some _ => true | None => false end)));
    (41, negb ((match t9 with Some _ => true | None => false end)))]).
Check (@eq_refl (outcome (list Z)) (Done []) <: ParseTimeTest_Basic_Y_m_d_Format = Done []).

(** util/time_test.cc:44-69 TEST(ParseTimeTest, Extended_Y_m_d_H_M_S_Format): 14 checks. *)
Definition ParseTimeTest_Extended_Y_m_d_H_M_S_Format : outcome (list Z) :=
  let t1 := ParseTime "1970-01-01 00:00:00"%string in
  let t2 := ParseTime "2000-02-29 00:00:00"%string in
  let t3 := ParseTime "2017-01-01 00:05:00"%string in
  let t4 := ParseTime "2017-01-01 16:25:15 +02:00"%string in
  let t5 := ParseTime "2017-01-01 24:00:00"%string in
  let t6 := ParseTime "2017-01-01 00:60:00"%string in
  let t7 := ParseTime "2017-01-01 00:00:70"%string in
  Done (failures [(46, (match t1 with Some _ => true | None => false end));
    (47, ((match t1 with Some t => t | None => 0 end) =? 0));
    (51, (match t2 with Some _ => true | None => false end));
    (52, ((match t2 with Some t => t | None => 0 end) =? 951782400));
    (53, String.eqb (FormatTimeUTC (match t2 with Some t => t | None => 0 end)) "2000-02-29 00:00:00"%string);
    (56, (match t3 with Some _ => true | None => false end));
    (57, ((match t3 with Some t => t | None => 0 end) =? 1483229100));
    (58, String.eqb (FormatTimeUTC (match t3 with Some t => t | None => 0 end)) "2017-01-01 00:05:00"%string);
    (61, (match t4 with Some _ => true | None => false end));
    (62, ((match t4 with Some t => t | None => 0 end) =? 1483280715));
    (64, String.eqb (FormatTimeUTC (match t4 with Some t => t | None => 0 end)) "2017-01-01 14:25:15"%string);
    (66, negb ((match t5 with Some _ => true | None => false end)));
    (67, negb ((match t6 with Some _ => true | None => false end)));
    (68, negb ((match t7 with Some _ => true | None => false end)))]).
Check (@eq_refl (outcome (list Z)) (Done []) <: ParseTimeTest_Extended_Y_m_d_H_M_S_Format = Done []).

(** util/time_test.cc:71-78 TEST(ParseTimeTest, RFC3339_Format): 3 checks. *)
Definition ParseTimeTest_RFC3339_Format : outcome (list Z) :=
  let t1 := ParseTime "2017-01-01T16:25:15+02:00"%string in
  Done (failures [(74, (match t1 with Some _ => true | None => false end));
    (75, ((match t1 with Some t => t | None => 0 end) =? 1483280715));
    (77, String.eqb (FormatTimeUTC (match t1 with Some t => t | None => 0 end)) "2017-01-01 14:25:15"%string)]).
Check (@eq_refl (outcome (list Z)) (Done []) <: ParseTimeTest_RFC3339_Format = Done []).

(** util/time_test.cc:80-117 TEST(AddMonthsToTimeTest, Basic): 22 checks. *)
Definition AddMonthsToTimeTest_Basic : outcome (list Z) :=
  let t1 := ParseTime "2021-03-01"%string in
  let t2 := ParseTime "2017-01-01T16:25:15+02:00"%string in
  Done (failures [(82, (match t1 with Some _ => true | None => false end));
    (84, ((AddMonthsToTimestampSec (match t1 with Some t => t | None => 0 end) 0) =? 1614556800));
    (86, ((AddMonthsToTimestampSec 1614556800 0) =? 1614556800));
    (87, ((AddMonthsToTimestampSec (match t1 with Some t => t | None => 0 end) 1) =? 1617235200));
    (89, ((AddMonthsToTimestampSec 1614556800 1) =? 1617235200));
    (90, ((AddMonthsToTimestampSec (match t1 with Some t => t | None => 0 end) 15) =? 1654041600));
    (92, ((AddMonthsToTimestampSec 1614556800 15) =? 1654041600));
    (93, ((AddMonthsToTimestampSec (match t1 with Some t => t | None => 0 end) (-1)) =? 1612137600));
    (95, ((AddMonthsToTimestampSec 1614556800 (-1)) =? 1612137600));
    (96, ((AddMonthsToTimestampSec (match t1 with Some t => t | None => 0 end) (-3)) =? 1606780800));
    (98, ((AddMonthsToTimestampSec 1614556800 (-3)) =? 1606780800));
    (101, (match t2 with Some _ => true | None => false end));
    (102, ((AddMonthsToTimestampSec (match t2 with Some t => t | None => 0 end) 0) =? 1483280715));
    (104, ((AddMonthsToTimestampSec 1483280715 0) =? 1483280715));
    (105, ((AddMonthsToTimestampSec (match t2 with Some t => t | None => 0 end) 5) =? 1496327115));
    (107, ((AddMonthsToTimestampSec 1483280715 5) =? 1496327115));
    (108, ((AddMonthsToTimestampSec (match t2 with Some t => t | None => 0 end) 12) =? 1514816715));
    (110, ((AddMonthsToTimestampSec 1483280715 12) =? 1514816715));
    (111, ((AddMonthsToTimestampSec (match t2 with Some t => t | None => 0 end) (-1)) =? 1480602315));
    (113, ((AddMonthsToTimestampSec 1483280715 (-1)) =? 1480602315));
    (114, ((AddMonthsToTimestampSec (match t2 with Some t => t | None => 0 end) (-12)) =? 1451658315));
    (116, ((AddMonthsToTimestampSec 1483280715 (-12)) =? 1451658315))]).
Check (@eq_refl (outcome (list Z)) (Done []) <: AddMonthsToTimeTest_Basic = Done []).
