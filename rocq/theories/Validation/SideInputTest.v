(** GENERATED from base/side_input_test.cc by tools/gen_tests.py: the repository's unit tests, run on the
    model (see TestKit.v).  Each [Check] fails to build if a test does not pass. *)

From Coq Require Import ZArith Bool List String.
From Verif.Model Require Import Outcome Machine Types Account History SideInput Indicators
  TimeUtil TimeText Eval Traders CsvLogger MachineIEEE Proto Files.
From Verif.Validation Require Import TestKit.
Import ListNotations.
Local Open Scope Z_scope.

(** base/side_input_test.cc:39-65 TEST(SideInputTest, OneSignalSingleRecord): 14 checks. *)
Definition SideInputTest_OneSignalSingleRecord : outcome (list Z) :=
  do si1 <- NewSideInput [(SideRecord 1483228800 [(fl 5 1)])] ;
  do x2 <- GetSideInputTimestamp si1 0 ;
  do x3 <- GetSideInputSignal si1 0 0 ;
  do x4 <- GetSideInputSignals si1 0 [] ;
  do x5 <- GetSideInputIndexHint si1 1483200000 (-1) ;
  do x6 <- GetSideInputIndexHint si1 1483228800 (-1) ;
  do x7 <- GetSideInputIndexHint si1 1483228800 0 ;
  do x8 <- GetSideInputIndexHint si1 1483257600 (-1) ;
  do x9 <- GetSideInputIndexHint si1 1483257600 0 ;
  Done (failures [(44, ((GetNumberOfRecords si1) =? 1));
    (45, ((GetNumberOfSignals si1) =? 1));
    (47, (x2 =? 1483228800));
    (48, feq x3 (fl 5 1));
    (52, ((size x4) =? 1));
    (53, feq (idx (fl 0 0) x4 0) (fl 5 1));
    (56, ((GetSideInputIndex si1 1483200000) =? (-1)));
    (57, (x5 =? (-1)));
    (59, ((GetSideInputIndex si1 1483228800) =? 0));
    (60, (x6 =? 0));
    (61, (x7 =? 0));
    (62, ((GetSideInputIndex si1 1483257600) =? 0));
    (63, (x8 =? 0));
    (64, (x9 =? 0))]).
Check (@eq_refl (outcome (list Z)) (Done []) <: SideInputTest_OneSignalSingleRecord = Done []).

(** base/side_input_test.cc:67-97 TEST(SideInputTest, MultipleSignalsSingleRecord): 18 checks. *)
Definition SideInputTest_MultipleSignalsSingleRecord : outcome (list Z) :=
  do si1 <- NewSideInput [(SideRecord 1483228800 [(fl 5 1); (fl 5 2); (fl 5 0)])] ;
  do x2 <- GetSideInputTimestamp si1 0 ;
  do x3 <- GetSideInputSignal si1 0 0 ;
  do x4 <- GetSideInputSignal si1 0 1 ;
  do x5 <- GetSideInputSignal si1 0 2 ;
  do x6 <- GetSideInputSignals si1 0 [] ;
  do x7 <- GetSideInputIndexHint si1 1483200000 (-1) ;
  do x8 <- GetSideInputIndexHint si1 1483228800 (-1) ;
  do x9 <- GetSideInputIndexHint si1 1483228800 0 ;
  do x10 <- GetSideInputIndexHint si1 1483257600 (-1) ;
  do x11 <- GetSideInputIndexHint si1 1483257600 0 ;
  Done (failures [(72, ((GetNumberOfRecords si1) =? 1));
    (73, ((GetNumberOfSignals si1) =? 3));
    (75, (x2 =? 1483228800));
    (76, feq x3 (fl 5 1));
    (77, feq x4 (fl 5 2));
    (78, feq x5 (fl 5 0));
    (82, ((size x6) =? 3));
    (83, feq (idx (fl 0 0) x6 0) (fl 5 1));
    (84, feq (idx (fl 0 0) x6 1) (fl 5 2));
    (85, feq (idx (fl 0 0) x6 2) (fl 5 0));
    (88, ((GetSideInputIndex si1 1483200000) =? (-1)));
    (89, (x7 =? (-1)));
    (91, ((GetSideInputIndex si1 1483228800) =? 0));
    (92, (x8 =? 0));
    (93, (x9 =? 0));
    (94, ((GetSideInputIndex si1 1483257600) =? 0));
    (95, (x10 =? 0));
    (96, (x11 =? 0))]).
Check (@eq_refl (outcome (list Z)) (Done []) <: SideInputTest_MultipleSignalsSingleRecord = Done []).

(** base/side_input_test.cc:99-198 TEST(SideInputTest, OneSignalMultipleRecords): 194 checks. *)
Definition SideInputTest_OneSignalMultipleRecords : outcome (list Z) :=
  do si1 <- NewSideInput [(SideRecord 1483228800 [(fl 5 1)]); (SideRecord 1483257600 [(fl 5 2)]); (SideRecord 1483286400 [(fl 15 0)]); (SideRecord 1483315200 [(fl 5 0)]); (SideRecord 1483344000 [(fl 15 1)]); (SideRecord 1483372800 [(fl 25 0)]); (SideRecord 1483401600 [(fl 5 1)]); (SideRecord 1483430400 [(fl 15 0)]); (SideRecord 1483459200 [(fl 5 2)]); (SideRecord 1483488000 [(fl 5 0)])] ;
  do x2 <- GetSideInputTimestamp si1 0 ;
  do x3 <- GetSideInputTimestamp si1 1 ;
  do x4 <- GetSideInputTimestamp si1 2 ;
  do x5 <- GetSideInputTimestamp si1 3 ;
  do x6 <- GetSideInputTimestamp si1 4 ;
  do x7 <- GetSideInputTimestamp si1 5 ;
  do x8 <- GetSideInputTimestamp si1 6 ;
  do x9 <- GetSideInputTimestamp si1 7 ;
  do x10 <- GetSideInputTimestamp si1 8 ;
  do x11 <- GetSideInputTimestamp si1 9 ;
  do x12 <- GetSideInputSignal si1 0 0 ;
  do x13 <- GetSideInputSignal si1 1 0 ;
  do x14 <- GetSideInputSignal si1 2 0 ;
  do x15 <- GetSideInputSignal si1 3 0 ;
  do x16 <- GetSideInputSignal si1 4 0 ;
  do x17 <- GetSideInputSignal si1 5 0 ;
  do x18 <- GetSideInputSignal si1 6 0 ;
  do x19 <- GetSideInputSignal si1 7 0 ;
  do x20 <- GetSideInputSignal si1 8 0 ;
  do x21 <- GetSideInputSignal si1 9 0 ;
  do x22 <- GetSideInputSignals si1 0 [] ;
  do x23 <- GetSideInputSignal si1 0 0 ;
  do x24 <- GetSideInputSignals si1 1 [] ;
  do x25 <- GetSideInputSignal si1 1 0 ;
  do x26 <- GetSideInputSignals si1 2 [] ;
  do x27 <- GetSideInputSignal si1 2 0 ;
  do x28 <- GetSideInputSignals si1 3 [] ;
  do x29 <- GetSideInputSignal si1 3 0 ;
  do x30 <- GetSideInputSignals si1 4 [] ;
  do x31 <- GetSideInputSignal si1 4 0 ;
  do x32 <- GetSideInputSignals si1 5 [] ;
  do x33 <- GetSideInputSignal si1 5 0 ;
  do x34 <- GetSideInputSignals si1 6 [] ;
  do x35 <- GetSideInputSignal si1 6 0 ;
  do x36 <- GetSideInputSignals si1 7 [] ;
  do x37 <- GetSideInputSignal si1 7 0 ;
  do x38 <- GetSideInputSignals si1 8 [] ;
  do x39 <- GetSideInputSignal si1 8 0 ;
  do x40 <- GetSideInputSignals si1 9 [] ;
  do x41 <- GetSideInputSignal si1 9 0 ;
  do x42 <- GetSideInputIndexHint si1 1483200000 (-1) ;
  do x43 <- GetSideInputIndexHint si1 1483228800 (-1) ;
  do x44 <- GetSideInputIndexHint si1 1483228800 0 ;
  do x45 <- GetSideInputIndexHint si1 1483243200 (-1) ;
  do x46 <- GetSideInputIndexHint si1 1483243200 0 ;
  do x47 <- GetSideInputIndexHint si1 1483257600 (-1) ;
  do x48 <- GetSideInputIndexHint si1 1483257600 0 ;
  do x49 <- GetSideInputIndexHint si1 1483257600 1 ;
  do x50 <- GetSideInputIndexHint si1 1483272000 (-1) ;
  do x51 <- GetSideInputIndexHint si1 1483272000 0 ;
  do x52 <- GetSideInputIndexHint si1 1483272000 1 ;
  do x53 <- GetSideInputIndexHint si1 1483286400 (-1) ;
  do x54 <- GetSideInputIndexHint si1 1483286400 0 ;
  do x55 <- GetSideInputIndexHint si1 1483286400 1 ;
  do x56 <- GetSideInputIndexHint si1 1483286400 2 ;
  do x57 <- GetSideInputIndexHint si1 1483300800 (-1) ;
  do x58 <- GetSideInputIndexHint si1 1483300800 0 ;
  do x59 <- GetSideInputIndexHint si1 1483300800 1 ;
  do x60 <- GetSideInputIndexHint si1 1483300800 2 ;
  do x61 <- GetSideInputIndexHint si1 1483315200 (-1) ;
  do x62 <- GetSideInputIndexHint si1 1483329600 (-1) ;
  do x63 <- GetSideInputIndexHint si1 1483315200 0 ;
  do x64 <- GetSideInputIndexHint si1 1483329600 0 ;
  do x65 <- GetSideInputIndexHint si1 1483315200 1 ;
  do x66 <- GetSideInputIndexHint si1 1483329600 1 ;
  do x67 <- GetSideInputIndexHint si1 1483315200 2 ;
  do x68 <- GetSideInputIndexHint si1 1483329600 2 ;
  do x69 <- GetSideInputIndexHint si1 1483315200 3 ;
  do x70 <- GetSideInputIndexHint si1 1483329600 3 ;
  do x71 <- GetSideInputIndexHint si1 1483344000 (-1) ;
  do x72 <- GetSideInputIndexHint si1 1483358400 (-1) ;
  do x73 <- GetSideInputIndexHint si1 1483344000 0 ;
  do x74 <- GetSideInputIndexHint si1 1483358400 0 ;
  do x75 <- GetSideInputIndexHint si1 1483344000 1 ;
  do x76 <- GetSideInputIndexHint si1 1483358400 1 ;
  do x77 <- GetSideInputIndexHint si1 1483344000 2 ;
  do x78 <- GetSideInputIndexHint si1 1483358400 2 ;
  do x79 <- GetSideInputIndexHint si1 1483344000 3 ;
  do x80 <- GetSideInputIndexHint si1 1483358400 3 ;
  do x81 <- GetSideInputIndexHint si1 1483344000 4 ;
  do x82 <- GetSideInputIndexHint si1 1483358400 4 ;
  do x83 <- GetSideInputIndexHint si1 1483372800 (-1) ;
  do x84 <- GetSideInputIndexHint si1 1483387200 (-1) ;
  do x85 <- GetSideInputIndexHint si1 1483372800 0 ;
  do x86 <- GetSideInputIndexHint si1 1483387200 0 ;
  do x87 <- GetSideInputIndexHint si1 1483372800 1 ;
  do x88 <- GetSideInputIndexHint si1 1483387200 1 ;
  do x89 <- GetSideInputIndexHint si1 1483372800 2 ;
  do x90 <- GetSideInputIndexHint si1 1483387200 2 ;
  do x91 <- GetSideInputIndexHint si1 1483372800 3 ;
  do x92 <- GetSideInputIndexHint si1 1483387200 3 ;
  do x93 <- GetSideInputIndexHint si1 1483372800 4 ;
  do x94 <- GetSideInputIndexHint si1 1483387200 4 ;
  do x95 <- GetSideInputIndexHint si1 1483372800 5 ;
  do x96 <- GetSideInputIndexHint si1 1483387200 5 ;
  do x97 <- GetSideInputIndexHint si1 1483401600 (-1) ;
  do x98 <- GetSideInputIndexHint si1 1483416000 (-1) ;
  do x99 <- GetSideInputIndexHint si1 1483401600 0 ;
  do x100 <- GetSideInputIndexHint si1 1483416000 0 ;
  do x101 <- GetSideInputIndexHint si1 1483401600 1 ;
  do x102 <- GetSideInputIndexHint si1 1483416000 1 ;
  do x103 <- GetSideInputIndexHint si1 1483401600 2 ;
  do x104 <- GetSideInputIndexHint si1 1483416000 2 ;
  do x105 <- GetSideInputIndexHint si1 1483401600 3 ;
  do x106 <- GetSideInputIndexHint si1 1483416000 3 ;
  do x107 <- GetSideInputIndexHint si1 1483401600 4 ;
  do x108 <- GetSideInputIndexHint si1 1483416000 4 ;
  do x109 <- GetSideInputIndexHint si1 1483401600 5 ;
  do x110 <- GetSideInputIndexHint si1 1483416000 5 ;
  do x111 <- GetSideInputIndexHint si1 1483401600 6 ;
  do x112 <- GetSideInputIndexHint si1 1483416000 6 ;
  do x113 <- GetSideInputIndexHint si1 1483430400 (-1) ;
  do x114 <- GetSideInputIndexHint si1 1483444800 (-1) ;
  do x115 <- GetSideInputIndexHint si1 1483430400 0 ;
  do x116 <- GetSideInputIndexHint si1 1483444800 0 ;
  do x117 <- GetSideInputIndexHint si1 1483430400 1 ;
  do x118 <- GetSideInputIndexHint si1 1483444800 1 ;
  do x119 <- GetSideInputIndexHint si1 1483430400 2 ;
  do x120 <- GetSideInputIndexHint si1 1483444800 2 ;
  do x121 <- GetSideInputIndexHint si1 1483430400 3 ;
  do x122 <- GetSideInputIndexHint si1 1483444800 3 ;
  do x123 <- GetSideInputIndexHint si1 1483430400 4 ;
  do x124 <- GetSideInputIndexHint si1 1483444800 4 ;
  do x125 <- GetSideInputIndexHint si1 1483430400 5 ;
  do x126 <- GetSideInputIndexHint si1 1483444800 5 ;
  do x127 <- GetSideInputIndexHint si1 1483430400 6 ;
  do x128 <- GetSideInputIndexHint si1 1483444800 6 ;
  do x129 <- GetSideInputIndexHint si1 1483430400 7 ;
  do x130 <- GetSideInputIndexHint si1 1483444800 7 ;
  do x131 <- GetSideInputIndexHint si1 1483459200 (-1) ;
  do x132 <- GetSideInputIndexHint si1 1483473600 (-1) ;
  do x133 <- GetSideInputIndexHint si1 1483459200 0 ;
  do x134 <- GetSideInputIndexHint si1 1483473600 0 ;
  do x135 <- GetSideInputIndexHint si1 1483459200 1 ;
  do x136 <- GetSideInputIndexHint si1 1483473600 1 ;
  do x137 <- GetSideInputIndexHint si1 1483459200 2 ;
  do x138 <- GetSideInputIndexHint si1 1483473600 2 ;
  do x139 <- GetSideInputIndexHint si1 1483459200 3 ;
  do x140 <- GetSideInputIndexHint si1 1483473600 3 ;
  do x141 <- GetSideInputIndexHint si1 1483459200 4 ;
  do x142 <- GetSideInputIndexHint si1 1483473600 4 ;
  do x143 <- GetSideInputIndexHint si1 1483459200 5 ;
  do x144 <- GetSideInputIndexHint si1 1483473600 5 ;
  do x145 <- GetSideInputIndexHint si1 1483459200 6 ;
  do x146 <- GetSideInputIndexHint si1 1483473600 6 ;
  do x147 <- GetSideInputIndexHint si1 1483459200 7 ;
  do x148 <- GetSideInputIndexHint si1 1483473600 7 ;
  do x149 <- GetSideInputIndexHint si1 1483459200 8 ;
  do x150 <- GetSideInputIndexHint si1 1483473600 8 ;
  do x151 <- GetSideInputIndexHint si1 1483488000 (-1) ;
  do x152 <- GetSideInputIndexHint si1 1483502400 (-1) ;
  do x153 <- GetSideInputIndexHint si1 1483488000 0 ;
  do x154 <- GetSideInputIndexHint si1 1483502400 0 ;
  do x155 <- GetSideInputIndexHint si1 1483488000 1 ;
  do x156 <- GetSideInputIndexHint si1 1483502400 1 ;
  do x157 <- GetSideInputIndexHint si1 1483488000 2 ;
  do x158 <- GetSideInputIndexHint si1 1483502400 2 ;
  do x159 <- GetSideInputIndexHint si1 1483488000 3 ;
  do x160 <- GetSideInputIndexHint si1 1483502400 3 ;
  do x161 <- GetSideInputIndexHint si1 1483488000 4 ;
  do x162 <- GetSideInputIndexHint si1 1483502400 4 ;
  do x163 <- GetSideInputIndexHint si1 1483488000 5 ;
  do x164 <- GetSideInputIndexHint si1 1483502400 5 ;
  do x165 <- GetSideInputIndexHint si1 1483488000 6 ;
  do x166 <- GetSideInputIndexHint si1 1483502400 6 ;
  do x167 <- GetSideInputIndexHint si1 1483488000 7 ;
  do x168 <- GetSideInputIndexHint si1 1483502400 7 ;
  do x169 <- GetSideInputIndexHint si1 1483488000 8 ;
  do x170 <- GetSideInputIndexHint si1 1483502400 8 ;
  do x171 <- GetSideInputIndexHint si1 1483488000 9 ;
  do x172 <- GetSideInputIndexHint si1 1483502400 9 ;
  Done (failures [(113, ((GetNumberOfRecords si1) =? 10));
    (114, ((GetNumberOfSignals si1) =? 1));
    (116, (x2 =? 1483228800));
    (117, (x3 =? 1483257600));
    (118, (x4 =? 1483286400));
    (119, (x5 =? 1483315200));
    (120, (x6 =? 1483344000));
    (121, (x7 =? 1483372800));
    (122, (x8 =? 1483401600));
    (123, (x9 =? 1483430400));
    (124, (x10 =? 1483459200));
    (125, (x11 =? 1483488000));
    (127, feq x12 (fl 5 1));
    (128, feq x13 (fl 5 2));
    (129, feq x14 (fl 15 0));
    (130, feq x15 (fl 5 0));
    (131, feq x16 (fl 15 1));
    (132, feq x17 (fl 25 0));
    (133, feq x18 (fl 5 1));
    (134, feq x19 (fl 15 0));
    (135, feq x20 (fl 5 2));
    (136, feq x21 (fl 5 0));
    (141, ((size x22) =? 1));
    (142, feq (idx (fl 0 0) x22 0) x23);
    (141, ((size x24) =? 1));
    (142, feq (idx (fl 0 0) x24 0) x25);
    (141, ((size x26) =? 1));
    (142, feq (idx (fl 0 0) x26 0) x27);
    (141, ((size x28) =? 1));
    (142, feq (idx (fl 0 0) x28 0) x29);
    (141, ((size x30) =? 1));
    (142, feq (idx (fl 0 0) x30 0) x31);
    (141, ((size x32) =? 1));
    (142, feq (idx (fl 0 0) x32 0) x33);
    (141, ((size x34) =? 1));
    (142, feq (idx (fl 0 0) x34 0) x35);
    (141, ((size x36) =? 1));
    (142, feq (idx (fl 0 0) x36 0) x37);
    (141, ((size x38) =? 1));
    (142, feq (idx (fl 0 0) x38 0) x39);
    (141, ((size x40) =? 1));
    (142, feq (idx (fl 0 0) x40 0) x41);
    (148, ((GetSideInputIndex si1 1483200000) =? (-1)));
    (149, (x42 =? (-1)));
    (151, ((GetSideInputIndex si1 1483228800) =? 0));
    (152, (x43 =? 0));
    (153, (x44 =? 0));
    (154, ((GetSideInputIndex si1 1483243200) =? 0));
    (155, (x45 =? 0));
    (156, (x46 =? 0));
    (158, ((GetSideInputIndex si1 1483257600) =? 1));
    (159, (x47 =? 1));
    (160, (x48 =? 1));
    (161, (x49 =? 1));
    (162, ((GetSideInputIndex si1 1483272000) =? 1));
    (163, (x50 =? 1));
    (164, (x51 =? 1));
    (165, (x52 =? 1));
    (167, ((GetSideInputIndex si1 1483286400) =? 2));
    (168, (x53 =? 2));
    (169, (x54 =? 2));
    (170, (x55 =? 2));
    (171, (x56 =? 2));
    (172, ((GetSideInputIndex si1 1483300800) =? 2));
    (173, (x57 =? 2));
    (174, (x58 =? 2));
    (175, (x59 =? 2));
    (176, (x60 =? 2));
    (178, ((GetSideInputIndex si1 1483315200) =? 3));
    (181, ((GetSideInputIndex si1 1483329600) =? 3));
    (187, (x61 =? 3));
    (191, (x62 =? 3));
    (187, (x63 =? 3));
    (191, (x64 =? 3));
    (187, (x65 =? 3));
    (191, (x66 =? 3));
    (187, (x67 =? 3));
    (191, (x68 =? 3));
    (187, (x69 =? 3));
    (191, (x70 =? 3));
    (178, ((GetSideInputIndex si1 1483344000) =? 4));
    (181, ((GetSideInputIndex si1 1483358400) =? 4));
    (187, (x71 =? 4));
    (191, (x72 =? 4));
    (187, (x73 =? 4));
    (191, (x74 =? 4));
    (187, (x75 =? 4));
    (191, (x76 =? 4));
    (187, (x77 =? 4));
    (191, (x78 =? 4));
    (187, (x79 =? 4));
    (191, (x80 =? 4));
    (187, (x81 =? 4));
    (191, (x82 =? 4));
    (178, ((GetSideInputIndex si1 1483372800) =? 5));
    (181, ((GetSideInputIndex si1 1483387200) =? 5));
    (187, (x83 =? 5));
    (191, (x84 =? 5));
    (187, (x85 =? 5));
    (191, (x86 =? 5));
    (187, (x87 =? 5));
    (191, (x88 =? 5));
    (187, (x89 =? 5));
    (191, (x90 =? 5));
    (187, (x91 =? 5));
    (191, (x92 =? 5));
    (187, (x93 =? 5));
    (191, (x94 =? 5));
    (187, (x95 =? 5));
    (191, (x96 =? 5));
    (178, ((GetSideInputIndex si1 1483401600) =? 6));
    (181, ((GetSideInputIndex si1 1483416000) =? 6));
    (187, (x97 =? 6));
    (191, (x98 =? 6));
    (187, (x99 =? 6));
    (191, (x100 =? 6));
    (187, (x101 =? 6));
    (191, (x102 =? 6));
    (187, (x103 =? 6));
    (191, (x104 =? 6));
    (187, (x105 =? 6));
    (191, (x106 =? 6));
    (187, (x107 =? 6));
    (191, (x108 =? 6));
    (187, (x109 =? 6));
    (191, (x110 =? 6));
    (187, (x111 =? 6));
    (191, (x112 =? 6));
    (178, ((GetSideInputIndex si1 1483430400) =? 7));
    (181, ((GetSideInputIndex si1 1483444800) =? 7));
    (187, (x113 =? 7));
    (191, (x114 =? 7));
    (187, (x115 =? 7));
    (191, (x116 =? 7));
    (187, (x117 =? 7));
    (191, (x118 =? 7));
    (187, (x119 =? 7));
    (191, (x120 =? 7));
    (187, (x121 =? 7));
    (191, (x122 =? 7));
    (187, (x123 =? 7));
    (191, (x124 =? 7));
    (187, (x125 =? 7));
    (191, (x126 =? 7));
    (187, (x127 =? 7));
    (191, (x128 =? 7));
    (187, (x129 =? 7));
    (191, (x130 =? 7));
    (178, ((GetSideInputIndex si1 1483459200) =? 8));
    (181, ((GetSideInputIndex si1 1483473600) =? 8));
    (187, (x131 =? 8));
    (191, (x132 =? 8));
    (187, (x133 =? 8));
    (191, (x134 =? 8));
    (187, (x135 =? 8));
    (191, (x136 =? 8));
    (187, (x137 =? 8));
    (191, (x138 =? 8));
    (187, (x139 =? 8));
    (191, (x140 =? 8));
    (187, (x141 =? 8));
    (191, (x142 =? 8));
    (187, (x143 =? 8));
    (191, (x144 =? 8));
    (187, (x145 =? 8));
    (191, (x146 =? 8));
    (187, (x147 =? 8));
    (191, (x148 =? 8));
    (187, (x149 =? 8));
    (191, (x150 =? 8));
    (178, ((GetSideInputIndex si1 1483488000) =? 9));
    (181, ((GetSideInputIndex si1 1483502400) =? 9));
    (187, (x151 =? 9));
    (191, (x152 =? 9));
    (187, (x153 =? 9));
    (191, (x154 =? 9));
    (187, (x155 =? 9));
    (191, (x156 =? 9));
    (187, (x157 =? 9));
    (191, (x158 =? 9));
    (187, (x159 =? 9));
    (191, (x160 =? 9));
    (187, (x161 =? 9));
    (191, (x162 =? 9));
    (187, (x163 =? 9));
    (191, (x164 =? 9));
    (187, (x165 =? 9));
    (191, (x166 =? 9));
    (187, (x167 =? 9));
    (191, (x168 =? 9));
    (187, (x169 =? 9));
    (191, (x170 =? 9));
    (187, (x171 =? 9));
    (191, (x172 =? 9))]).
Check (@eq_refl (outcome (list Z)) (Done []) <: SideInputTest_OneSignalMultipleRecords = Done []).

(** base/side_input_test.cc:200-297 TEST(SideInputTest, MultipleSignalsMultipleRecords): 246 checks. *)
Definition SideInputTest_MultipleSignalsMultipleRecords : outcome (list Z) :=
  do si1 <- NewSideInput [(SideRecord 1483228800 [(fl 5 1); (fl 5 0); (fl 15 0)]); (SideRecord 1483257600 [(fl 5 2); (fl 5 1); (fl 15 1)]); (SideRecord 1483286400 [(fl 15 0); (fl 5 2); (fl 5 0)]); (SideRecord 1483315200 [(fl 5 0); (fl 5 1); (fl 5 0)]); (SideRecord 1483344000 [(fl 15 1); (fl 5 2); (fl 15 0)]); (SideRecord 1483372800 [(fl 25 0); (fl 5 2); (fl 5 1)]); (SideRecord 1483401600 [(fl 5 1); (fl 5 1); (fl 15 0)]); (SideRecord 1483430400 [(fl 15 0); (fl 5 0); (fl 15 1)]); (SideRecord 1483459200 [(fl 5 2); (fl 15 0); (fl 5 2)]); (SideRecord 1483488000 [(fl 5 0); (fl 25 0); (fl 5 1)])] ;
  do x2 <- GetSideInputTimestamp si1 0 ;
  do x3 <- GetSideInputTimestamp si1 1 ;
  do x4 <- GetSideInputTimestamp si1 2 ;
  do x5 <- GetSideInputTimestamp si1 3 ;
  do x6 <- GetSideInputTimestamp si1 4 ;
  do x7 <- GetSideInputTimestamp si1 5 ;
  do x8 <- GetSideInputTimestamp si1 6 ;
  do x9 <- GetSideInputTimestamp si1 7 ;
  do x10 <- GetSideInputTimestamp si1 8 ;
  do x11 <- GetSideInputTimestamp si1 9 ;
  do x12 <- GetSideInputSignal si1 0 0 ;
  do x13 <- GetSideInputSignal si1 1 0 ;
  do x14 <- GetSideInputSignal si1 2 0 ;
  do x15 <- GetSideInputSignal si1 3 0 ;
  do x16 <- GetSideInputSignal si1 4 0 ;
  do x17 <- GetSideInputSignal si1 5 0 ;
  do x18 <- GetSideInputSignal si1 6 0 ;
  do x19 <- GetSideInputSignal si1 7 0 ;
  do x20 <- GetSideInputSignal si1 8 0 ;
  do x21 <- GetSideInputSignal si1 9 0 ;
  do x22 <- GetSideInputSignal si1 0 1 ;
  do x23 <- GetSideInputSignal si1 1 1 ;
  do x24 <- GetSideInputSignal si1 2 1 ;
  do x25 <- GetSideInputSignal si1 3 1 ;
  do x26 <- GetSideInputSignal si1 4 1 ;
  do x27 <- GetSideInputSignal si1 5 1 ;
  do x28 <- GetSideInputSignal si1 6 1 ;
  do x29 <- GetSideInputSignal si1 7 1 ;
  do x30 <- GetSideInputSignal si1 8 1 ;
  do x31 <- GetSideInputSignal si1 9 1 ;
  do x32 <- GetSideInputSignal si1 0 2 ;
  do x33 <- GetSideInputSignal si1 1 2 ;
  do x34 <- GetSideInputSignal si1 2 2 ;
  do x35 <- GetSideInputSignal si1 3 2 ;
  do x36 <- GetSideInputSignal si1 4 2 ;
  do x37 <- GetSideInputSignal si1 5 2 ;
  do x38 <- GetSideInputSignal si1 6 2 ;
  do x39 <- GetSideInputSignal si1 7 2 ;
  do x40 <- GetSideInputSignal si1 8 2 ;
  do x41 <- GetSideInputSignal si1 9 2 ;
  do x42 <- GetSideInputSignals si1 0 [] ;
  do x43 <- GetSideInputSignal si1 0 0 ;
  do x44 <- GetSideInputSignal si1 0 1 ;
  do x45 <- GetSideInputSignal si1 0 2 ;
  do x46 <- GetSideInputSignals si1 1 [] ;
  do x47 <- GetSideInputSignal si1 1 0 ;
  do x48 <- GetSideInputSignal si1 1 1 ;
  do x49 <- GetSideInputSignal si1 1 2 ;
  do x50 <- GetSideInputSignals si1 2 [] ;
  do x51 <- GetSideInputSignal si1 2 0 ;
  do x52 <- GetSideInputSignal si1 2 1 ;
  do x53 <- GetSideInputSignal si1 2 2 ;
  do x54 <- GetSideInputSignals si1 3 [] ;
  do x55 <- GetSideInputSignal si1 3 0 ;
  do x56 <- GetSideInputSignal si1 3 1 ;
  do x57 <- GetSideInputSignal si1 3 2 ;
  do x58 <- GetSideInputSignals si1 4 [] ;
  do x59 <- GetSideInputSignal si1 4 0 ;
  do x60 <- GetSideInputSignal si1 4 1 ;
  do x61 <- GetSideInputSignal si1 4 2 ;
  do x62 <- GetSideInputSignals si1 5 [] ;
  do x63 <- GetSideInputSignal si1 5 0 ;
  do x64 <- GetSideInputSignal si1 5 1 ;
  do x65 <- GetSideInputSignal si1 5 2 ;
  do x66 <- GetSideInputSignals si1 6 [] ;
  do x67 <- GetSideInputSignal si1 6 0 ;
  do x68 <- GetSideInputSignal si1 6 1 ;
  do x69 <- GetSideInputSignal si1 6 2 ;
  do x70 <- GetSideInputSignals si1 7 [] ;
  do x71 <- GetSideInputSignal si1 7 0 ;
  do x72 <- GetSideInputSignal si1 7 1 ;
  do x73 <- GetSideInputSignal si1 7 2 ;
  do x74 <- GetSideInputSignals si1 8 [] ;
  do x75 <- GetSideInputSignal si1 8 0 ;
  do x76 <- GetSideInputSignal si1 8 1 ;
  do x77 <- GetSideInputSignal si1 8 2 ;
  do x78 <- GetSideInputSignals si1 9 [] ;
  do x79 <- GetSideInputSignal si1 9 0 ;
  do x80 <- GetSideInputSignal si1 9 1 ;
  do x81 <- GetSideInputSignal si1 9 2 ;
  do x82 <- GetSideInputIndexHint si1 1483200000 (-1) ;
  do x83 <- GetSideInputIndexHint si1 1483214400 (-1) ;
  do x84 <- GetSideInputIndexHint si1 1483228800 (-1) ;
  do x85 <- GetSideInputIndexHint si1 1483243200 (-1) ;
  do x86 <- GetSideInputIndexHint si1 1483228800 0 ;
  do x87 <- GetSideInputIndexHint si1 1483243200 0 ;
  do x88 <- GetSideInputIndexHint si1 1483257600 (-1) ;
  do x89 <- GetSideInputIndexHint si1 1483272000 (-1) ;
  do x90 <- GetSideInputIndexHint si1 1483257600 0 ;
  do x91 <- GetSideInputIndexHint si1 1483272000 0 ;
  do x92 <- GetSideInputIndexHint si1 1483257600 1 ;
  do x93 <- GetSideInputIndexHint si1 1483272000 1 ;
  do x94 <- GetSideInputIndexHint si1 1483286400 (-1) ;
  do x95 <- GetSideInputIndexHint si1 1483300800 (-1) ;
  do x96 <- GetSideInputIndexHint si1 1483286400 0 ;
  do x97 <- GetSideInputIndexHint si1 1483300800 0 ;
  do x98 <- GetSideInputIndexHint si1 1483286400 1 ;
  do x99 <- GetSideInputIndexHint si1 1483300800 1 ;
  do x100 <- GetSideInputIndexHint si1 1483286400 2 ;
  do x101 <- GetSideInputIndexHint si1 1483300800 2 ;
  do x102 <- GetSideInputIndexHint si1 1483315200 (-1) ;
  do x103 <- GetSideInputIndexHint si1 1483329600 (-1) ;
  do x104 <- GetSideInputIndexHint si1 1483315200 0 ;
  do x105 <- GetSideInputIndexHint si1 1483329600 0 ;
  do x106 <- GetSideInputIndexHint si1 1483315200 1 ;
  do x107 <- GetSideInputIndexHint si1 1483329600 1 ;
  do x108 <- GetSideInputIndexHint si1 1483315200 2 ;
  do x109 <- GetSideInputIndexHint si1 1483329600 2 ;
  do x110 <- GetSideInputIndexHint si1 1483315200 3 ;
  do x111 <- GetSideInputIndexHint si1 1483329600 3 ;
  do x112 <- GetSideInputIndexHint si1 1483344000 (-1) ;
  do x113 <- GetSideInputIndexHint si1 1483358400 (-1) ;
  do x114 <- GetSideInputIndexHint si1 1483344000 0 ;
  do x115 <- GetSideInputIndexHint si1 1483358400 0 ;
  do x116 <- GetSideInputIndexHint si1 1483344000 1 ;
  do x117 <- GetSideInputIndexHint si1 1483358400 1 ;
  do x118 <- GetSideInputIndexHint si1 1483344000 2 ;
  do x119 <- GetSideInputIndexHint si1 1483358400 2 ;
  do x120 <- GetSideInputIndexHint si1 1483344000 3 ;
  do x121 <- GetSideInputIndexHint si1 1483358400 3 ;
  do x122 <- GetSideInputIndexHint si1 1483344000 4 ;
  do x123 <- GetSideInputIndexHint si1 1483358400 4 ;
  do x124 <- GetSideInputIndexHint si1 1483372800 (-1) ;
  do x125 <- GetSideInputIndexHint si1 1483387200 (-1) ;
  do x126 <- GetSideInputIndexHint si1 1483372800 0 ;
  do x127 <- GetSideInputIndexHint si1 1483387200 0 ;
  do x128 <- GetSideInputIndexHint si1 1483372800 1 ;
  do x129 <- GetSideInputIndexHint si1 1483387200 1 ;
  do x130 <- GetSideInputIndexHint si1 1483372800 2 ;
  do x131 <- GetSideInputIndexHint si1 1483387200 2 ;
  do x132 <- GetSideInputIndexHint si1 1483372800 3 ;
  do x133 <- GetSideInputIndexHint si1 1483387200 3 ;
  do x134 <- GetSideInputIndexHint si1 1483372800 4 ;
  do x135 <- GetSideInputIndexHint si1 1483387200 4 ;
  do x136 <- GetSideInputIndexHint si1 1483372800 5 ;
  do x137 <- GetSideInputIndexHint si1 1483387200 5 ;
  do x138 <- GetSideInputIndexHint si1 1483401600 (-1) ;
  do x139 <- GetSideInputIndexHint si1 1483416000 (-1) ;
  do x140 <- GetSideInputIndexHint si1 1483401600 0 ;
  do x141 <- GetSideInputIndexHint si1 1483416000 0 ;
  do x142 <- GetSideInputIndexHint si1 1483401600 1 ;
  do x143 <- GetSideInputIndexHint si1 1483416000 1 ;
  do x144 <- GetSideInputIndexHint si1 1483401600 2 ;
  do x145 <- GetSideInputIndexHint si1 1483416000 2 ;
  do x146 <- GetSideInputIndexHint si1 1483401600 3 ;
  do x147 <- GetSideInputIndexHint si1 1483416000 3 ;
  do x148 <- GetSideInputIndexHint si1 1483401600 4 ;
  do x149 <- GetSideInputIndexHint si1 1483416000 4 ;
  do x150 <- GetSideInputIndexHint si1 1483401600 5 ;
  do x151 <- GetSideInputIndexHint si1 1483416000 5 ;
  do x152 <- GetSideInputIndexHint si1 1483401600 6 ;
  do x153 <- GetSideInputIndexHint si1 1483416000 6 ;
  do x154 <- GetSideInputIndexHint si1 1483430400 (-1) ;
  do x155 <- GetSideInputIndexHint si1 1483444800 (-1) ;
  do x156 <- GetSideInputIndexHint si1 1483430400 0 ;
  do x157 <- GetSideInputIndexHint si1 1483444800 0 ;
  do x158 <- GetSideInputIndexHint si1 1483430400 1 ;
  do x159 <- GetSideInputIndexHint si1 1483444800 1 ;
  do x160 <- GetSideInputIndexHint si1 1483430400 2 ;
  do x161 <- GetSideInputIndexHint si1 1483444800 2 ;
  do x162 <- GetSideInputIndexHint si1 1483430400 3 ;
  do x163 <- GetSideInputIndexHint si1 1483444800 3 ;
  do x164 <- GetSideInputIndexHint si1 1483430400 4 ;
  do x165 <- GetSideInputIndexHint si1 1483444800 4 ;
  do x166 <- GetSideInputIndexHint si1 1483430400 5 ;
  do x167 <- GetSideInputIndexHint si1 1483444800 5 ;
  do x168 <- GetSideInputIndexHint si1 1483430400 6 ;
  do x169 <- GetSideInputIndexHint si1 1483444800 6 ;
  do x170 <- GetSideInputIndexHint si1 1483430400 7 ;
  do x171 <- GetSideInputIndexHint si1 1483444800 7 ;
  do x172 <- GetSideInputIndexHint si1 1483459200 (-1) ;
  do x173 <- GetSideInputIndexHint si1 1483473600 (-1) ;
  do x174 <- GetSideInputIndexHint si1 1483459200 0 ;
  do x175 <- GetSideInputIndexHint si1 1483473600 0 ;
  do x176 <- GetSideInputIndexHint si1 1483459200 1 ;
  do x177 <- GetSideInputIndexHint si1 1483473600 1 ;
  do x178 <- GetSideInputIndexHint si1 1483459200 2 ;
  do x179 <- GetSideInputIndexHint si1 1483473600 2 ;
  do x180 <- GetSideInputIndexHint si1 1483459200 3 ;
  do x181 <- GetSideInputIndexHint si1 1483473600 3 ;
  do x182 <- GetSideInputIndexHint si1 1483459200 4 ;
  do x183 <- GetSideInputIndexHint si1 1483473600 4 ;
  do x184 <- GetSideInputIndexHint si1 1483459200 5 ;
  do x185 <- GetSideInputIndexHint si1 1483473600 5 ;
  do x186 <- GetSideInputIndexHint si1 1483459200 6 ;
  do x187 <- GetSideInputIndexHint si1 1483473600 6 ;
  do x188 <- GetSideInputIndexHint si1 1483459200 7 ;
  do x189 <- GetSideInputIndexHint si1 1483473600 7 ;
  do x190 <- GetSideInputIndexHint si1 1483459200 8 ;
  do x191 <- GetSideInputIndexHint si1 1483473600 8 ;
  do x192 <- GetSideInputIndexHint si1 1483488000 (-1) ;
  do x193 <- GetSideInputIndexHint si1 1483502400 (-1) ;
  do x194 <- GetSideInputIndexHint si1 1483488000 0 ;
  do x195 <- GetSideInputIndexHint si1 1483502400 0 ;
  do x196 <- GetSideInputIndexHint si1 1483488000 1 ;
  do x197 <- GetSideInputIndexHint si1 1483502400 1 ;
  do x198 <- GetSideInputIndexHint si1 1483488000 2 ;
  do x199 <- GetSideInputIndexHint si1 1483502400 2 ;
  do x200 <- GetSideInputIndexHint si1 1483488000 3 ;
  do x201 <- GetSideInputIndexHint si1 1483502400 3 ;
  do x202 <- GetSideInputIndexHint si1 1483488000 4 ;
  do x203 <- GetSideInputIndexHint si1 1483502400 4 ;
  do x204 <- GetSideInputIndexHint si1 1483488000 5 ;
  do x205 <- GetSideInputIndexHint si1 1483502400 5 ;
  do x206 <- GetSideInputIndexHint si1 1483488000 6 ;
  do x207 <- GetSideInputIndexHint si1 1483502400 6 ;
  do x208 <- GetSideInputIndexHint si1 1483488000 7 ;
  do x209 <- GetSideInputIndexHint si1 1483502400 7 ;
  do x210 <- GetSideInputIndexHint si1 1483488000 8 ;
  do x211 <- GetSideInputIndexHint si1 1483502400 8 ;
  do x212 <- GetSideInputIndexHint si1 1483488000 9 ;
  do x213 <- GetSideInputIndexHint si1 1483502400 9 ;
  Done (failures [(214, ((GetNumberOfRecords si1) =? 10));
    (215, ((GetNumberOfSignals si1) =? 3));
    (217, (x2 =? 1483228800));
    (218, (x3 =? 1483257600));
    (219, (x4 =? 1483286400));
    (220, (x5 =? 1483315200));
    (221, (x6 =? 1483344000));
    (222, (x7 =? 1483372800));
    (223, (x8 =? 1483401600));
    (224, (x9 =? 1483430400));
    (225, (x10 =? 1483459200));
    (226, (x11 =? 1483488000));
    (228, feq x12 (fl 5 1));
    (229, feq x13 (fl 5 2));
    (230, feq x14 (fl 15 0));
    (231, feq x15 (fl 5 0));
    (232, feq x16 (fl 15 1));
    (233, feq x17 (fl 25 0));
    (234, feq x18 (fl 5 1));
    (235, feq x19 (fl 15 0));
    (236, feq x20 (fl 5 2));
    (237, feq x21 (fl 5 0));
    (239, feq x22 (fl 5 0));
    (240, feq x23 (fl 5 1));
    (241, feq x24 (fl 5 2));
    (242, feq x25 (fl 5 1));
    (243, feq x26 (fl 5 2));
    (244, feq x27 (fl 5 2));
    (245, feq x28 (fl 5 1));
    (246, feq x29 (fl 5 0));
    (247, feq x30 (fl 15 0));
    (248, feq x31 (fl 25 0));
    (250, feq x32 (fl 15 0));
    (251, feq x33 (fl 15 1));
    (252, feq x34 (fl 5 0));
    (253, feq x35 (fl 5 0));
    (254, feq x36 (fl 15 0));
    (255, feq x37 (fl 5 1));
    (256, feq x38 (fl 15 0));
    (257, feq x39 (fl 15 1));
    (258, feq x40 (fl 5 2));
    (259, feq x41 (fl 5 1));
    (265, ((size x42) =? 3));
    (266, feq x43 (idx (fl 0 0) x42 0));
    (268, feq x44 (idx (fl 0 0) x42 1));
    (270, feq x45 (idx (fl 0 0) x42 2));
    (273, true);
    (265, ((size x46) =? 3));
    (266, feq x47 (idx (fl 0 0) x46 0));
    (268, feq x48 (idx (fl 0 0) x46 1));
    (270, feq x49 (idx (fl 0 0) x46 2));
    (273, true);
    (265, ((size x50) =? 3));
    (266, feq x51 (idx (fl 0 0) x50 0));
    (268, feq x52 (idx (fl 0 0) x50 1));
    (270, feq x53 (idx (fl 0 0) x50 2));
    (273, true);
    (265, ((size x54) =? 3));
    (266, feq x55 (idx (fl 0 0) x54 0));
    (268, feq x56 (idx (fl 0 0) x54 1));
    (270, feq x57 (idx (fl 0 0) x54 2));
    (273, true);
    (265, ((size x58) =? 3));
    (266, feq x59 (idx (fl 0 0) x58 0));
    (268, feq x60 (idx (fl 0 0) x58 1));
    (270, feq x61 (idx (fl 0 0) x58 2));
    (273, true);
    (265, ((size x62) =? 3));
    (266, feq x63 (idx (fl 0 0) x62 0));
    (268, feq x64 (idx (fl 0 0) x62 1));
    (270, feq x65 (idx (fl 0 0) x62 2));
    (273, true);
    (265, ((size x66) =? 3));
    (266, feq x67 (idx (fl 0 0) x66 0));
    (268, feq x68 (idx (fl 0 0) x66 1));
    (270, feq x69 (idx (fl 0 0) x66 2));
    (273, true);
    (265, ((size x70) =? 3));
    (266, feq x71 (idx (fl 0 0) x70 0));
    (268, feq x72 (idx (fl 0 0) x70 1));
    (270, feq x73 (idx (fl 0 0) x70 2));
    (273, true);
    (265, ((size x74) =? 3));
    (266, feq x75 (idx (fl 0 0) x74 0));
    (268, feq x76 (idx (fl 0 0) x74 1));
    (270, feq x77 (idx (fl 0 0) x74 2));
    (273, true);
    (265, ((size x78) =? 3));
    (266, feq x79 (idx (fl 0 0) x78 0));
    (268, feq x80 (idx (fl 0 0) x78 1));
    (270, feq x81 (idx (fl 0 0) x78 2));
    (273, true);
    (277, ((GetSideInputIndex si1 1483200000) =? (-1)));
    (280, ((GetSideInputIndex si1 1483214400) =? (-1)));
    (286, (x82 =? (-1)));
    (290, (x83 =? (-1)));
    (277, ((GetSideInputIndex si1 1483228800) =? 0));
    (280, ((GetSideInputIndex si1 1483243200) =? 0));
    (286, (x84 =? 0));
    (290, (x85 =? 0));
    (286, (x86 =? 0));
    (290, (x87 =? 0));
    (277, ((GetSideInputIndex si1 1483257600) =? 1));
    (280, ((GetSideInputIndex si1 1483272000) =? 1));
    (286, (x88 =? 1));
    (290, (x89 =? 1));
    (286, (x90 =? 1));
    (290, (x91 =? 1));
    (286, (x92 =? 1));
    (290, (x93 =? 1));
    (277, ((GetSideInputIndex si1 1483286400) =? 2));
    (280, ((GetSideInputIndex si1 1483300800) =? 2));
    (286, (x94 =? 2));
    (290, (x95 =? 2));
    (286, (x96 =? 2));
    (290, (x97 =? 2));
    (286, (x98 =? 2));
    (290, (x99 =? 2));
    (286, (x100 =? 2));
    (290, (x101 =? 2));
    (277, ((GetSideInputIndex si1 1483315200) =? 3));
    (280, ((GetSideInputIndex si1 1483329600) =? 3));
    (286, (x102 =? 3));
    (290, (x103 =? 3));
    (286, (x104 =? 3));
    (290, (x105 =? 3));
    (286, (x106 =? 3));
    (290, (x107 =? 3));
    (286, (x108 =? 3));
    (290, (x109 =? 3));
    (286, (x110 =? 3));
    (290, (x111 =? 3));
    (277, ((GetSideInputIndex si1 1483344000) =? 4));
    (280, ((GetSideInputIndex si1 1483358400) =? 4));
    (286, (x112 =? 4));
    (290, (x113 =? 4));
    (286, (x114 =? 4));
    (290, (x115 =? 4));
    (286, (x116 =? 4));
    (290, (x117 =? 4));
    (286, (x118 =? 4));
    (290, (x119 =? 4));
    (286, (x120 =? 4));
    (290, (x121 =? 4));
    (286, (x122 =? 4));
    (290, (x123 =? 4));
    (277, ((GetSideInputIndex si1 1483372800) =? 5));
    (280, ((GetSideInputIndex si1 1483387200) =? 5));
    (286, (x124 =? 5));
    (290, (x125 =? 5));
    (286, (x126 =? 5));
    (290, (x127 =? 5));
    (286, (x128 =? 5));
    (290, (x129 =? 5));
    (286, (x130 =? 5));
    (290, (x131 =? 5));
    (286, (x132 =? 5));
    (290, (x133 =? 5));
    (286, (x134 =? 5));
    (290, (x135 =? 5));
    (286, (x136 =? 5));
    (290, (x137 =? 5));
    (277, ((GetSideInputIndex si1 1483401600) =? 6));
    (280, ((GetSideInputIndex si1 1483416000) =? 6));
    (286, (x138 =? 6));
    (290, (x139 =? 6));
    (286, (x140 =? 6));
    (290, (x141 =? 6));
    (286, (x142 =? 6));
    (290, (x143 =? 6));
    (286, (x144 =? 6));
    (290, (x145 =? 6));
    (286, (x146 =? 6));
    (290, (x147 =? 6));
    (286, (x148 =? 6));
    (290, (x149 =? 6));
    (286, (x150 =? 6));
    (290, (x151 =? 6));
    (286, (x152 =? 6));
    (290, (x153 =? 6));
    (277, ((GetSideInputIndex si1 1483430400) =? 7));
    (280, ((GetSideInputIndex si1 1483444800) =? 7));
    (286, (x154 =? 7));
    (290, (x155 =? 7));
    (286, (x156 =? 7));
    (290, (x157 =? 7));
    (286, (x158 =? 7));
    (290, (x159 =? 7));
    (286, (x160 =? 7));
    (290, (x161 =? 7));
    (286, (x162 =? 7));
    (290, (x163 =? 7));
    (286, (x164 =? 7));
    (290, (x165 =? 7));
    (286, (x166 =? 7));
    (290, (x167 =? 7));
    (286, (x168 =? 7));
    (290, (x169 =? 7));
    (286, (x170 =? 7));
    (290, (x171 =? 7));
    (277, ((GetSideInputIndex si1 1483459200) =? 8));
    (280, ((GetSideInputIndex si1 1483473600) =? 8));
    (286, (x172 =? 8));
    (290, (x173 =? 8));
    (286, (x174 =? 8));
    (290, (x175 =? 8));
    (286, (x176 =? 8));
    (290, (x177 =? 8));
    (286, (x178 =? 8));
    (290, (x179 =? 8));
    (286, (x180 =? 8));
    (290, (x181 =? 8));
    (286, (x182 =? 8));
    (290, (x183 =? 8));
    (286, (x184 =? 8));
    (290, (x185 =? 8));
    (286, (x186 =? 8));
    (290, (x187 =? 8));
    (286, (x188 =? 8));
    (290, (x189 =? 8));
    (286, (x190 =? 8));
    (290, (x191 =? 8));
    (277, ((GetSideInputIndex si1 1483488000) =? 9));
    (280, ((GetSideInputIndex si1 1483502400) =? 9));
    (286, (x192 =? 9));
    (290, (x193 =? 9));
    (286, (x194 =? 9));
    (290, (x195 =? 9));
    (286, (x196 =? 9));
    (290, (x197 =? 9));
    (286, (x198 =? 9));
    (290, (x199 =? 9));
    (286, (x200 =? 9));
    (290, (x201 =? 9));
    (286, (x202 =? 9));
    (290, (x203 =? 9));
    (286, (x204 =? 9));
    (290, (x205 =? 9));
    (286, (x206 =? 9));
    (290, (x207 =? 9));
    (286, (x208 =? 9));
    (290, (x209 =? 9));
    (286, (x210 =? 9));
    (290, (x211 =? 9));
    (286, (x212 =? 9));
    (290, (x213 =? 9))]).
Check (@eq_refl (outcome (list Z)) (Done []) <: SideInputTest_MultipleSignalsMultipleRecords = Done []).
