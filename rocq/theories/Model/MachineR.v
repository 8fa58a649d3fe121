(** The machine with exact real arithmetic: what the formulas of the program mean when
    every rounding of the hardware is ignored. *)

From Coq Require Import Reals ZArith String Bool.
From Flocq Require Import Core.
From Verif.Model Require Import Outcome Machine.

Local Open Scope R_scope.

(** std::pow on reals; Rpower is exp (y * ln x), which is not 0 for x = 0. *)
Definition rpow (x y : R) : R := if Req_bool x 0 then 0 else Rpower x y.

(** std::numeric_limits<float>::max() = (2^24 - 1) * 2^104. *)
Definition rmaxval : R := IZR ((2 ^ 24 - 1) * 2 ^ 104).

Definition exact (show : R -> string) (asserts : bool) : machine := {|
  flt := R;
  fadd := Rplus; fsub := Rminus; fmul := Rmult; fdiv := Rdiv; fopp := Ropp;
  fsqrt := sqrt;
  ffloor := fun x => IZR (Zfloor x);
  fceil := fun x => IZR (Zceil x);
  fround := fun x => IZR (ZnearestA x);
  fexp := exp; flog := ln;
  fltb := Rlt_bool; fleb := Rle_bool; feqb := Req_bool;
  fofZ := IZR; fmaxval := rmaxval; ffmt3 := show;
  dbl := R;
  dadd := Rplus; dsub := Rminus; dmul := Rmult; ddiv := Rdiv; dsqrt := sqrt; dpow := rpow;
  dleb := Rle_bool; dofZ := IZR; f2d := fun x => x; d2f := fun x => x;
  asserts_on := asserts
|}.
