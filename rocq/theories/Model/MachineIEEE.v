(** The machine the program runs on: IEEE-754 binary32 (float) and binary64 (double),
    round to nearest, ties to even (Flocq's BinarySingleNaN: all NaNs are one value).
    std::exp, std::log and std::pow are library oracles. *)

From Coq Require Import ZArith String Bool Ascii DecimalString.
From Flocq Require Import Core BinarySingleNaN.
From Verif.Model Require Import Outcome Machine.

#[global] Instance prec24 : Prec_gt_0 24 := eq_refl.
#[global] Instance prec24_emax : Prec_lt_emax 24 128 := eq_refl.
#[global] Instance prec53 : Prec_gt_0 53 := eq_refl.
#[global] Instance prec53_emax : Prec_lt_emax 53 1024 := eq_refl.

Definition f32 : Type := binary_float 24 128.
Definition f64 : Type := binary_float 53 1024.

Definition f32_of_Z (z : Z) : f32 := binary_normalize 24 128 _ _ mode_NE z 0 false.
Definition f64_of_Z (z : Z) : f64 := binary_normalize 53 1024 _ _ mode_NE z 0 false.

(** Conversions between the formats (rounding to nearest even when narrowing). *)
Definition f32_to_f64 (x : f32) : f64 :=
  match x with
  | B754_zero s => B754_zero s
  | B754_infinity s => B754_infinity s
  | B754_nan => B754_nan
  | B754_finite s m e _ => binary_normalize 53 1024 _ _ mode_NE (cond_Zopp s (Zpos m)) e s
  end.
Definition f64_to_f32 (x : f64) : f32 :=
  match x with
  | B754_zero s => B754_zero s
  | B754_infinity s => B754_infinity s
  | B754_nan => B754_nan
  | B754_finite s m e _ => binary_normalize 24 128 _ _ mode_NE (cond_Zopp s (Zpos m)) e s
  end.

(** printf "%.3f": the exact value rounded to three decimals, ties to even (C library
    and absl::StrFormat print the correctly rounded decimal). *)
Definition div_half_even (n d : Z) : Z :=
  let q := (n / d)%Z in
  let r := (n mod d)%Z in
  match (2 * r ?= d)%Z with
  | Lt => q
  | Gt => (q + 1)%Z
  | Eq => if Z.even q then q else (q + 1)%Z
  end.

Definition digit (z : Z) : ascii := ascii_of_N (Z.to_N (48 + z)).

Definition fmt3_thousandths (s : bool) (n : Z) : string :=
  ((if s then "-" else "") ++ NilZero.string_of_int (Z.to_int (n / 1000)) ++ "."
   ++ String (digit (n / 100 mod 10)) (String (digit (n / 10 mod 10))
        (String (digit (n mod 10)) "")))%string.

Definition f32_fmt3 (x : f32) : string :=
  match x with
  | B754_zero s => fmt3_thousandths s 0
  | B754_infinity s => if s then "-inf" else "inf"
  | B754_nan => "nan"
  | B754_finite s m e _ =>
    fmt3_thousandths s
      (if (0 <=? e)%Z then Zpos m * 2 ^ e * 1000
       else div_half_even (Zpos m * 1000) (2 ^ (- e)))
  end.

(** The functions of the C math library that IEEE-754 does not specify. *)
Record libm : Type := Libm {
  libm_expf : f32 -> f32;
  libm_logf : f32 -> f32;
  libm_pow : f64 -> f64 -> f64
}.

Definition ieee (lm : libm) (asserts : bool) : machine := {|
  flt := f32;
  fadd := Bplus mode_NE; fsub := Bminus mode_NE; fmul := Bmult mode_NE;
  fdiv := Bdiv mode_NE; fopp := Bopp;
  fsqrt := Bsqrt mode_NE;
  ffloor := Bnearbyint mode_DN; fceil := Bnearbyint mode_UP; fround := Bnearbyint mode_NA;
  fexp := libm_expf lm; flog := libm_logf lm;
  fltb := Bltb; fleb := Bleb; feqb := Beqb;
  fofZ := f32_of_Z; fmaxval := Bmax_float; ffmt3 := f32_fmt3;
  dbl := f64;
  dadd := Bplus mode_NE; dsub := Bminus mode_NE; dmul := Bmult mode_NE;
  ddiv := Bdiv mode_NE; dsqrt := Bsqrt mode_NE; dpow := libm_pow lm;
  dleb := Bleb; dofZ := f64_of_Z; f2d := f32_to_f64; d2f := f64_to_f32;
  asserts_on := asserts
|}.
