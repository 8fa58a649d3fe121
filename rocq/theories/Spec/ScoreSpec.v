(** What is assumed of the C library's pow: a relative error of at most 2^-40 (real
    libraries: about 2^-53) as long as the result is far from overflow and underflow. *)
From Coq Require Import Reals.
From Flocq Require Import Core BinarySingleNaN.
From Verif.Model Require Import MachineIEEE.
Local Open Scope R_scope.

Definition pow_accurate (lm : libm) : Prop :=
  forall x y : f64, is_finite x = true -> is_finite y = true -> 0 < B2R x ->
    bpow radix2 (-1000) <= Rpower (B2R x) (B2R y) <= bpow radix2 1000 ->
    is_finite (libm_pow lm x y) = true /\
    Rabs (B2R (libm_pow lm x y) - Rpower (B2R x) (B2R y)) <= / 2 ^ 40 * Rpower (B2R x) (B2R y).

(** A finite float between 2^-j and 2^j. *)
Definition moderate (j : Z) (x : f32) : Prop :=
  is_finite x = true /\ bpow radix2 (- j) <= B2R x <= bpow radix2 j.
