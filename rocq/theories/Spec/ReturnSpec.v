(** When evaluations and the trader program come to an end in single precision. *)
From Coq Require Import Reals ZArith List String Bool.
From Flocq Require Import Core BinarySingleNaN.
From Verif.Model Require Import Outcome Machine Types MachineIEEE Eval Traders Files Programs.
From Verif.Spec Require Import OrderSpec EvalSpec.
Import ListNotations.
Local Open Scope R_scope.

(** The evaluation covers something: windows of at least one month, or the whole range
    (window length zero), which then contains a tick. *)
Definition covers {M : machine} (ec : evaluation_config) (history : list ohlc_tick) : Prop :=
  (0 < evaluation_period_months ec)%Z \/
  (evaluation_period_months ec = 0 /\ ec_start_timestamp_sec ec <= ec_end_timestamp_sec ec)%Z /\
  ticks_in history (ec_start_timestamp_sec ec) (ec_end_timestamp_sec ec) <> [].

(** A double flag is a number between lo and hi. *)
Definition flag_between (lo hi : R) (x : f64) : Prop := is_finite x = true /\ lo <= B2R x <= hi.

(** The money flags of the trader program: balances up to 2^100, one of them at least 2^-30,
    the two ratios between 0 and 1. *)
Record sensible_flags (f : trader_flags) : Prop := SensibleFlags {
  sf_base : flag_between 0 (bpow radix2 100) (tf_start_base_balance f);
  sf_quote : flag_between 0 (bpow radix2 100) (tf_start_quote_balance f);
  sf_owns : bpow radix2 (-30) <= B2R (tf_start_base_balance f) \/ bpow radix2 (-30) <= B2R (tf_start_quote_balance f);
  sf_liquidity : flag_between 0 1 (tf_market_liquidity f);
  sf_ratio : flag_between 0 1 (tf_max_volume_ratio f)
}.

(** A log file flag that is not used, or names a file that can be written, in a run without
    windows. *)
Definition log_possible (env : environment) (f : trader_flags) (file : string) : Prop :=
  file = EmptyString \/ (writable env file = true /\ (tf_evaluation_period_months f <= 0)%Z).

(** The C library's pow: the n-th root of a non-negative number is not NaN. *)
Definition roots_exist (lm : libm) : Prop :=
  forall (x : f64) (n : Z), Bleb (f64_of_Z 0) x = true -> (1 <= n)%Z ->
    is_nan (libm_pow lm x (Bdiv mode_NE (f64_of_Z 1) (f64_of_Z n))) = false.

(** Every trader the programs can create, alone or in a batch. *)
Definition program_trader {lm : libm} {as_ : bool} (name : string) (te : @trader_emitter (ieee lm as_)) : Prop :=
  GetTrader name = Done te \/ exists tes, GetBatchOfTraders name = Done tes /\ In te tes.
