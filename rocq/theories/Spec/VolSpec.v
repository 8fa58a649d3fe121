(** What is assumed of the C library's logf, and the exact counterparts of the float inputs of
    the volatility. *)
From Coq Require Import Reals ZArith Bool List.
From Flocq Require Import Core BinarySingleNaN.
From Verif.Model Require Import Machine Types MachineR MachineIEEE.
From Verif.Spec Require Import IndicatorSpec.
Local Open Scope R_scope.

(** A relative error of at most 2^-22 (real libraries: about 2^-24), plus 2^-140. *)
Definition log_accurate (lm : libm) : Prop :=
  forall x : f32, is_finite x = true -> bpow radix2 (-125) <= B2R x <= bpow radix2 125 ->
    is_finite (libm_logf lm x) = true /\
    Rabs (B2R (libm_logf lm x) - ln (B2R x)) <= / 2 ^ 22 * Rabs (ln (B2R x)) + bpow radix2 (-140).

Section Real.
  Context (lm : libm) (as_ : bool) (sh : R -> String.string) (as' : bool).
  Local Notation I := (ieee lm as_).
  Local Notation E := (exact sh as').

  (** The same numbers, as reals. *)
  Definition real_tick (t : @ohlc_tick I) : @ohlc_tick E :=
    @OhlcTick E (timestamp_sec t) (B2R (open t : f32)) (B2R (high t : f32)) (B2R (low t : f32))
              (B2R (close t : f32)) (B2R (volume t : f32)).
  Definition real_update (x : @balance_update I) : @balance_update E :=
    @BalanceUpdate E (real_tick (bu_tick x)) (B2R (bu_base x : f32)) (B2R (bu_quote x : f32)).

  (** Finite prices above 0 and finite balances that are not negative. *)
  Definition sound_update (x : @balance_update I) : Prop :=
    is_finite (open (bu_tick x) : f32) = true /\ 0 < B2R (open (bu_tick x) : f32) /\
    is_finite (close (bu_tick x) : f32) = true /\ 0 < B2R (close (bu_tick x) : f32) /\
    is_finite (bu_base x : f32) = true /\ 0 <= B2R (bu_base x : f32) /\
    is_finite (bu_quote x : f32) = true /\ 0 <= B2R (bu_quote x : f32).
End Real.
