(** What perfect foresight would gain on a path of float prices, and the slack allowed to
    a run computed in single precision. *)
From Coq Require Import Reals ZArith List.
From Flocq Require Import Core BinarySingleNaN.
From Verif.Model Require Import Outcome Machine Types MachineIEEE.
From Verif.Spec Require Import GainSpec.
Local Open Scope R_scope.

(** Inside the candle, up to one part in four million. *)
Definition near_candle {lm : libm} {as_ : bool} (t : @ohlc_tick (ieee lm as_)) (q : R) : Prop :=
  B2R (low t : f32) * (1 - bpow radix2 (-22)) <= q <= B2R (high t : f32) * (1 + bpow radix2 (-22)).

(** One price inside its candle for every fill, tick by tick. *)
Definition fills {lm : libm} {as_ : bool} (ticks : list (@ohlc_tick (ieee lm as_))) (qs : list R) : Prop :=
  exists parts, qs = concat parts /\ Forall2 (fun t part => Forall (near_candle t) part) ticks parts.

(** The slack for each trade: less than one part in 131072 of the wealth. *)
Definition slack : R := 1 + bpow radix2 (-17).

(** The candle and its close lie between lo and hi. *)
Definition between_prices {lm : libm} {as_ : bool} (lo hi : R) (t : @ohlc_tick (ieee lm as_)) : Prop :=
  lo <= B2R (low t : f32) /\ B2R (high t : f32) <= hi /\ lo <= B2R (close t : f32) <= hi.
