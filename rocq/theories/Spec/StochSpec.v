(** The exact stochastic oscillator of float ticks: C48's exact percent_k, fast_d and slow_d of
    the same numbers taken as reals. *)
From Coq Require Import Reals ZArith List.
From Flocq Require Import Core BinarySingleNaN.
From Verif.Model Require Import Machine Types MachineR MachineIEEE.
From Verif.Spec Require Import SeriesSpec IndicatorSpec VolSpec.
Local Open Scope R_scope.

(** Highest high minus lowest low of the last n ticks. *)
Definition span {lm as_} (n : Z) (ser : list (@ohlc_tick (ieee lm as_))) : R :=
  max_of (map (fun t => B2R (@high (ieee lm as_) t : f32)) (lastn (Z.to_nat n) ser))
  - min_of (map (fun t => B2R (@low (ieee lm as_) t : f32)) (lastn (Z.to_nat n) ser)).

(** The span is clearly below or clearly above the program's threshold of 10^-6. *)
Definition clear_span {lm as_} (n : Z) (ser : list (@ohlc_tick (ieee lm as_))) : Prop :=
  span n ser < / 2 ^ 20 \/ / 2 ^ 19 <= span n ser.
