(** What the rebalancing trader should do on real numbers, and how close single precision
    has to come.  b, q: balances; p: price; al: target share of the base currency; ep: the
    relative width of the band. *)
From Coq Require Import Reals List.
From Flocq Require Import Core BinarySingleNaN.
From Verif.Model Require Import Outcome Machine Types MachineIEEE.
From Verif.Spec Require Import TraderSpec.
Import ListNotations.
Local Open Scope R_scope.

(** Outside the band (by 2^-20) exactly one market order is given; a market order is given only
    outside the band (up to 2^-20), and if it is filled at the price p, the share of the base
    currency becomes al up to 2^-20. *)
Definition rebalances_at_market {lm as_} (al ep b q p : R) (os : list (@order (ieee lm as_))) : Prop :=
  let market sd (x : f32) := @Order (ieee lm as_) (Some MARKET) (Some sd) (@BaseAmount (ieee lm as_) x) None in
  (al * (1 + ep) + / 2 ^ 20 < base_share b q p -> exists x, os = [market SELL x]) /\
  (base_share b q p < al * (1 - ep) - / 2 ^ 20 -> exists x, os = [market BUY x]) /\
  (forall x : f32, os = [market SELL x] ->
     al * (1 + ep) - / 2 ^ 20 < base_share b q p /\ is_finite x = true /\ 0 < B2R x /\
     Rabs (base_share (b - B2R x) (q + B2R x * p) p - al) <= / 2 ^ 20) /\
  (forall x : f32, os = [market BUY x] ->
     base_share b q p < al * (1 - ep) + / 2 ^ 20 /\ is_finite x = true /\ 0 < B2R x /\
     Rabs (base_share (b + B2R x) (q - B2R x * p) p - al) <= / 2 ^ 20).

(** The limit orders: with A = al * (1 + ep) (sell) or al * (1 - ep) (buy) the price is
    A * q / (1 - A) up to a relative error of 2^-21 / (1 - A) (if 1 - A >= 2^-16), the amount
    b * ep / (1 + ep) or b * ep / (1 - ep) up to a relative error of 2^-22. *)
Definition limits_near {lm as_} (al ep b q : R) (os : list (@order (ieee lm as_))) : Prop :=
  forall sd (x y : f32),
    In (@Order (ieee lm as_) (Some LIMIT) (Some sd) (@BaseAmount (ieee lm as_) x) (Some y)) os ->
    let s := match sd with SELL => 1 + ep | BUY => 1 - ep end in
    let A := al * s in
    is_finite x = true /\ Rabs (B2R x - b * ep / s) <= / 2 ^ 22 * (b * ep / s) /\
    (A <= 1 - / 2 ^ 16 ->
     is_finite y = true /\ Rabs (B2R y - A * q / (1 - A)) <= / 2 ^ 21 / (1 - A) * (A * q / (1 - A))).
