(** What the two traders are supposed to do, told through their updates and the orders they
    emit (never through their internal state). *)
From Coq Require Import Reals ZArith Bool List.
From Flocq Require Import Core BinarySingleNaN.
From Verif.Model Require Import Outcome Machine Types Account Eval Traders MachineR MachineIEEE.
Import ListNotations.

Section Spec.
  Context {M : machine}.

  (** What a trader is shown on one update. *)
  Record view : Type := View {
    v_tick : ohlc_tick;
    v_signals : list flt;
    v_base : flt;
    v_quote : flt
  }.
  Definition v_time (v : view) : Z := timestamp_sec (v_tick v).
  Definition v_price (v : view) : flt := close (v_tick v).

  (** The orders emitted by a trader on each of a sequence of updates, from state s on. *)
  Fixpoint orders_from (e : trader_emitter) (s : te_state e) (vs : list view)
    : outcome (list (list order)) :=
    match vs with
    | [] => Done []
    | v :: vs' =>
      do r <- te_update e s (v_tick v) (v_signals v) (v_base v) (v_quote v) ;
      do rest <- orders_from e (fst r) vs' ;
      Done (snd r :: rest)
    end.

  (** ... by a newly created trader. *)
  Definition orders_emitted (e : trader_emitter) (vs : list view) : outcome (list (list order)) :=
    orders_from e (te_new e) vs.

  (** Timestamps are positive and strictly increasing. *)
  Fixpoint increasing_from (t : Z) (vs : list view) : Prop :=
    match vs with
    | [] => True
    | v :: vs' => (t < v_time v)%Z /\ increasing_from (v_time v) vs'
    end.

  (** The demands of a trader on what it is shown: a positive price, and something to trade. *)
  Definition demands (v : view) : Prop :=
    fltb (fofZ 0) (v_price v) = true /\
    (fltb (fofZ 0) (v_base v) = true \/ fltb (fofZ 0) (v_quote v) = true).

  (** ** The stop trader *)

  (** The side of the market: long if the base balance is worth at least the quote balance. *)
  Definition is_long (v : view) : bool := fleb (v_quote v) (fmul (v_base v) (v_price v)).

  (** The stop order that closes the position at price p. *)
  Definition closing_order (v : view) (p : flt) : order :=
    if is_long v
    then Order (Some STOP) (Some SELL) (BaseAmount (v_base v)) (Some p)
    else Order (Some STOP) (Some BUY) (QuoteAmount (v_quote v)) (Some p).

  (** The stop price of a new position: the margin away from the current price. *)
  Definition start_price (c : stop_config) (v : view) : flt :=
    if is_long v
    then fmul (fsub (fofZ 1) (stop_order_margin c)) (v_price v)
    else fmul (fadd (fofZ 1) (stop_order_margin c)) (v_price v).

  (** The price beyond which the stop does not follow. *)
  Definition follow_limit (c : stop_config) (v : view) : flt :=
    if is_long v
    then fmul (fsub (fofZ 1) (stop_order_move_margin c)) (v_price v)
    else fmul (fadd (fofZ 1) (stop_order_move_margin c)) (v_price v).

  (** A new position is started when the side changes or nothing was seen for an hour. *)
  Definition new_position (v0 v : view) : Prop :=
    is_long v <> is_long v0 \/ (v_time v >= v_time v0 + 3600)%Z.

  (** The stop was left where it was or moved towards the price, and then not beyond the
      follow limit. *)
  Definition follows (c : stop_config) (v : view) (p p' : flt) : Prop :=
    p' = p \/
    if is_long v
    then fltb p p' = true /\ fleb p' (follow_limit c v) = true
    else fltb p' p = true /\ fleb (follow_limit c v) p' = true.

  (** The stop prices of a trader shown vs. *)
  Definition stop_prices (c : stop_config) (vs : list view) (ps : list flt) : Prop :=
    orders_emitted (stop_emitter c) vs =
    Done (map (fun vp => [closing_order (fst vp) (snd vp)]) (combine vs ps)) /\
    length ps = length vs.

  (** ** The rebalancing trader *)

  (** All combinations of parameters, the last varying fastest: the element at index
      i * |bs| + j is the combination of the i-th and the j-th parameter. *)
  Definition grid {A B C} (f : A -> B -> C) (xs : list A) (ys : list B) (zs : list C) : Prop :=
    length zs = (length xs * length ys)%nat /\
    forall i j x y, nth_error xs i = Some x -> nth_error ys j = Some y ->
                    nth_error zs (i * length ys + j) = Some (f x y).
End Spec.

(** Exact arithmetic: where the stop goes when it follows the price. *)
Section Exact.
  Context {sh : R -> String.string} {as_ : bool}.
  Local Notation E := (exact sh as_).
  Local Open Scope R_scope.

  (** The time from one update to another, in days. *)
  Definition days (v0 v : @view E) : R := IZR (v_time v - v_time v0) / 86400.

  (** The factor by which the stop drifts towards the price: the daily increase (decrease)
      compounded over the elapsed time. *)
  Definition drift (c : @stop_config E) (v0 v : @view E) : R :=
    if is_long v
    then Rpower (1 + stop_order_increase_per_day c) (days v0 v)
    else Rpower (1 - stop_order_decrease_per_day c) (days v0 v).

  (** Beyond the limit the stop stays; otherwise it drifts, at most to the limit. *)
  Definition followed (c : @stop_config E) (v0 v : @view E) (p : R) : R :=
    if is_long v
    then (if Rle_dec p (follow_limit c v) then Rmin (follow_limit c v) (p * drift c v0 v) else p)
    else (if Rle_dec (follow_limit c v) p then Rmax (follow_limit c v) (p * drift c v0 v) else p).
  (** An exchange without fees and units on which market orders are executed at [price]. *)
  Record ideal (cfg : @account_config E) (a : @account E) (t : @ohlc_tick E) (price : R) : Prop := Ideal {
    id_rel : (relative_fee (market_order_fee_config cfg) : R) = 0;
    id_fixed : (fixed_fee (market_order_fee_config cfg) : R) = 0;
    id_min : (minimum_fee (market_order_fee_config cfg) : R) = 0;
    id_bu : (base_unit a : R) = 0;
    id_qu : (quote_unit a : R) = 0;
    id_liq : (market_liquidity a : R) = 1;
    id_open : (open t : R) = price
  }.

End Exact.

(** IEEE: configurations and updates in a sensible range. *)
Section IEEE.
  Context {lm : libm} {as_ : bool}.
  Local Notation I := (ieee lm as_).
  Local Open Scope R_scope.

  Definition number_in (lo hi : R) (x : f32) : Prop := is_finite x = true /\ lo <= B2R x <= hi.

  (** A margin below 1 and a non-negative move margin. *)
  Record ok_stop (c : @stop_config I) : Prop := OkStop {
    ok_margin : number_in 0 1 (stop_order_margin c);
    ok_margin_lt : B2R (stop_order_margin c) < 1;
    ok_move : number_in 0 (bpow radix2 20) (stop_order_move_margin c)
  }.

  (** A price between 2^-100 and 2^100; finite non-negative balances, not both zero. *)
  Record ok_view (v : @view I) : Prop := OkView {
    ok_v_price : number_in (bpow radix2 (-100)) (bpow radix2 100) (v_price v);
    ok_v_base : is_finite (v_base v : f32) = true /\ 0 <= B2R (v_base v : f32);
    ok_v_quote : is_finite (v_quote v : f32) = true /\ 0 <= B2R (v_quote v : f32);
    ok_v_some : 0 < B2R (v_base v : f32) \/ 0 < B2R (v_quote v : f32)
  }.

  (** The rebalancing trader: 0 < alpha < 1, 0 < epsilon < 1, and a tolerance band that is
      not narrower than the float precision: alpha * epsilon >= 2^-19 (about 2 * 10^-6). *)
  Record ok_rebalancing (c : @rebalancing_config I) : Prop := OkRebalancing {
    ok_alpha : is_finite (alpha c : f32) = true /\ 0 < B2R (alpha c : f32) < 1;
    ok_epsilon : is_finite (epsilon c : f32) = true /\ 0 < B2R (epsilon c : f32) < 1;
    ok_band : bpow radix2 (-19) <= B2R (alpha c : f32) * B2R (epsilon c : f32)
  }.

  (** A price between 2^-19 and 2^19, balances up to 2^40, and a portfolio that is worth at
      least 2^-60. *)
  Record ok_portfolio (price base quote : f32) : Prop := OkPortfolio {
    ok_p_price : number_in (bpow radix2 (-19)) (bpow radix2 19) price;
    ok_p_base : number_in 0 (bpow radix2 40) base;
    ok_p_quote : number_in 0 (bpow radix2 40) quote;
    ok_p_worth : bpow radix2 (-60) <= B2R base * B2R price + B2R quote
  }.
End IEEE.

(** The share of the base currency in a portfolio. *)
Definition base_share (base quote price : R) : R := (base * price / (base * price + quote))%R.
