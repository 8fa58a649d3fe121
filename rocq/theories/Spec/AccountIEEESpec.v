(** The ranges of float values for which the IEEE theorems about the account hold. *)
From Coq Require Import Reals ZArith Bool List.
From Flocq Require Import Core BinarySingleNaN.
From Verif.Model Require Import Outcome Machine Types MachineIEEE.
Local Open Scope R_scope.

(** A number (not infinite, not NaN) between lo and hi. *)
Definition in_range (lo hi : R) (x : f32) : Prop :=
  is_finite x = true /\ lo <= B2R x <= hi.

(** Amounts and balances: up to 2^40 (about 10^12). *)
Definition ok_amount : f32 -> Prop := in_range 0 (bpow radix2 40).
(** Prices: between 2^-26 and 2^26 (about 1.5 * 10^-8 and 6.7 * 10^7). *)
Definition ok_price : f32 -> Prop := in_range (bpow radix2 (-26)) (bpow radix2 26).
(** Units: zero (no unit) or between 2^-30 and 2^20 (about 10^-9 and 10^6). *)
Definition ok_unit (u : f32) : Prop :=
  is_finite u = true /\ (B2R u = 0 \/ bpow radix2 (-30) <= B2R u <= bpow radix2 20).

(** x is a whole number of units: the float product of the unit and an integral float. *)
Definition float_units (u x : f32) : Prop :=
  B2R u = 0 \/
  exists n : f32, is_finite n = true /\ (exists k : Z, B2R n = IZR k) /\ x = Bmult mode_NE u n.

Section Spec.
  Context {lm : libm} {as_ : bool}.
  Local Notation I := (ieee lm as_).

  Record ok_fees (fc : @fee_config I) : Prop := OkFees {
    of_rel : in_range 0 1 (relative_fee fc);
    of_fixed : in_range 0 (bpow radix2 20) (fixed_fee fc);
    of_min : in_range 0 (bpow radix2 20) (minimum_fee fc)
  }.

  Record ok_config (c : @account_config I) : Prop := OkConfig {
    oc_market : ok_fees (market_order_fee_config c);
    oc_stop : ok_fees (stop_order_fee_config c);
    oc_limit : ok_fees (limit_order_fee_config c)
  }.

  Record ok_settings (a : @account I) : Prop := OkSettings {
    os_base_unit : ok_unit (base_unit a);
    os_quote_unit : ok_unit (quote_unit a);
    os_liquidity : in_range 0 1 (market_liquidity a);
    os_ratio : in_range 0 1 (max_volume_ratio a)
  }.

  (** Finite non-negative balances. *)
  Definition balance_ok (x : f32) : Prop := is_finite x = true /\ 0 <= B2R x.
  Definition balances_ok (a : @account I) : Prop :=
    balance_ok (base_balance a) /\ balance_ok (quote_balance a) /\ balance_ok (total_fee a).

  (** No balance has exceeded 2^40.  (A NaN does not exceed it: this does not presuppose
      that the balances are numbers.) *)
  Definition limit40 : f32 := f32_of_Z (2 ^ 40).
  Definition not_exceeded (a : @account I) : Prop :=
    Bltb limit40 (base_balance a) = false /\ Bltb limit40 (quote_balance a) = false /\
    Bltb limit40 (total_fee a) = false.

  Definition float_whole (a : @account I) : Prop :=
    float_units (base_unit a) (base_balance a) /\
    float_units (quote_unit a) (quote_balance a) /\
    float_units (quote_unit a) (total_fee a).

  Record ok_tick (t : @ohlc_tick I) : Prop := OkTick {
    ot_open : ok_price (open t);
    ot_high : ok_price (high t);
    ot_low : ok_price (low t);
    ot_close : ok_price (close t);
    ot_volume : ok_amount (volume t);
    ot_low_open : B2R (low t) <= B2R (open t);
    ot_open_high : B2R (open t) <= B2R (high t)
  }.

  (** A positive amount: of base currency up to 2^60, of quote currency up to 2^40. *)
  Definition ok_order_amount (am : @order_amount I) : Prop :=
    match am with
    | NoAmount => False
    | BaseAmount x => in_range 0 (bpow radix2 60) x /\ 0 < B2R (x : f32)
    | QuoteAmount x => in_range 0 (bpow radix2 40) x /\ 0 < B2R (x : f32)
    end.

  (** A complete order with a positive amount and, unless it is a market order, a price. *)
  Inductive ok_order (o : @order I) : Prop :=
  | OkOrder ty sd p am :
      o_type o = Some ty -> o_side o = Some sd ->
      o_amount o = am -> ok_order_amount am ->
      (ty = MARKET \/ (o_price o = Some p /\ ok_price p)) ->
      ok_order o.
End Spec.
