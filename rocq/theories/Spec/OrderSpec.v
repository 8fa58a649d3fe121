(** Orders: what makes one well-formed and which exchange operation it stands for
    (any arithmetic). *)
From Coq Require Import ZArith Bool.
From Verif.Model Require Import Outcome Machine Types Account.

Section Spec.
  Context {M : machine}.

  Definition positive (x : flt) : Prop := fltb (fofZ 0) x = true.

  (** The amount of a well-formed order is a positive base or quote amount. *)
  Definition positive_amount (am : order_amount) : Prop :=
    match am with NoAmount => False | BaseAmount x => positive x | QuoteAmount x => positive x end.

  (** The order has a type and a side, a positive price unless it is a market order, and a
      positive amount.  The price of a market order is of no interest. *)
  Inductive order_is (o : order) : order_type -> order_side -> order_amount -> flt -> Prop :=
  | order_is_market sd am p :
      o_type o = Some MARKET -> o_side o = Some sd -> o_amount o = am -> positive_amount am ->
      order_is o MARKET sd am p
  | order_is_priced ty sd am p :
      ty <> MARKET -> o_type o = Some ty -> o_side o = Some sd -> o_amount o = am ->
      positive_amount am -> o_price o = Some p -> positive p ->
      order_is o ty sd am p.

  Definition well_formed_order (o : order) : Prop :=
    exists ty sd am p, order_is o ty sd am p.

  (** The table of operations. *)
  Definition operation (c : account_config) (t : ohlc_tick) (a : account)
             (ty : order_type) (sd : order_side) (am : order_amount) (p : flt)
    : option (outcome (bool * account)) :=
    match ty, sd, am with
    | MARKET, BUY, BaseAmount x => Some (MarketBuy (market_order_fee_config c) t x a)
    | MARKET, BUY, QuoteAmount x => Some (MarketBuyAtQuote (market_order_fee_config c) t x a)
    | MARKET, SELL, BaseAmount x => Some (MarketSell (market_order_fee_config c) t x a)
    | MARKET, SELL, QuoteAmount x => Some (MarketSellAtQuote (market_order_fee_config c) t x a)
    | STOP, BUY, BaseAmount x => Some (StopBuy (stop_order_fee_config c) t x p a)
    | STOP, BUY, QuoteAmount x => Some (StopBuyAtQuote (stop_order_fee_config c) t x p a)
    | STOP, SELL, BaseAmount x => Some (StopSell (stop_order_fee_config c) t x p a)
    | STOP, SELL, QuoteAmount x => Some (StopSellAtQuote (stop_order_fee_config c) t x p a)
    | LIMIT, BUY, BaseAmount x => Some (LimitBuy (limit_order_fee_config c) t x p a)
    | LIMIT, BUY, QuoteAmount x => Some (LimitBuyAtQuote (limit_order_fee_config c) t x p a)
    | LIMIT, SELL, BaseAmount x => Some (LimitSell (limit_order_fee_config c) t x p a)
    | LIMIT, SELL, QuoteAmount x => Some (LimitSellAtQuote (limit_order_fee_config c) t x p a)
    | _, _, NoAmount => None
    end.

  (** The settings of an account (everything but the two balances and the fee). *)
  Definition same_settings (a a' : account) : Prop :=
    base_unit a' = base_unit a /\ quote_unit a' = quote_unit a /\
    market_liquidity a' = market_liquidity a /\ max_volume_ratio a' = max_volume_ratio a.

  (** An operation that reports failure has not touched the account; no operation touches
      the settings. *)
  Definition all_or_nothing (op : account -> outcome (bool * account)) : Prop :=
    forall a ok a', op a = Done (ok, a') -> (ok = false -> a' = a) /\ same_settings a a'.
End Spec.
