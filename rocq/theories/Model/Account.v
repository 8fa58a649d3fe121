(** base/account.cc, base/account.h: the exchange account. *)

From Coq Require Import ZArith Bool List.
From Verif.Model Require Import Outcome Machine Types.

Section Account.
  Context {M : machine}.
  Local Open Scope flt_scope.

  (** account.cc:7-9 Floor. *)
  Definition Floor (amount unit : flt) : flt :=
    if unit >? #0 then unit * ffloor (amount / unit) else amount.

  (** account.cc:11-13 Ceil. *)
  Definition Ceil (amount unit : flt) : flt :=
    if unit >? #0 then unit * fceil (amount / unit) else amount.

  (** account.cc:15-17 Round. *)
  Definition Round (amount unit : flt) : flt :=
    if unit >? #0 then unit * fround (amount / unit) else amount.

  (** Getters of the Order message (proto2 defaults: the first enum value, 0). *)
  Definition get_type (o : order) : order_type :=
    match o_type o with Some t => t | None => MARKET end.
  Definition get_side (o : order) : order_side :=
    match o_side o with Some s => s | None => BUY end.
  Definition get_price (o : order) : flt :=
    match o_price o with Some p => p | None => #0 end.
  Definition get_base_amount (o : order) : flt :=
    match o_amount o with BaseAmount x => x | _ => #0 end.
  Definition get_quote_amount (o : order) : flt :=
    match o_amount o with QuoteAmount x => x | _ => #0 end.
  Definition is_base_amount (o : order) : bool :=
    match o_amount o with BaseAmount _ => true | _ => false end.
  Definition is_quote_amount (o : order) : bool :=
    match o_amount o with QuoteAmount _ => true | _ => false end.
  Definition has {A} (x : option A) : bool :=
    match x with Some _ => true | None => false end.
  Definition is_market (t : order_type) : bool :=
    match t with MARKET => true | _ => false end.
  Definition is_buy (s : order_side) : bool :=
    match s with BUY => true | SELL => false end.

  (** account.cc:19-31 IsValidOrder. *)
  Definition IsValidOrder (o : order) : bool :=
    has (o_type o) && has (o_side o) &&
    (is_market (get_type o) || (has (o_price o) && (get_price o >? #0))) &&
    ((is_base_amount o && (get_base_amount o >? #0)) ||
     (is_quote_amount o && (get_quote_amount o >? #0))).

  (** account.cc:34-42 Account::InitAccount. *)
  Definition InitAccount (c : account_config) : account :=
    {| base_balance := start_base_balance c;
       quote_balance := start_quote_balance c;
       total_fee := #0;
       base_unit := cfg_base_unit c;
       quote_unit := cfg_quote_unit c;
       market_liquidity := cfg_market_liquidity c;
       max_volume_ratio := cfg_max_volume_ratio c |}.

  (** account.cc:44-49 Account::GetFee. *)
  Definition GetFee (a : account) (fc : fee_config) (quote_amount : flt) : flt :=
    Ceil (fmax (minimum_fee fc) (fixed_fee fc + quote_amount * relative_fee fc))
         (quote_unit a).

  (** account.cc:51-54 Account::GetMarketBuyPrice. *)
  Definition GetMarketBuyPrice (a : account) (t : ohlc_tick) : flt :=
    market_liquidity a * open t + (#1 - market_liquidity a) * high t.

  (** account.cc:56-59 Account::GetMarketSellPrice. *)
  Definition GetMarketSellPrice (a : account) (t : ohlc_tick) : flt :=
    market_liquidity a * open t + (#1 - market_liquidity a) * low t.

  (** account.cc:61-64 Account::GetStopBuyPrice. *)
  Definition GetStopBuyPrice (a : account) (t : ohlc_tick) (price : flt) : flt :=
    market_liquidity a * fmax price (open t) + (#1 - market_liquidity a) * high t.

  (** account.cc:66-69 Account::GetStopSellPrice. *)
  Definition GetStopSellPrice (a : account) (t : ohlc_tick) (price : flt) : flt :=
    market_liquidity a * fmin price (open t) + (#1 - market_liquidity a) * low t.

  (** account.cc:71-75 Account::GetMaxBaseAmount. *)
  Definition GetMaxBaseAmount (a : account) (t : ohlc_tick) : flt :=
    if max_volume_ratio a >? #0
    then Floor (max_volume_ratio a * volume t) (base_unit a)
    else fmaxval.

  (** The assignments to base_balance, quote_balance and total_fee in
      account.cc:91-93 and 131-133. *)
  Definition set_balances (a : account) (base quote fee : flt) : account :=
    {| base_balance := base; quote_balance := quote; total_fee := fee;
       base_unit := base_unit a; quote_unit := quote_unit a;
       market_liquidity := market_liquidity a; max_volume_ratio := max_volume_ratio a |}.

  (** Every method returns its bool result and the account afterwards. *)
  Definition exec : Type := outcome (bool * account).

  (** account.cc:77-95 Account::BuyBase. *)
  Definition BuyBase (fc : fee_config) (base_amount price : flt) (a : account) : exec :=
    assert_ (price >? #0) ;;
    assert_ (base_amount >=? #0) ;;
    let base_amount := Round base_amount (base_unit a) in
    if base_amount <? base_unit a then Done (false, a) else
    let quote_amount := Ceil (base_amount * price) (quote_unit a) in
    let quote_fee := GetFee a fc quote_amount in
    let total_quote_amount := quote_amount + quote_fee in
    if total_quote_amount >? quote_balance a then Done (false, a) else
    Done (true, set_balances a
      (Round (base_balance a + base_amount) (base_unit a))
      (Round (quote_balance a - total_quote_amount) (quote_unit a))
      (Round (total_fee a + quote_fee) (quote_unit a))).

  (** account.cc:97-115 Account::BuyAtQuote. *)
  Definition BuyAtQuote (fc : fee_config) (quote_amount price max_base_amount : flt)
             (a : account) : exec :=
    assert_ (price >? #0) ;;
    assert_ (quote_amount >=? #0) ;;
    let quote_amount := Round quote_amount (quote_unit a) in
    if (quote_amount <? quote_unit a) || (quote_amount >? quote_balance a)
    then Done (false, a) else
    let quote_fee := GetFee a fc quote_amount in
    if quote_amount <=? quote_fee then Done (false, a) else
    let base_amount :=
      Floor (fmin ((quote_amount - quote_fee) / price) max_base_amount) (base_unit a) in
    if base_amount <? base_unit a then Done (false, a) else
    BuyBase fc base_amount price a.

  (** account.cc:117-135 Account::SellBase. *)
  Definition SellBase (fc : fee_config) (base_amount price : flt) (a : account) : exec :=
    assert_ (price >? #0) ;;
    assert_ (base_amount >=? #0) ;;
    let base_amount := Round base_amount (base_unit a) in
    if (base_amount <? base_unit a) || (base_amount >? base_balance a)
    then Done (false, a) else
    let quote_amount := Floor (base_amount * price) (quote_unit a) in
    let quote_fee := GetFee a fc quote_amount in
    let total_quote_amount := quote_amount - quote_fee in
    if total_quote_amount <? quote_unit a then Done (false, a) else
    Done (true, set_balances a
      (Round (base_balance a - base_amount) (base_unit a))
      (Round (quote_balance a + total_quote_amount) (quote_unit a))
      (Round (total_fee a + quote_fee) (quote_unit a))).

  (** account.cc:137-156 Account::SellAtQuote. *)
  Definition SellAtQuote (fc : fee_config) (quote_amount price max_base_amount : flt)
             (a : account) : exec :=
    assert_ (price >? #0) ;;
    assert_ (quote_amount >=? #0) ;;
    let quote_amount := Round quote_amount (quote_unit a) in
    if quote_amount <? quote_unit a then Done (false, a) else
    let quote_fee := GetFee a fc quote_amount in
    let base_amount :=
      Floor (fmin ((quote_amount + quote_fee) / price) max_base_amount) (base_unit a) in
    if base_amount <? base_unit a then Done (false, a) else
    SellBase fc base_amount price a.

  (** account.cc:158-162 Account::MarketBuy. *)
  Definition MarketBuy (fc : fee_config) (t : ohlc_tick) (base_amount : flt) (a : account) : exec :=
    BuyBase fc base_amount (GetMarketBuyPrice a t) a.

  (** account.cc:164-168 Account::MarketBuyAtQuote (max_base_amount defaults to
      numeric_limits<float>::max(), account.h:75-76). *)
  Definition MarketBuyAtQuote (fc : fee_config) (t : ohlc_tick) (quote_amount : flt)
             (a : account) : exec :=
    BuyAtQuote fc quote_amount (GetMarketBuyPrice a t) fmaxval a.

  (** account.cc:170-174 Account::MarketSell. *)
  Definition MarketSell (fc : fee_config) (t : ohlc_tick) (base_amount : flt) (a : account) : exec :=
    SellBase fc base_amount (GetMarketSellPrice a t) a.

  (** account.cc:176-180 Account::MarketSellAtQuote. *)
  Definition MarketSellAtQuote (fc : fee_config) (t : ohlc_tick) (quote_amount : flt)
             (a : account) : exec :=
    SellAtQuote fc quote_amount (GetMarketSellPrice a t) fmaxval a.

  (** account.cc:182-193 Account::StopBuy. *)
  Definition StopBuy (fc : fee_config) (t : ohlc_tick) (base_amount stop_price : flt)
             (a : account) : exec :=
    assert_ (stop_price >? #0) ;;
    assert_ (base_amount >=? #0) ;;
    if high t <? stop_price then Done (false, a) else
    BuyBase fc base_amount (GetStopBuyPrice a t stop_price) a.

  (** account.cc:195-207 Account::StopBuyAtQuote. *)
  Definition StopBuyAtQuote (fc : fee_config) (t : ohlc_tick) (quote_amount stop_price : flt)
             (a : account) : exec :=
    assert_ (stop_price >? #0) ;;
    assert_ (quote_amount >=? #0) ;;
    if high t <? stop_price then Done (false, a) else
    BuyAtQuote fc quote_amount (GetStopBuyPrice a t stop_price) fmaxval a.

  (** account.cc:209-220 Account::StopSell. *)
  Definition StopSell (fc : fee_config) (t : ohlc_tick) (base_amount stop_price : flt)
             (a : account) : exec :=
    assert_ (stop_price >? #0) ;;
    assert_ (base_amount >=? #0) ;;
    if low t >? stop_price then Done (false, a) else
    SellBase fc base_amount (GetStopSellPrice a t stop_price) a.

  (** account.cc:222-234 Account::StopSellAtQuote. *)
  Definition StopSellAtQuote (fc : fee_config) (t : ohlc_tick) (quote_amount stop_price : flt)
             (a : account) : exec :=
    assert_ (stop_price >? #0) ;;
    assert_ (quote_amount >=? #0) ;;
    if low t >? stop_price then Done (false, a) else
    SellAtQuote fc quote_amount (GetStopSellPrice a t stop_price) fmaxval a.

  (** account.cc:236-247 Account::LimitBuy. *)
  Definition LimitBuy (fc : fee_config) (t : ohlc_tick) (base_amount limit_price : flt)
             (a : account) : exec :=
    assert_ (limit_price >? #0) ;;
    assert_ (base_amount >=? #0) ;;
    if low t >? limit_price then Done (false, a) else
    let base_amount := fmin base_amount (GetMaxBaseAmount a t) in
    BuyBase fc base_amount limit_price a.

  (** account.cc:249-261 Account::LimitBuyAtQuote. *)
  Definition LimitBuyAtQuote (fc : fee_config) (t : ohlc_tick) (quote_amount limit_price : flt)
             (a : account) : exec :=
    assert_ (limit_price >? #0) ;;
    assert_ (quote_amount >=? #0) ;;
    if low t >? limit_price then Done (false, a) else
    let max_base_amount := GetMaxBaseAmount a t in
    BuyAtQuote fc quote_amount limit_price max_base_amount a.

  (** account.cc:263-274 Account::LimitSell. *)
  Definition LimitSell (fc : fee_config) (t : ohlc_tick) (base_amount limit_price : flt)
             (a : account) : exec :=
    assert_ (limit_price >? #0) ;;
    assert_ (base_amount >=? #0) ;;
    if high t <? limit_price then Done (false, a) else
    let base_amount := fmin base_amount (GetMaxBaseAmount a t) in
    SellBase fc base_amount limit_price a.

  (** account.cc:276-288 Account::LimitSellAtQuote. *)
  Definition LimitSellAtQuote (fc : fee_config) (t : ohlc_tick) (quote_amount limit_price : flt)
             (a : account) : exec :=
    assert_ (limit_price >? #0) ;;
    assert_ (quote_amount >=? #0) ;;
    if high t <? limit_price then Done (false, a) else
    let max_base_amount := GetMaxBaseAmount a t in
    SellAtQuote fc quote_amount limit_price max_base_amount a.

  (** account.cc:290-363 Account::ExecuteOrder.  The default branch of the switch
      is unreachable: Order::Type has three values and proto2 setters and parsers
      store no others.  The asserts on side() and on the amount case are kept. *)
  Definition ExecuteOrder (c : account_config) (o : order) (t : ohlc_tick) (a : account) : exec :=
    assert_ (IsValidOrder o) ;;
    match get_type o with
    | MARKET =>
      if is_buy (get_side o) then
        if is_base_amount o then
          MarketBuy (market_order_fee_config c) t (get_base_amount o) a
        else
          assert_ (is_quote_amount o) ;;
          MarketBuyAtQuote (market_order_fee_config c) t (get_quote_amount o) a
      else
        assert_ (negb (is_buy (get_side o))) ;;
        if is_base_amount o then
          MarketSell (market_order_fee_config c) t (get_base_amount o) a
        else
          assert_ (is_quote_amount o) ;;
          MarketSellAtQuote (market_order_fee_config c) t (get_quote_amount o) a
    | STOP =>
      if is_buy (get_side o) then
        if is_base_amount o then
          StopBuy (stop_order_fee_config c) t (get_base_amount o) (get_price o) a
        else
          assert_ (is_quote_amount o) ;;
          StopBuyAtQuote (stop_order_fee_config c) t (get_quote_amount o) (get_price o) a
      else
        assert_ (negb (is_buy (get_side o))) ;;
        if is_base_amount o then
          StopSell (stop_order_fee_config c) t (get_base_amount o) (get_price o) a
        else
          assert_ (is_quote_amount o) ;;
          StopSellAtQuote (stop_order_fee_config c) t (get_quote_amount o) (get_price o) a
    | LIMIT =>
      if is_buy (get_side o) then
        if is_base_amount o then
          LimitBuy (limit_order_fee_config c) t (get_base_amount o) (get_price o) a
        else
          assert_ (is_quote_amount o) ;;
          LimitBuyAtQuote (limit_order_fee_config c) t (get_quote_amount o) (get_price o) a
      else
        assert_ (negb (is_buy (get_side o))) ;;
        if is_base_amount o then
          LimitSell (limit_order_fee_config c) t (get_base_amount o) (get_price o) a
        else
          assert_ (is_quote_amount o) ;;
          LimitSellAtQuote (limit_order_fee_config c) t (get_quote_amount o) (get_price o) a
    end.
End Account.
