(** What the exchange account is supposed to do, in terms of real numbers.  Nothing here
    refers to the program's own rounding, fee or price functions. *)

From Coq Require Import Reals ZArith List Lra.
From Verif.Model Require Import Outcome Machine Types.
From Verif.Model Require Import MachineR.
Local Open Scope R_scope.

(** x is a whole number of units (a unit of zero means: no units, any amount will do). *)
Definition whole_units (u x : R) : Prop := u = 0 \/ exists k : Z, x = IZR k * u.

(** y is x rounded up / down / to the nearest (half up) whole number of units. *)
Definition rounded_up (u x y : R) : Prop :=
  whole_units u y /\ (if Req_EM_T u 0 then y = x else x <= y < x + u).
Definition rounded_down (u x y : R) : Prop :=
  whole_units u y /\ (if Req_EM_T u 0 then y = x else y <= x < y + u).
Definition rounded_near (u x y : R) : Prop :=
  whole_units u y /\ (if Req_EM_T u 0 then y = x else y - u / 2 <= x < y + u / 2).

Section Spec.
  Context {sh : R -> String.string} {as_ : bool}.
  Local Notation E := (exact sh as_).

  (** The fee for trading a quote amount: the larger of the minimum fee and the fixed plus
      relative fee, rounded up to the quote unit. *)
  Definition fee_due (fc : @fee_config E) (u amount f : R) : Prop :=
    rounded_up u (Rmax (minimum_fee fc) (fixed_fee fc + relative_fee fc * amount)) f.

  Record sane_fees (fc : @fee_config E) : Prop := SaneFees {
    sf_rel : 0 <= (relative_fee fc : R);
    sf_fixed : 0 <= (fixed_fee fc : R);
    sf_min : 0 <= (minimum_fee fc : R)
  }.

  Record sane_config (c : @account_config E) : Prop := SaneConfig {
    sc_market : sane_fees (market_order_fee_config c);
    sc_stop : sane_fees (stop_order_fee_config c);
    sc_limit : sane_fees (limit_order_fee_config c)
  }.

  (** Balances are non-negative whole numbers of units. *)
  Record sane_account (a : @account E) : Prop := SaneAccount {
    sa_base_unit : 0 <= (base_unit a : R);
    sa_quote_unit : 0 <= (quote_unit a : R);
    sa_base : 0 <= (base_balance a : R);
    sa_quote : 0 <= (quote_balance a : R);
    sa_base_whole : whole_units (base_unit a) (base_balance a);
    sa_quote_whole : whole_units (quote_unit a) (quote_balance a);
    sa_fee_whole : whole_units (quote_unit a) (total_fee a);
    sa_liquidity : 0 <= (market_liquidity a : R) <= 1;
    sa_ratio : 0 <= (max_volume_ratio a : R)
  }.

  (** An OHLC tick as the readers accept it. *)
  Record sane_tick (t : @ohlc_tick E) : Prop := SaneTick {
    st_low : 0 < (low t : R);
    st_low_open : (low t : R) <= open t;
    st_open_high : (open t : R) <= high t;
    st_low_close : (low t : R) <= close t;
    st_close_high : (close t : R) <= high t;
    st_volume : 0 <= (volume t : R)
  }.

  (** The price at which an order is executed on a tick by an exchange of liquidity l. *)
  Definition between (l x y : R) : R := l * x + (1 - l) * y.

  Definition execution_price (l : R) (ty : order_type) (sd : order_side) (limit : R)
             (t : @ohlc_tick E) : R :=
    match ty, sd with
    | MARKET, BUY => between l (open t) (high t)
    | MARKET, SELL => between l (open t) (low t)
    | STOP, BUY => between l (Rmax limit (open t)) (high t)
    | STOP, SELL => between l (Rmin limit (open t)) (low t)
    | LIMIT, _ => limit
    end.

  (** Does the tick's price range reach the order's price? *)
  Definition triggered (ty : order_type) (sd : order_side) (limit : R) (t : @ohlc_tick E) : Prop :=
    match ty, sd with
    | MARKET, _ => True
    | STOP, BUY => limit <= high t
    | STOP, SELL => (low t : R) <= limit
    | LIMIT, BUY => (low t : R) <= limit
    | LIMIT, SELL => limit <= high t
    end.

  Definition fees_of (c : @account_config E) (ty : order_type) : @fee_config E :=
    match ty with
    | MARKET => market_order_fee_config c
    | STOP => stop_order_fee_config c
    | LIMIT => limit_order_fee_config c
    end.

  (** One executed trade. *)
  Record trade : Type := Trade {
    tr_side : order_side;
    tr_price : R;       (* execution price *)
    tr_base : R;        (* base amount *)
    tr_quote : R;       (* quote amount without fee *)
    tr_fee : R
  }.

  (** The account after a trade: nothing but these three numbers changes. *)
  Definition booked (a : @account E) (tr : trade) (a' : @account E) : Prop :=
    (match tr_side tr with
     | BUY => (base_balance a' : R) = base_balance a + tr_base tr
              /\ (quote_balance a' : R) = quote_balance a - tr_quote tr - tr_fee tr
     | SELL => (base_balance a' : R) = base_balance a - tr_base tr
               /\ (quote_balance a' : R) = quote_balance a + tr_quote tr - tr_fee tr
     end)
    /\ (total_fee a' : R) = total_fee a + tr_fee tr
    /\ base_unit a' = base_unit a /\ quote_unit a' = quote_unit a
    /\ market_liquidity a' = market_liquidity a /\ max_volume_ratio a' = max_volume_ratio a.

  (** The trade obeys the rules of the exchange. *)
  Record fair_trade (fc : @fee_config E) (a : @account E) (tr : trade) : Prop := FairTrade {
    ft_base_whole : whole_units (base_unit a) (tr_base tr);
    ft_base_min : (base_unit a : R) <= tr_base tr;
    ft_base_nonneg : 0 <= tr_base tr;
    ft_quote :
      match tr_side tr with
      | BUY => rounded_up (quote_unit a) (tr_base tr * tr_price tr) (tr_quote tr)
      | SELL => rounded_down (quote_unit a) (tr_base tr * tr_price tr) (tr_quote tr)
      end;
    ft_fee : fee_due fc (quote_unit a) (tr_quote tr) (tr_fee tr);
    ft_covered :
      match tr_side tr with
      | BUY => tr_quote tr + tr_fee tr <= quote_balance a
      | SELL => tr_base tr <= base_balance a /\ (quote_unit a : R) <= tr_quote tr - tr_fee tr
      end
  }.

  (** A well-formed order with all its parts. *)
  Inductive order_parts (o : @order E) (ty : order_type) (sd : order_side) (limit : R)
    : @order_amount E -> Prop :=
  | OrderParts am :
      o_type o = Some ty -> o_side o = Some sd ->
      (ty = MARKET \/ (o_price o = Some limit /\ 0 < limit)) ->
      o_amount o = am ->
      (match am with NoAmount => False | BaseAmount x => 0 < (x : R) | QuoteAmount x => 0 < (x : R) end) ->
      order_parts o ty sd limit am.

  Definition well_formed (o : @order E) : Prop := exists ty sd limit am, order_parts o ty sd limit am.

  (** The most a limit order may trade on a tick; without a volume ratio, the largest
      float. *)
  Definition volume_cap (a : @account E) (t : @ohlc_tick E) (cap : R) : Prop :=
    if Rlt_dec 0 (max_volume_ratio a)
    then rounded_down (base_unit a) (max_volume_ratio a * volume t) cap
    else cap = rmaxval.

  (** How the traded amount relates to the amount asked for. *)
  Definition amount_respected (a : @account E) (t : @ohlc_tick E) (ty : order_type)
             (am : @order_amount E) (tr : trade) : Prop :=
    match am with
    | NoAmount => False
    | BaseAmount x =>
      match ty with
      | LIMIT => exists cap, volume_cap a t cap
                             /\ rounded_near (base_unit a) (Rmin x cap) (tr_base tr)
      | _ => rounded_near (base_unit a) x (tr_base tr)
      end
    | QuoteAmount x =>
      exists q, rounded_near (quote_unit a) x q /\
        match tr_side tr with
        | BUY => tr_quote tr + tr_fee tr <= q
        | SELL => tr_quote tr - tr_fee tr <= q
        end
    end.

  (** The value of the account's holdings, plus the fees paid, at a price. *)
  Definition value_with_fees (a : @account E) (p : R) : R :=
    base_balance a * p + quote_balance a + total_fee a.
  Definition value (a : @account E) (p : R) : R := base_balance a * p + quote_balance a.

  (** The account after a list of trades. *)
  Inductive booked_all : @account E -> list (@fee_config E * trade) -> @account E -> Prop :=
  | booked_none a : booked_all a nil a
  | booked_some a fc tr a1 trs a2 :
      fair_trade fc a tr -> booked a tr a1 -> booked_all a1 trs a2 ->
      booked_all a (cons (fc, tr) trs) a2.

  Definition sum_fees (trs : list (@fee_config E * trade)) : R :=
    fold_right (fun x s => tr_fee (snd x) + s) 0 trs.
  Definition sum_base (trs : list (@fee_config E * trade)) : R :=
    fold_right (fun x s => (match tr_side (snd x) with BUY => tr_base (snd x)
                                                     | SELL => - tr_base (snd x) end) + s) 0 trs.
  Definition sum_quote (trs : list (@fee_config E * trade)) : R :=
    fold_right (fun x s => (match tr_side (snd x) with BUY => - tr_quote (snd x)
                                                     | SELL => tr_quote (snd x) end) + s) 0 trs.

  (** What a base order may trade at most on this tick: the amount, and for limit orders the
      volume cap. *)
  Definition asked_base (a : @account E) (t : @ohlc_tick E) (ty : order_type) (x r : R) : Prop :=
    match ty with
    | LIMIT => exists cap, volume_cap a t cap /\ r = Rmin x cap
    | _ => r = x
    end.
End Spec.

(** A sequence of orders, each tried on some tick (any machine). *)
Definition exec_all {M : machine}
           (execute : @order M -> @ohlc_tick M -> @account M -> outcome (bool * @account M))
           (a : @account M) (l : list (@order M * @ohlc_tick M)) : outcome (@account M) :=
  foldM (fun a ot => bind (execute (fst ot) (snd ot) a) (fun r => Done (snd r))) a l.
