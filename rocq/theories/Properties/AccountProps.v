(** C01-C14: the exchange account. *)
From Coq Require Import Reals ZArith Bool List Lra Lia.
From Flocq Require Import Core BinarySingleNaN.
From Verif.Model Require Import Outcome Machine Types Account MachineR MachineIEEE.
From Verif.Spec Require Import AccountSpec AccountIEEESpec OrderSpec.
From Verif.Proofs Require Import Base FloatLemmas AccountAny AccountExact AccountIEEE.
Import ListNotations.
Local Open Scope R_scope.

(** ** C01 A rejected order has no effect.  Any machine. *)
Theorem C01_rejected_order_no_effect (M : machine) (c : account_config) (o : order) (t : ohlc_tick)
        (a a' : account) (ok : bool) :
  ExecuteOrder c o t a = Done (ok, a') ->
  (ok = false -> a' = a) /\
  base_unit a' = base_unit a /\ quote_unit a' = quote_unit a /\
  market_liquidity a' = market_liquidity a /\ max_volume_ratio a' = max_volume_ratio a.
Proof. exact (ExecuteOrder_all c o t a ok a'). Qed.

(** The same for each public method of the account. *)
Theorem C01_methods (M : machine) (fc : fee_config) (t : ohlc_tick) (x p m : flt) :
  all_or_nothing (BuyBase fc x p) /\ all_or_nothing (SellBase fc x p) /\
  all_or_nothing (BuyAtQuote fc x p m) /\ all_or_nothing (SellAtQuote fc x p m) /\
  all_or_nothing (MarketBuy fc t x) /\ all_or_nothing (MarketSell fc t x) /\
  all_or_nothing (MarketBuyAtQuote fc t x) /\ all_or_nothing (MarketSellAtQuote fc t x) /\
  all_or_nothing (StopBuy fc t x p) /\ all_or_nothing (StopSell fc t x p) /\
  all_or_nothing (StopBuyAtQuote fc t x p) /\ all_or_nothing (StopSellAtQuote fc t x p) /\
  all_or_nothing (LimitBuy fc t x p) /\ all_or_nothing (LimitSell fc t x p) /\
  all_or_nothing (LimitBuyAtQuote fc t x p) /\ all_or_nothing (LimitSellAtQuote fc t x p).
Proof.
  exact (conj (BuyBase_all fc x p) (conj (SellBase_all fc x p) (conj (BuyAtQuote_all fc x p m)
    (conj (SellAtQuote_all fc x p m) (conj (MarketBuy_all fc t x) (conj (MarketSell_all fc t x)
    (conj (MarketBuyAtQuote_all fc t x) (conj (MarketSellAtQuote_all fc t x) (conj (StopBuy_all fc t x p)
    (conj (StopSell_all fc t x p) (conj (StopBuyAtQuote_all fc t x p) (conj (StopSellAtQuote_all fc t x p)
    (conj (LimitBuy_all fc t x p) (conj (LimitSell_all fc t x p) (conj (LimitBuyAtQuote_all fc t x p)
    (LimitSellAtQuote_all fc t x p)))))))))))))))).
Qed.

(** ** C12 Orders are dispatched by type, side and amount kind.  Any machine. *)
Theorem C12_dispatch (M : machine) (c : account_config) (o : order) (t : ohlc_tick) (a : account) ty sd am p :
  order_is o ty sd am p -> operation c t a ty sd am p = Some (ExecuteOrder c o t a).
Proof. exact (dispatch c o t a ty sd am p). Qed.

Theorem C12_malformed_aborts (M : machine) (c : account_config) (o : order) (t : ohlc_tick) (a : account) :
  asserts_on = true -> ~ well_formed_order o -> ExecuteOrder c o t a = AssertFail.
Proof. exact (malformed_aborts c o t a). Qed.

(** Example: every combination of type, side and kind of amount is an [order_is]. *)
Lemma C12_non_vacuous ty sd :
  let one := f32_of_Z 1 in
  forall lm as_ (b : bool),
  let am := if b then @BaseAmount (ieee lm as_) one else @QuoteAmount (ieee lm as_) one in
  @order_is (ieee lm as_) (Order (Some ty) (Some sd) am (Some one)) ty sd am one.
Proof.
  intros one lm as_ b am. destruct ty.
  - apply order_is_market; try reflexivity. subst am; destruct b; reflexivity.
  - apply order_is_priced; try reflexivity; [discriminate|]. subst am; destruct b; reflexivity.
  - apply order_is_priced; try reflexivity; [discriminate|]. subst am; destruct b; reflexivity.
Qed.

Section Exact.
  Context (sh : R -> String.string) (as_ : bool).
  Local Notation E := (exact sh as_).

  (** ** C03, C04 Settlement of a buy / sell of a base amount x at price p.
      b is x rounded to the base unit, c the cost rounded up (proceeds rounded down) to the
      quote unit, f the fee for c. *)
  Theorem C03_buy_settlement (fc : @fee_config E) (x p : R) (a : @account E) b c f :
    sane_account a -> sane_fees fc -> 0 < p -> 0 <= x ->
    rounded_near (base_unit a) x b ->
    rounded_up (quote_unit a) (b * p) c ->
    fee_due fc (quote_unit a) c f ->
    exists ok a', @BuyBase E fc x p a = Done (ok, a') /\
      (ok = true <-> (base_unit a : R) <= b /\ c + f <= quote_balance a) /\
      (ok = true -> (base_balance a' : R) = base_balance a + b /\
                    (quote_balance a' : R) = quote_balance a - (c + f) /\
                    (total_fee a' : R) = total_fee a + f) /\
      (ok = false -> a' = a).
  Proof.
    intros Ha Hf Hp Hx Hb Hc Hfee.
    pose proof (BuyBase_exact fc x p a b c f Ha Hf Hp Hx Hb Hc Hfee) as ->.
    destruct (Rle_dec _ _) as [L1|L1]; [destruct (Rle_dec _ _) as [L2|L2]|];
      eexists _, _; (split; [reflexivity|]); repeat split; auto; try tauto; try discriminate; intros [? ?];
      contradiction.
  Qed.

  Theorem C04_sell_settlement (fc : @fee_config E) (x p : R) (a : @account E) b c f :
    sane_account a -> sane_fees fc -> 0 < p -> 0 <= x ->
    rounded_near (base_unit a) x b ->
    rounded_down (quote_unit a) (b * p) c ->
    fee_due fc (quote_unit a) c f ->
    exists ok a', @SellBase E fc x p a = Done (ok, a') /\
      (ok = true <-> (base_unit a : R) <= b /\ b <= base_balance a /\ (quote_unit a : R) <= c - f) /\
      (ok = true -> (base_balance a' : R) = base_balance a - b /\
                    (quote_balance a' : R) = quote_balance a + (c - f) /\
                    (total_fee a' : R) = total_fee a + f) /\
      (ok = false -> a' = a).
  Proof.
    intros Ha Hf Hp Hx Hb Hc Hfee.
    pose proof (SellBase_exact fc x p a b c f Ha Hf Hp Hx Hb Hc Hfee) as ->.
    destruct (Rle_dec _ _) as [L1|L1]; [destruct (Rle_dec _ _) as [L2|L2];
      [destruct (Rle_dec _ _) as [L3|L3]|]|];
      eexists _, _; (split; [reflexivity|]); repeat split; auto; try tauto; try discriminate;
      intros (? & ? & ?); contradiction.
  Qed.

  (** Every order for a base amount settles this way at its execution price (C09-C11), and
      executes exactly when the tick triggers it and the balances allow it. *)
  Theorem C03_C04_orders (c : @account_config E) (o : @order E) (t : @ohlc_tick E)
          (a : @account E) ty sd limit x r b q f :
    sane_config c -> sane_account a -> sane_tick t ->
    order_parts o ty sd limit (@BaseAmount E x) ->
    asked_base a t ty x r ->
    rounded_near (base_unit a) r b ->
    (match sd with BUY => rounded_up (quote_unit a) (b * execution_price (market_liquidity a) ty sd limit t) q
                 | SELL => rounded_down (quote_unit a) (b * execution_price (market_liquidity a) ty sd limit t) q
     end) ->
    fee_due (fees_of c ty) (quote_unit a) q f ->
    exists ok a', @ExecuteOrder E c o t a = Done (ok, a') /\
      (ok = true <->
         triggered ty sd limit t /\ (base_unit a : R) <= b /\
         match sd with
         | BUY => q + f <= quote_balance a
         | SELL => b <= base_balance a /\ (quote_unit a : R) <= q - f
         end).
  Proof. exact (ExecuteOrder_base_iff c o t a ty sd limit x r b q f). Qed.

  (** ** C05 The fee follows the schedule. *)
  Theorem C05_fee (a : @account E) (fc : @fee_config E) (x : R) :
    0 <= (quote_unit a : R) ->
    let f : R := @GetFee E a fc x in
    (minimum_fee fc : R) <= f /\
    fixed_fee fc + relative_fee fc * x <= f /\
    whole_units (quote_unit a) f /\
    ((quote_unit a : R) = 0 -> f = Rmax (minimum_fee fc) (fixed_fee fc + relative_fee fc * x)) /\
    (0 < (quote_unit a : R) ->
       f < Rmax (minimum_fee fc) (fixed_fee fc + relative_fee fc * x) + quote_unit a).
  Proof.
    intros Hu f. pose proof (GetFee_due a fc x Hu) as [Hw Hb]. fold f in Hw, Hb.
    pose proof (Rmax_l (minimum_fee fc) (fixed_fee fc + relative_fee fc * x)).
    pose proof (Rmax_r (minimum_fee fc) (fixed_fee fc + relative_fee fc * x)).
    destruct (Req_EM_T (quote_unit a) 0) as [Z|Z].
    - rewrite <- Hb in *. repeat split; auto. intros HH. exfalso. cbn [flt exact] in *. lra.
    - repeat split; auto; lra.
  Qed.

  Theorem C05_fee_mono (a : @account E) (fc : @fee_config E) (x y : R) :
    0 <= (quote_unit a : R) -> sane_fees fc -> x <= y ->
    (@GetFee E a fc x : R) <= @GetFee E a fc y.
  Proof.
    intros Hu Hf Hxy. apply (fee_due_mono fc (quote_unit a) x y); auto using GetFee_due.
  Qed.

  (** ** C06, C09-C11, C07, C08, C13, C14: one order attempt.  It never aborts; it is either
      rejected without effect or one fair trade at the execution price of its kind. *)
  Theorem account_order (c : @account_config E) (o : @order E) (t : @ohlc_tick E)
          (a : @account E) ty sd limit am :
    sane_config c -> sane_account a -> sane_tick t -> order_parts o ty sd limit am ->
    exists ok a', @ExecuteOrder E c o t a = Done (ok, a') /\
      (ok = false -> a' = a) /\
      (ok = true ->
         triggered ty sd limit t /\
         exists tr, tr_side tr = sd
           /\ tr_price tr = execution_price (market_liquidity a) ty sd limit t
           /\ fair_trade (fees_of c ty) a tr
           /\ booked a tr a'
           /\ amount_respected a t ty am tr
           /\ (ty = LIMIT -> 0 < (max_volume_ratio a : R) ->
               tr_base tr <= max_volume_ratio a * volume t)).
  Proof. exact (ExecuteOrder_trade c o t a ty sd limit am). Qed.

  (** ** C06 No value is created at the execution price, by one order ... *)
  Theorem C06_no_value_created (c : @account_config E) (o : @order E) (t : @ohlc_tick E)
          (a a' : @account E) ty sd limit am ok :
    sane_config c -> sane_account a -> sane_tick t -> order_parts o ty sd limit am ->
    @ExecuteOrder E c o t a = Done (ok, a') -> ok = true ->
    let p := execution_price (market_liquidity a) ty sd limit t in
    base_balance a' * p + quote_balance a' + total_fee a'
      <= base_balance a * p + quote_balance a + total_fee a.
  Proof.
    intros Hc Ha Ht Ho H Hok. destruct (ExecuteOrder_trade c o t a ty sd limit am Hc Ha Ht Ho)
      as (ok' & a'' & H' & _ & Htr). rewrite H in H'. injection H' as <- <-.
    destruct (Htr Hok) as (_ & tr & _ & Hp & Hf & Hb & _).
    pose proof (booked_value _ _ _ _ Hf Hb) as Hv. rewrite Hp in Hv. exact Hv.
  Qed.

  (** ... nor by any sequence of orders: a sequence of orders is a sequence of fair trades,
      and if they all happen at price p the holdings plus the fees paid have not grown. *)
  Theorem C06_sequence (c : @account_config E) (l : list (@order E * @ohlc_tick E)) (a : @account E) :
    sane_config c -> sane_account a ->
    Forall (fun ot => well_formed (fst ot) /\ sane_tick (snd ot)) l ->
    exists trs a', exec_all (@ExecuteOrder E c) a l = Done a' /\ booked_all a trs a' /\
      forall p, Forall (fun x => tr_price (snd x) = p) trs ->
        value a' p + (total_fee a' - total_fee a) <= value a p.
  Proof.
    intros Hc Ha Hl. destruct (exec_all_trades c l a Hc Ha Hl) as (trs & a' & H & Hb & _).
    exists trs, a'. repeat split; auto. intros p Hp.
    pose proof (booked_all_value a trs a' p Hb Hp) as Hv.
    unfold value_with_fees, value in *. cbn [flt exact] in *. lra.
  Qed.

  (** ** C07, C08 Orders for a quote amount: the amount is rounded to the nearest quote unit
      (q); a buy spends at most q, a sell receives at most q. *)
  Theorem C07_buy_at_quote (c : @account_config E) (o : @order E) (t : @ohlc_tick E)
          (a a' : @account E) ty limit x :
    sane_config c -> sane_account a -> sane_tick t ->
    order_parts o ty BUY limit (@QuoteAmount E x) ->
    @ExecuteOrder E c o t a = Done (true, a') ->
    let spent := quote_balance a - quote_balance a' in
    (exists q, rounded_near (quote_unit a) x q /\ spent <= q) /\
    spent <= x + quote_unit a / 2 /\
    (whole_units (quote_unit a) x -> spent <= x).
  Proof. exact (buy_at_quote_spends c o t a a' ty limit x). Qed.

  Theorem C08_sell_at_quote (c : @account_config E) (o : @order E) (t : @ohlc_tick E)
          (a a' : @account E) ty limit x :
    sane_config c -> sane_account a -> sane_tick t ->
    order_parts o ty SELL limit (@QuoteAmount E x) ->
    @ExecuteOrder E c o t a = Done (true, a') ->
    let received := quote_balance a' - quote_balance a in
    (exists q, rounded_near (quote_unit a) x q /\ received <= q) /\
    received <= x + quote_unit a / 2 /\
    (whole_units (quote_unit a) x -> received <= x).
  Proof. exact (sell_at_quote_receives c o t a a' ty limit x). Qed.

  (** ** C09, C10, C11 Trigger and execution price.  The traded base and quote amounts
      (tr) are settled at tr_price; here is where that price lies. *)
  Theorem C09_market_order (c : @account_config E) (o : @order E) (t : @ohlc_tick E)
          (a a' : @account E) sd limit am :
    sane_config c -> sane_account a -> sane_tick t -> order_parts o MARKET sd limit am ->
    @ExecuteOrder E c o t a = Done (true, a') ->
    exists tr, tr_side tr = sd /\ fair_trade (market_order_fee_config c) a tr /\ booked a tr a' /\
      match sd with
      | BUY => (open t : R) <= tr_price tr <= high t
      | SELL => (low t : R) <= tr_price tr <= open t
      end /\
      ((market_liquidity a : R) = 1 -> tr_price tr = open t) /\
      ((market_liquidity a : R) = 0 -> tr_price tr = match sd with BUY => high t | SELL => low t end).
  Proof. exact (market_order_price c o t a a' sd limit am). Qed.

  (** More liquidity never gives a worse price. *)
  Theorem C09_liquidity (a1 a2 : @account E) (t : @ohlc_tick E) :
    sane_tick t -> (market_liquidity a1 : R) <= market_liquidity a2 ->
    (@GetMarketBuyPrice E a2 t : R) <= @GetMarketBuyPrice E a1 t /\
    (@GetMarketSellPrice E a1 t : R) <= @GetMarketSellPrice E a2 t.
  Proof. exact (liquidity_price a1 a2 t). Qed.

  Theorem C10_stop_order (c : @account_config E) (o : @order E) (t : @ohlc_tick E)
          (a a' : @account E) sd stop am :
    sane_config c -> sane_account a -> sane_tick t -> order_parts o STOP sd stop am ->
    @ExecuteOrder E c o t a = Done (true, a') ->
    exists tr, tr_side tr = sd /\ fair_trade (stop_order_fee_config c) a tr /\ booked a tr a' /\
      match sd with
      | BUY => stop <= high t /\ stop <= tr_price tr /\ (open t : R) <= tr_price tr <= high t
      | SELL => (low t : R) <= stop /\ tr_price tr <= stop /\ (low t : R) <= tr_price tr <= open t
      end.
  Proof. exact (stop_order_price c o t a a' sd stop am). Qed.

  Theorem C11_limit_order (c : @account_config E) (o : @order E) (t : @ohlc_tick E)
          (a a' : @account E) sd limit am :
    sane_config c -> sane_account a -> sane_tick t -> order_parts o LIMIT sd limit am ->
    @ExecuteOrder E c o t a = Done (true, a') ->
    exists tr, tr_side tr = sd /\ fair_trade (limit_order_fee_config c) a tr /\ booked a tr a' /\
      tr_price tr = limit /\
      match sd with BUY => (low t : R) <= limit | SELL => limit <= high t end /\
      (0 < (max_volume_ratio a : R) -> tr_base tr <= max_volume_ratio a * volume t).
  Proof. exact (limit_order_price c o t a a' sd limit am). Qed.

  (** Triggering is also sufficient: see C03_C04_orders (an order for a base amount is executed
      exactly when triggered and covered). *)

  (** ** C13 The accumulated fee is the sum of the fees and never decreases;
      the balances are the sums of what was traded. *)
  Theorem C13_fees (c : @account_config E) (l : list (@order E * @ohlc_tick E)) (a : @account E) :
    sane_config c -> sane_account a ->
    Forall (fun ot => well_formed (fst ot) /\ sane_tick (snd ot)) l ->
    exists trs a', exec_all (@ExecuteOrder E c) a l = Done a' /\ booked_all a trs a' /\
      (length trs <= length l)%nat /\
      Forall (fun x => 0 <= tr_fee (snd x)) trs /\
      (total_fee a' : R) = total_fee a + sum_fees trs /\
      (total_fee a : R) <= total_fee a' /\
      (base_balance a' : R) = base_balance a + sum_base trs /\
      (quote_balance a' : R) = quote_balance a + sum_quote trs - sum_fees trs.
  Proof. exact (exec_all_fees c l a). Qed.

  (** ** C02, C14 (exact) Balances stay non-negative and whole numbers of units. *)
  Theorem C14_whole_units (c : @account_config E) (l : list (@order E * @ohlc_tick E)) (a : @account E) :
    sane_config c -> sane_account a ->
    Forall (fun ot => well_formed (fst ot) /\ sane_tick (snd ot)) l ->
    exists a', exec_all (@ExecuteOrder E c) a l = Done a' /\
      0 <= (base_balance a' : R) /\ 0 <= (quote_balance a' : R) /\
      whole_units (base_unit a) (base_balance a') /\
      whole_units (quote_unit a) (quote_balance a') /\
      whole_units (quote_unit a) (total_fee a').
  Proof. exact (exec_all_whole_exact c l a). Qed.
End Exact.

(** *** The hypotheses can be met: an account with 10 base at unit 1/8 and 1000 quote at unit
    1/4, fees 1% with minimum 1/2, liquidity 1/2, volume ratio 1/4, and a buy and a sell. *)
Section ExactExample.
  Context (sh : R -> String.string) (as_ : bool).
  Local Notation E := (exact sh as_).
  Definition ex_fees : @fee_config E := @FeeConfig E (1 / 100) 0 (1 / 2).
  Definition ex_config : @account_config E :=
    @AccountConfig E 10 1000 (1 / 8) (1 / 4) ex_fees ex_fees ex_fees (1 / 2) (1 / 4).
  Definition ex_tick : @ohlc_tick E := @OhlcTick E 300 100 110 90 105 1000.
  Definition ex_buy : @order E := @Order E (Some MARKET) (Some BUY) (@BaseAmount E 2) None.
  Definition ex_sell : @order E := @Order E (Some STOP) (Some SELL) (@QuoteAmount E 150) (Some 95).

  Lemma exact_hypotheses_met :
    sane_config ex_config /\ sane_account (@InitAccount E ex_config) /\ sane_tick ex_tick /\
    order_parts ex_buy MARKET BUY 0 (@BaseAmount E 2) /\
    order_parts ex_sell STOP SELL 95 (@QuoteAmount E 150) /\
    Forall (fun ot => well_formed (fst ot) /\ sane_tick (snd ot)) [(ex_buy, ex_tick); (ex_sell, ex_tick)].
  Proof.
    assert (F : sane_fees ex_fees) by (split; cbn; lra).
    assert (T : sane_tick ex_tick) by (split; cbn; lra).
    assert (O1 : order_parts ex_buy MARKET BUY 0 (@BaseAmount E 2)).
    { split; auto; cbn; lra. }
    assert (O2 : order_parts ex_sell STOP SELL 95 (@QuoteAmount E 150)).
    { split; auto; [right; split; [reflexivity|lra]|cbn; lra]. }
    split; [split; exact F|]. split.
    { split; try (cbn; lra); right; [exists 80%Z|exists 4000%Z|exists 0%Z]; cbn; lra. }
    split; [exact T|]. split; [exact O1|]. split; [exact O2|].
    apply Forall_cons; [|apply Forall_cons; [|apply Forall_nil]]; (split; [|exact T]).
    - exists MARKET, BUY, 0, (@BaseAmount E 2). exact O1.
    - exists STOP, SELL, 95, (@QuoteAmount E 150). exact O2.
  Qed.

  (** The buy is executed: 2 base at price 105 cost 210 plus a fee of 2.25 (2.1 rounded up). *)
  Lemma exact_buy_executes :
    exists a', @ExecuteOrder E ex_config ex_buy ex_tick (@InitAccount E ex_config) = Done (true, a').
  Proof.
    destruct exact_hypotheses_met as (Hc & Ha & Ht & Ho & _).
    destruct (C03_C04_orders sh as_ ex_config ex_buy ex_tick (@InitAccount E ex_config) MARKET BUY 0 2 2 2 210 (9 / 4)
                Hc Ha Ht Ho) as (ok & a' & H & Hiff).
    - reflexivity.
    - split; [right; exists 16%Z; cbn; lra|]. cbn. destruct (Req_EM_T _ _); lra.
    - split; [right; exists 840%Z; cbn; lra|]. cbn; unfold between. destruct (Req_EM_T _ _); lra.
    - split; [right; exists 9%Z; cbn; lra|]. cbn. rewrite Rmax_right by lra. destruct (Req_EM_T _ _); lra.
    - exists a'. destruct ok; [exact H|]. exfalso. assert (false = true); [|discriminate].
      apply Hiff. cbn. repeat split; lra.
  Qed.
End ExactExample.

(** ** IEEE arithmetic: what the compiled program does. *)
Section IEEE.
  Context (lm : libm) (as_ : bool).
  Local Notation I := (ieee lm as_).

  (** ** C02 Balances never become negative, NaN or infinite, and well-formed orders never
      abort (C12), as long as no balance has exceeded 2^40 on the way. *)
  Theorem C02_balances_nonneg (c : @account_config I) (l : list (@order I * @ohlc_tick I)) (a : @account I) :
    ok_config c -> ok_settings a -> balances_ok a ->
    Forall (fun ot => ok_order (fst ot) /\ ok_tick (snd ot)) l ->
    (forall l1 l2 a1, l = l1 ++ l2 -> l2 <> [] ->
       exec_all (@ExecuteOrder I c) a l1 = Done a1 -> not_exceeded a1) ->
    exists a', exec_all (@ExecuteOrder I c) a l = Done a' /\ balances_ok a'.
  Proof. exact (exec_all_good c l a). Qed.

  (** ** C14 Balances stay float multiples of the units. *)
  Theorem C14_float_units (c : @account_config I) l (a : @account I) a' :
    ok_config c -> ok_settings a -> balances_ok a ->
    Forall (fun ot => ok_order (fst ot) /\ ok_tick (snd ot)) l ->
    (forall l1 l2 a1, l = l1 ++ l2 -> l2 <> [] ->
       exec_all (@ExecuteOrder I c) a l1 = Done a1 -> not_exceeded a1) ->
    exec_all (@ExecuteOrder I c) a l = Done a' -> float_whole a -> float_whole a'.
  Proof. exact (exec_all_whole c l a a'). Qed.

  (** ** C05 The fee is a whole number of units and monotone in the amount, in floats too. *)
  Theorem C05_fee_float (a : @account I) fc (x y : @flt I) :
    ok_fees fc -> ok_unit (quote_unit a) ->
    in_range 0 (bpow radix2 96) x -> in_range 0 (bpow radix2 96) y ->
    B2R (x : f32) <= B2R (y : f32) ->
    is_finite (@GetFee I a fc x : f32) = true /\
    float_units (quote_unit a) (@GetFee I a fc x) /\
    0 <= B2R (@GetFee I a fc x : f32) <= B2R (@GetFee I a fc y : f32).
  Proof.
    intros Hf Hu Hx Hy Hle.
    pose proof (GetFee_nneg 96 a fc x ltac:(lia) Hf Hu Hx) as [F H].
    destruct (ok_unit_sign _ Hu) as [Fu H0].
    repeat split; auto; [apply GetFee_whole; auto|apply H|].
    apply (GetFee_mono 96); auto. lia.
  Qed.

  (** A concrete order sequence meets the hypotheses of C02. *)
End IEEE.

Section Examples.
  Context {lm : libm} {as_ : bool}.
  Local Notation I := (ieee lm as_).
  Definition n (z : Z) : @flt I := f32_of_Z z.
  Definition fx_fees : @fee_config I := @FeeConfig I (f32_of_Z 0) (f32_of_Z 0) (f32_of_Z 1).
  Definition fx_config : @account_config I :=
    @AccountConfig I (n 10) (n 1000) (n 1) (n 1) fx_fees fx_fees fx_fees (n 1) (n 1).
  Definition fx_tick : @ohlc_tick I := @OhlcTick I 300 (n 100) (n 110) (n 90) (n 105) (n 1000).
  Definition fx_buy : @order I := @Order I (Some MARKET) (Some BUY) (@BaseAmount I (n 2)) None.
  Definition fx_sell : @order I := @Order I (Some LIMIT) (Some SELL) (@BaseAmount I (n 3)) (Some (n 108)).


  (** The numbers of the refutations below. *)
  Definition three_halves : @flt I := Bdiv mode_NE (f32_of_Z 3) (f32_of_Z 2).
  Definition free : @fee_config I := @FeeConfig I (n 0) (n 0) (n 0).
  Definition free_config : @account_config I :=
    @AccountConfig I (n 0) (n 10) (n 1) (n 1) free free free (n 1) (n 0).
  Definition flat1 : @ohlc_tick I := @OhlcTick I 300 (n 1) (n 1) (n 1) (n 1) (n 1).
End Examples.

Section IEEE2.
  Context (lm : libm) (as_ : bool).
  Local Notation I := (ieee lm as_).
  Local Notation n := (@n lm as_).
  Local Notation fx_fees := (@fx_fees lm as_).
  Local Notation fx_config := (@fx_config lm as_).
  Local Notation fx_tick := (@fx_tick lm as_).
  Local Notation fx_buy := (@fx_buy lm as_).
  Local Notation fx_sell := (@fx_sell lm as_).
  Local Notation three_halves := (@three_halves lm as_).
  Local Notation free := (@free lm as_).
  Local Notation free_config := (@free_config lm as_).
  Local Notation flat1 := (@flat1 lm as_).

  Lemma n_range lo hi z : (Z.abs z <= 2 ^ 24)%Z -> lo <= IZR z <= hi -> in_range lo hi (n z).
  Proof. intros Hz H. destruct (ofZ_finite z Hz) as [F E]. split; auto. unfold n. rewrite E. exact H. Qed.

  Lemma ieee_hypotheses_met :
    let l := [(fx_buy, fx_tick); (fx_sell, fx_tick)] in
    let a := @InitAccount I fx_config in
    ok_config fx_config /\ ok_settings a /\ balances_ok a /\
    Forall (fun ot => ok_order (fst ot) /\ ok_tick (snd ot)) l /\
    (forall l1 l2 a1, l = l1 ++ l2 -> l2 <> [] ->
       exec_all (@ExecuteOrder I fx_config) a l1 = Done a1 -> not_exceeded a1) /\
    (exists a', exec_all (@ExecuteOrder I fx_config) a l = Done a' /\
       B2SF (base_balance a' : f32) = B2SF (n 9) /\ B2SF (quote_balance a' : f32) = B2SF (n 1122) /\
       B2SF (total_fee a' : f32) = B2SF (n 2)).
  Proof.
    cbv zeta.
    assert (Hp : forall z, (1 <= z <= 1000)%Z -> ok_price (n z)).
    { intros z Hz. apply n_range; [lia|]. split.
      - apply Rle_trans with 1; [change 1 with (bpow radix2 0); apply bpow_le; lia|apply IZR_le; lia].
      - change (bpow radix2 26) with (IZR (2 ^ 26)). apply IZR_le. lia. }
    assert (Ha : forall z, (0 <= z <= 1000)%Z -> ok_amount (n z)).
    { intros z Hz. apply n_range; [lia|]. split; [apply IZR_le; lia|].
      change (bpow radix2 40) with (IZR (2 ^ 40)). apply IZR_le. lia. }
    assert (Ho : forall z, (1 <= z <= 1000)%Z -> ok_order_amount (@BaseAmount I (n z))).
    { intros z Hz. split; [apply n_range; [lia|]; split; [apply IZR_le; lia|]|].
      - change (bpow radix2 60) with (IZR (2 ^ 60)). apply IZR_le. lia.
      - unfold n. rewrite (proj2 (ofZ_finite z ltac:(lia))). apply IZR_lt. lia. }
    assert (Hf : ok_fees fx_fees).
    { split; apply n_range; try lia; split; try lra; simpl; lra. }
    assert (Hu : ok_unit (n 1)).
    { destruct (ofZ_finite 1) as [F E]; [lia|]. split; auto. right. unfold n. rewrite E. split.
      - change 1 with (bpow radix2 0). apply bpow_le. lia.
      - change (bpow radix2 20) with (IZR (2 ^ 20)). apply IZR_le. lia. }
    assert (Ht : ok_tick fx_tick).
    { split; cbn [open high low close volume fx_tick]; try (apply Hp; lia); [apply Ha; lia| |];
        unfold n; rewrite (proj2 (ofZ_finite 100 ltac:(lia)));
        [rewrite (proj2 (ofZ_finite 90 ltac:(lia)))|rewrite (proj2 (ofZ_finite 110 ltac:(lia)))]; lra. }
    assert (Hb : forall z, (0 <= z <= 1000)%Z -> balance_ok (n z)).
    { intros z Hz. destruct (Ha z Hz) as [F H]. split; auto; lra. }
    split; [split; exact Hf|]. split.
    { split; auto; apply n_range; try lia; split; lra. }
    split; [repeat split; (apply Hb; lia)|]. split.
    { apply Forall_cons; [|apply Forall_cons; [|apply Forall_nil]]; (split; [|exact Ht]); cbn [fst].
      - apply (OkOrder _ MARKET BUY (n 2) (@BaseAmount I (n 2))); auto. apply Ho. lia.
      - apply (OkOrder _ LIMIT SELL (n 108) (@BaseAmount I (n 3))); auto; [apply Ho; lia|].
        right. split; [reflexivity|apply Hp; lia]. }
    split.
    - intros l1 l2 a1 El Hne H. destruct l1 as [|x1 l1].
      { injection H as <-. repeat split; vm_compute; reflexivity. }
      injection El as <- El. destruct l1 as [|x2 l1].
      { assert (E : bind (exec_all (@ExecuteOrder I fx_config) (@InitAccount I fx_config) [(fx_buy, fx_tick)])
                      (fun a => Done (Bltb limit40 (base_balance a : f32), Bltb limit40 (quote_balance a : f32),
                                      Bltb limit40 (total_fee a : f32))) = Done (false, false, false)).
        { clear; destruct as_; vm_compute; reflexivity. }
        rewrite H in E. cbn [bind] in E. injection E as E1 E2 E3. repeat split; assumption. }
      injection El as <- El. destruct l1; [|discriminate]. cbn in El. subst l2. contradiction.
    - assert (E : bind (exec_all (@ExecuteOrder I fx_config) (@InitAccount I fx_config)
                          [(fx_buy, fx_tick); (fx_sell, fx_tick)])
                    (fun a => Done (B2SF (base_balance a : f32), B2SF (quote_balance a : f32),
                                    B2SF (total_fee a : f32)))
                  = Done (B2SF (n 9), B2SF (n 1122), B2SF (n 2))).
      { clear; destruct as_; vm_compute; reflexivity. }
      apply bind_done in E as (a' & H & E). injection E as E1 E2 E3. exists a'. auto.
  Qed.

  (** *** Where rounding (or the code) breaks the literal claims. *)

  (** C07, literal: with quote unit 1, a market buy for 1.5 quote at price 1 spends 2. *)
  Theorem C07_literal_refuted :
    bind (@ExecuteOrder I free_config
            (@Order I (Some MARKET) (Some BUY) (@QuoteAmount I three_halves) None) flat1
            (@InitAccount I free_config))
         (fun r => Done (fst r, Beqb (quote_balance (snd r)) (f32_of_Z 8)))
    = Done (true, true).
  Proof. destruct as_; vm_compute; reflexivity. Qed.

  (** C08, literal: a market sell for 1.5 quote at price 1 brings 2. *)
  Theorem C08_literal_refuted :
    bind (@ExecuteOrder I free_config
            (@Order I (Some MARKET) (Some SELL) (@QuoteAmount I three_halves) None) flat1
            (@set_balances I (@InitAccount I free_config) (n 10) (n 0) (n 0)))
         (fun r => Done (fst r, Beqb (quote_balance (snd r)) (f32_of_Z 2)))
    = Done (true, true).
  Proof. destruct as_; vm_compute; reflexivity. Qed.

  (** C05 in floats: with unit 0.01 and minimum fee 0.05 the fee is an ulp below 0.05. *)
  Theorem C05_float_below_minimum_refuted :
    let u : @flt I := @flit I 1 100 in
    let m : @flt I := @flit I 5 100 in
    let a := @Account I (n 0) (n 0) (n 0) (n 1) u (n 1) (n 0) in
    Bltb (@GetFee I a (@FeeConfig I (n 0) (n 0) m) (n 0)) m = true.
  Proof. vm_compute; reflexivity. Qed.

  (** C02 outside its ranges: selling 2^100 base at a price of 2^60 with a 1% fee, the proceeds
      and the fee overflow, and the quote balance becomes NaN. *)
  Theorem C02_overflow_refuted :
    let p : f32 := n (2 ^ 60) in
    let fc := @FeeConfig I (@flit I 1 100) (n 0) (n 0) in
    let cfg := @AccountConfig I (n (2 ^ 100)) (n 10) (n 0) (n 0) fc fc fc (n 1) (n 0) in
    bind (@ExecuteOrder I cfg (@Order I (Some MARKET) (Some SELL) (@BaseAmount I (n (2 ^ 100))) None)
            (@OhlcTick I 300 p p p p (n 1)) (@InitAccount I cfg))
         (fun r => Done (fst r, is_nan (quote_balance (snd r))))
    = Done (true, true).
  Proof. destruct as_; vm_compute; reflexivity. Qed.

  (** C06 in floats: without units, 2^24 base plus a bought 3 gives 2^24 + 4. *)
  Theorem C06_float_refuted :
    let cfg := @AccountConfig I (n (2 ^ 24)) (n 10) (n 0) (n 0) free free free (n 1) (n 0) in
    bind (@ExecuteOrder I cfg (@Order I (Some MARKET) (Some BUY) (@BaseAmount I (n 3)) None) flat1
            (@InitAccount I cfg))
         (fun r => Done (fst r, Beqb (base_balance (snd r)) (f32_of_Z (2 ^ 24 + 4)),
                         Beqb (quote_balance (snd r)) (f32_of_Z 7)))
    = Done (true, true, true).
  Proof. destruct as_; vm_compute; reflexivity. Qed.

  (** C09 in floats: liquidity 0.2 on a tick whose open and high are 0.1 gives a price above 0.1. *)
  Theorem C09_float_refuted :
    let p : @flt I := @flit I 1 10 in
    let a := @Account I (n 0) (n 0) (n 0) (n 1) (n 1) (@flit I 1 5) (n 0) in
    Bltb p (@GetMarketBuyPrice I a (@OhlcTick I 300 p p p p (n 1))) = true.
  Proof. vm_compute; reflexivity. Qed.
End IEEE2.

Print Assumptions C01_rejected_order_no_effect.
Print Assumptions C01_methods.
Print Assumptions C12_dispatch.
Print Assumptions C12_malformed_aborts.
Print Assumptions C06_sequence.
Print Assumptions C02_balances_nonneg.
Print Assumptions C14_float_units.
