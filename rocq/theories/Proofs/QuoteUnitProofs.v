(** Changing the quote currency. *)
From Coq Require Import String Reals ZArith Bool List Lra Lia.
From Flocq Require Import Core.
From Verif.Model Require Import Outcome Machine MachineR Types Account History SideInput Indicators TimeUtil Eval Traders.
From Verif.Spec Require Import RunSpec SeriesSpec HistorySpec EvalSpec ShiftSpec QuoteUnitSpec.
From Verif.Proofs Require Import Base RunPairs SimProofs.
Import ListNotations.
Local Open Scope R_scope.

Lemma Rlt_bool_iff a b c d : (a < b <-> c < d) -> Rlt_bool a b = Rlt_bool c d.
Proof.
  intros H. destruct (Rlt_bool_spec c d) as [L|L].
  - apply Rlt_bool_true. tauto.
  - apply Rlt_bool_false. destruct (Rle_or_lt b a); [assumption|]. exfalso. apply (Rle_not_lt _ _ L). tauto.
Qed.
Lemma Rle_bool_iff a b c d : (a <= b <-> c <= d) -> Rle_bool a b = Rle_bool c d.
Proof.
  intros H. destruct (Rle_bool_spec c d) as [L|L].
  - apply Rle_bool_true. tauto.
  - apply Rle_bool_false. destruct (Rle_or_lt a b); [|assumption]. exfalso. apply (Rlt_not_le _ _ L). tauto.
Qed.

Section Quoted.
  Context (sh : R -> string) (as_ : bool) (k : R) (Hk : 0 < k).
  Local Notation E := (exact sh as_).

  Lemma lt_k x y : Rlt_bool (k * x) (k * y) = Rlt_bool x y.
  Proof. apply Rlt_bool_iff. split; [apply Rmult_lt_reg_l|apply Rmult_lt_compat_l]; assumption. Qed.
  Lemma le_k x y : Rle_bool (k * x) (k * y) = Rle_bool x y.
  Proof. apply Rle_bool_iff. split; [apply Rmult_le_reg_l|apply Rmult_le_compat_l]; lra. Qed.
  Lemma lt_k0 y : Rlt_bool 0 (k * y) = Rlt_bool 0 y.
  Proof. rewrite <- (Rmult_0_r k) at 1. apply lt_k. Qed.
  Lemma le_k0 y : Rle_bool 0 (k * y) = Rle_bool 0 y.
  Proof. rewrite <- (Rmult_0_r k) at 1. apply le_k. Qed.
  Lemma div_k x y : k * x / (k * y) = x / y.
  Proof.
    destruct (Req_dec y 0) as [->|H]; [|field; lra].
    unfold Rdiv. rewrite Rmult_0_r, Rinv_0. ring.
  Qed.
  Lemma div_kr x y : k * x / y = k * (x / y).
  Proof. unfold Rdiv. ring. Qed.
  Lemma max_k x y : @fmax E (k * x) (k * y) = k * @fmax E x y.
  Proof. unfold fmax. cbn [fltb exact]. rewrite lt_k. destruct (Rlt_bool x y); reflexivity. Qed.
  Lemma min_k x y : @fmin E (k * x) (k * y) = k * @fmin E x y.
  Proof. unfold fmin. cbn [fltb exact]. rewrite lt_k. destruct (Rlt_bool y x); reflexivity. Qed.

  Lemma Round_k x u : @Round E (k * x) (k * u) = k * @Round E x u.
  Proof.
    unfold Round. cbn [fltb exact fofZ fmul fdiv fround]. rewrite lt_k0, div_k.
    change (@flt E) with R. destruct (Rlt_bool 0 u); ring.
  Qed.
  Lemma Ceil_k x u : @Ceil E (k * x) (k * u) = k * @Ceil E x u.
  Proof.
    unfold Ceil. cbn [fltb exact fofZ fmul fdiv fceil]. rewrite lt_k0, div_k.
    change (@flt E) with R. destruct (Rlt_bool 0 u); ring.
  Qed.
  Lemma Floor_k x u : @Floor E (k * x) (k * u) = k * @Floor E x u.
  Proof.
    unfold Floor. cbn [fltb exact fofZ fmul fdiv ffloor]. rewrite lt_k0, div_k.
    change (@flt E) with R. destruct (Rlt_bool 0 u); ring.
  Qed.

  Definition acc_in (a : @account E) : @account E :=
    @Account E (base_balance a) (k * quote_balance a) (k * total_fee a) (base_unit a)
      (k * quote_unit a) (market_liquidity a) (max_volume_ratio a).

  Local Notation tick_in := (tick_in sh as_ k).
  Local Notation fees_in := (fees_in sh as_ k).
  Local Notation account_in := (account_in sh as_ k).

  Definition exec_in (x : @exec E) : @exec E := omap (fun y => (fst y, acc_in (snd y))) x.

  Lemma exec_in_assert b x : exec_in (@assert_ E b ;; x) = (@assert_ E b ;; exec_in x).
  Proof. unfold exec_in, omap. rewrite bind_assoc. reflexivity. Qed.

  Lemma if_in (b : bool) (x y x' y' : @exec E) :
    x = exec_in x' -> y = exec_in y' -> (if b then x else y) = exec_in (if b then x' else y').
  Proof. intros -> ->. destruct b; reflexivity. Qed.

  Lemma assert_in b x x' : x = exec_in x' -> (@assert_ E b ;; x) = exec_in (@assert_ E b ;; x').
  Proof. intros ->. symmetry. apply exec_in_assert. Qed.

  Ltac machine := cbn [fadd fsub fmul fdiv fltb fleb feqb fofZ exact acc_in base_balance quote_balance total_fee base_unit
                       quote_unit market_liquidity max_volume_ratio QuoteUnitSpec.tick_in QuoteUnitSpec.fees_in relative_fee fixed_fee minimum_fee timestamp_sec open high low close volume].

  Lemma fee_k a fc q : @GetFee E (acc_in a) (fees_in fc) (k * q) = k * @GetFee E a fc q.
  Proof.
    unfold GetFee. machine.
    replace (k * fixed_fee fc + k * q * relative_fee fc) with (k * (fixed_fee fc + q * relative_fee fc)) by ring.
    rewrite max_k. apply Ceil_k.
  Qed.

  Lemma BuyBase_k fc x p a : @BuyBase E (fees_in fc) x (k * p) (acc_in a) = exec_in (@BuyBase E fc x p a).
  Proof.
    unfold BuyBase. machine. rewrite lt_k0.
    do 2 apply assert_in.
    set (b := @Round E x (base_unit a) : R). cbv zeta.
    destruct (Rlt_bool b (base_unit a)); [reflexivity|].
    replace (b * (k * p)) with (k * (b * p)) by ring. rewrite Ceil_k.
    set (q := @Ceil E (b * p) (quote_unit a) : R). rewrite fee_k. set (f := @GetFee E a fc q : R).
    replace (k * q + k * f) with (k * (q + f)) by ring. rewrite lt_k.
    destruct (Rlt_bool (quote_balance a) (q + f)); [reflexivity|].
    unfold exec_in, omap, set_balances. cbn [bind fst snd]. machine. unfold acc_in. machine.
    replace (k * quote_balance a - k * (q + f)) with (k * (quote_balance a - (q + f))) by ring.
    replace (k * total_fee a + k * f) with (k * (total_fee a + f)) by ring.
    rewrite !Round_k. reflexivity.
  Qed.

  Lemma SellBase_k fc x p a : @SellBase E (fees_in fc) x (k * p) (acc_in a) = exec_in (@SellBase E fc x p a).
  Proof.
    unfold SellBase. machine. rewrite lt_k0.
    do 2 apply assert_in.
    set (b := @Round E x (base_unit a) : R). cbv zeta.
    destruct (Rlt_bool b (base_unit a) || Rlt_bool (base_balance a) b)%bool; [reflexivity|].
    replace (b * (k * p)) with (k * (b * p)) by ring. rewrite Floor_k.
    set (q := @Floor E (b * p) (quote_unit a) : R). rewrite fee_k. set (f := @GetFee E a fc q : R).
    replace (k * q - k * f) with (k * (q - f)) by ring. rewrite lt_k.
    destruct (Rlt_bool (q - f) (quote_unit a)); [reflexivity|].
    unfold exec_in, omap, set_balances. cbn [bind fst snd]. machine. unfold acc_in. machine.
    replace (k * quote_balance a + k * (q - f)) with (k * (quote_balance a + (q - f))) by ring.
    replace (k * total_fee a + k * f) with (k * (total_fee a + f)) by ring.
    rewrite !Round_k. reflexivity.
  Qed.

  Lemma BuyAtQuote_k fc x p m a :
    @BuyAtQuote E (fees_in fc) (k * x) (k * p) m (acc_in a) = exec_in (@BuyAtQuote E fc x p m a).
  Proof.
    unfold BuyAtQuote. machine. rewrite lt_k0, le_k0.
    do 2 apply assert_in.
    rewrite Round_k. set (q := @Round E x (quote_unit a) : R). cbv zeta. rewrite !lt_k.
    destruct (Rlt_bool q (quote_unit a) || Rlt_bool (quote_balance a) q)%bool; [reflexivity|].
    rewrite fee_k. set (f := @GetFee E a fc q : R). rewrite le_k.
    destruct (Rle_bool q f); [reflexivity|].
    replace (k * q - k * f) with (k * (q - f)) by ring. rewrite div_k.
    set (b := @Floor E _ _ : R). destruct (Rlt_bool b (base_unit a)); [reflexivity|].
    apply BuyBase_k.
  Qed.

  Lemma SellAtQuote_k fc x p m a :
    @SellAtQuote E (fees_in fc) (k * x) (k * p) m (acc_in a) = exec_in (@SellAtQuote E fc x p m a).
  Proof.
    unfold SellAtQuote. machine. rewrite lt_k0, le_k0.
    do 2 apply assert_in.
    rewrite Round_k. set (q := @Round E x (quote_unit a) : R). cbv zeta. rewrite !lt_k.
    destruct (Rlt_bool q (quote_unit a)); [reflexivity|].
    rewrite fee_k. set (f := @GetFee E a fc q : R).
    replace (k * q + k * f) with (k * (q + f)) by ring. rewrite div_k.
    set (b := @Floor E _ _ : R). destruct (Rlt_bool b (base_unit a)); [reflexivity|].
    apply SellBase_k.
  Qed.

  Lemma market_buy_k a t : @GetMarketBuyPrice E (acc_in a) (tick_in t) = k * @GetMarketBuyPrice E a t.
  Proof. unfold GetMarketBuyPrice. machine. change (@flt E) with R. ring. Qed.
  Lemma market_sell_k a t : @GetMarketSellPrice E (acc_in a) (tick_in t) = k * @GetMarketSellPrice E a t.
  Proof. unfold GetMarketSellPrice. machine. change (@flt E) with R. ring. Qed.
  Lemma stop_buy_k a t p : @GetStopBuyPrice E (acc_in a) (tick_in t) (k * p) = k * @GetStopBuyPrice E a t p.
  Proof. unfold GetStopBuyPrice. machine. rewrite max_k. change (@flt E) with R. ring. Qed.
  Lemma stop_sell_k a t p : @GetStopSellPrice E (acc_in a) (tick_in t) (k * p) = k * @GetStopSellPrice E a t p.
  Proof. unfold GetStopSellPrice. machine. rewrite min_k. change (@flt E) with R. ring. Qed.

  Definition order_in (o : @order E) : @order E :=
    @Order E (o_type o) (o_side o)
      (match o_amount o with QuoteAmount x => @QuoteAmount E (k * x) | y => y end)
      (match o_price o with Some p => Some (k * p) | None => None end).

  Lemma price_k o : @get_price E (order_in o) = k * @get_price E o.
  Proof. unfold get_price, order_in. cbn [o_price]. destruct (o_price o); [reflexivity|]. machine. change (@flt E) with R. ring. Qed.
  Lemma base_amount_k o : @get_base_amount E (order_in o) = @get_base_amount E o.
  Proof. unfold get_base_amount, order_in. cbn [o_amount]. destruct (o_amount o); reflexivity. Qed.
  Lemma quote_amount_k o : @get_quote_amount E (order_in o) = k * @get_quote_amount E o.
  Proof. unfold get_quote_amount, order_in. cbn [o_amount]. destruct (o_amount o); machine; change (@flt E) with R; ring. Qed.
  Lemma is_base_k o : @is_base_amount E (order_in o) = @is_base_amount E o.
  Proof. unfold is_base_amount, order_in. cbn [o_amount]. destruct (o_amount o); reflexivity. Qed.
  Lemma is_quote_k o : @is_quote_amount E (order_in o) = @is_quote_amount E o.
  Proof. unfold is_quote_amount, order_in. cbn [o_amount]. destruct (o_amount o); reflexivity. Qed.

  Lemma valid_k o : @IsValidOrder E (order_in o) = @IsValidOrder E o.
  Proof.
    unfold IsValidOrder. rewrite price_k, base_amount_k, quote_amount_k, is_base_k, is_quote_k. machine.
    rewrite !lt_k0. unfold get_type. cbn [order_in o_type o_side o_price].
    destruct (o_price o); reflexivity.
  Qed.

  Lemma max_base_k a t : @GetMaxBaseAmount E (acc_in a) (tick_in t) = @GetMaxBaseAmount E a t.
  Proof. reflexivity. Qed.

  Theorem ExecuteOrder_k c o t a :
    @ExecuteOrder E (account_in c) (order_in o) (tick_in t) (acc_in a) = exec_in (@ExecuteOrder E c o t a).
  Proof.
    unfold ExecuteOrder. rewrite valid_k. apply assert_in.
    unfold get_type, get_side. cbn [order_in o_type o_side QuoteUnitSpec.account_in market_order_fee_config stop_order_fee_config limit_order_fee_config].
    fold (order_in o). rewrite is_base_k, is_quote_k, price_k, base_amount_k, quote_amount_k.
    assert (D : (exec_in (Done (false, a)) : @exec E) = Done (false, acc_in a)) by reflexivity.
    destruct (match o_type o with Some t0 => t0 | None => MARKET end);
      apply if_in; try apply assert_in; apply if_in; try apply assert_in.
    - unfold MarketBuy. rewrite market_buy_k. apply BuyBase_k.
    - unfold MarketBuyAtQuote. rewrite market_buy_k. apply BuyAtQuote_k.
    - unfold MarketSell. rewrite market_sell_k. apply SellBase_k.
    - unfold MarketSellAtQuote. rewrite market_sell_k. apply SellAtQuote_k.
    - unfold StopBuy. rewrite stop_buy_k. machine. rewrite lt_k0, lt_k. do 2 apply assert_in. apply if_in; [symmetry; exact D|apply BuyBase_k].
    - unfold StopBuyAtQuote. rewrite stop_buy_k. machine. rewrite lt_k0, le_k0, lt_k. do 2 apply assert_in. apply if_in; [symmetry; exact D|apply BuyAtQuote_k].
    - unfold StopSell. rewrite stop_sell_k. machine. rewrite lt_k0, lt_k. do 2 apply assert_in. apply if_in; [symmetry; exact D|apply SellBase_k].
    - unfold StopSellAtQuote. rewrite stop_sell_k. machine. rewrite lt_k0, le_k0, lt_k. do 2 apply assert_in. apply if_in; [symmetry; exact D|apply SellAtQuote_k].
    - unfold LimitBuy. rewrite max_base_k. machine. rewrite lt_k0, lt_k. do 2 apply assert_in. apply if_in; [symmetry; exact D|apply BuyBase_k].
    - unfold LimitBuyAtQuote. rewrite max_base_k. machine. rewrite lt_k0, le_k0, lt_k. do 2 apply assert_in. apply if_in; [symmetry; exact D|apply BuyAtQuote_k].
    - unfold LimitSell. rewrite max_base_k. machine. rewrite lt_k0, lt_k. do 2 apply assert_in. apply if_in; [symmetry; exact D|apply SellBase_k].
    - unfold LimitSellAtQuote. rewrite max_base_k. machine. rewrite lt_k0, le_k0, lt_k. do 2 apply assert_in. apply if_in; [symmetry; exact D|apply SellAtQuote_k].
  Qed.

  (** ** The volatility *)
  Definition vs_in (v : @vol_state E) : @vol_state E :=
    @VolState E (vl_base v) (k * vl_quote v) (map (Rmult k) (vl_portfolio v)) (vl_variance v) (vl_num v).

  Lemma vol_value_k v p : @vol_value E (vs_in v) (k * p) = k * @vol_value E v p.
  Proof. unfold vol_value. cbn [vs_in vl_base vl_quote]. machine. change (@flt E) with R. ring. Qed.

  Lemma return_k l : @GetLogarithmicReturn E (map (Rmult k) l) = @GetLogarithmicReturn E l.
  Proof.
    unfold GetLogarithmicReturn. rewrite map_length. apply bind_ext. intros _ _.
    destruct l as [|x [|y l]]; try reflexivity. cbn [map]. machine. rewrite div_k. reflexivity.
  Qed.

  Lemma pop_front_k (l : list R) : pop_front (map (Rmult k) l) = omap (map (Rmult k)) (pop_front l).
  Proof. destruct l; reflexivity. Qed.

  Lemma map_removelast {A B} (f : A -> B) l : map f (removelast l) = removelast (map f l).
  Proof. induction l as [|a [|b l] IH]; try reflexivity. cbn in *. rewrite IH. reflexivity. Qed.

  Lemma set_back_k (l : list R) v : set_back (map (Rmult k) l) (k * v) = omap (map (Rmult k)) (set_back l v).
  Proof.
    destruct l as [|x l]; [reflexivity|]. unfold set_back. cbn [map omap bind].
    unfold omap. cbn [bind]. rewrite map_app. change (k * x :: map (Rmult k) l) with (map (Rmult k) (x :: l)). rewrite map_removelast. reflexivity.
  Qed.

  Local Notation RVS := (fun v1 v2 : @vol_state E => v2 = vs_in v1).
  Local Notation RT := (fun t1 t2 : @ohlc_tick E => t2 = tick_in t1).

  Lemma orel_omap {A B} (f : A -> B) (x : outcome A) : orel (fun a b => b = f a) x (omap f x).
  Proof. destruct x; cbn; auto. Qed.

  Lemma vol_handler_k v1 v2 l1 l2 e1 e2 :
    v2 = vs_in v1 -> event_rel RT e1 e2 -> orel RVS (@vol_handler E v1 l1 e1) (@vol_handler E v2 l2 e2).
  Proof.
    intros -> He. unfold vol_handler.
    destruct He as [o1 o2 n1 n2 ->|n1 n2 ->|r1 r2 n1 n2 ->].
    - apply orel_assert; [reflexivity|]. cbn [vs_in vl_portfolio vl_variance vl_num vl_base vl_quote]. fold (vs_in v1).
      change (close (tick_in n1)) with (k * close n1). rewrite vol_value_k, set_back_k.
      eapply orel_bind; [apply orel_omap|]. intros p1 p2 _ _ ->. rewrite return_k.
      eapply (orel_bind eq); [apply orel_refl|]. intros r ? _ _ <-.
      eapply (orel_bind eq); [apply orel_refl|]. intros w ? _ _ <-. reflexivity.
    - apply orel_assert; [reflexivity|]. cbn [vs_in vl_portfolio vl_variance vl_num vl_base vl_quote]. fold (vs_in v1).
      change (close (tick_in n1)) with (k * close n1). change (open (tick_in n1)) with (k * open n1). rewrite !vol_value_k.
      eapply (orel_bind (fun a b => b = map (Rmult k) a)).
      + destruct (vl_num v1 =? 0)%Z.
        * apply orel_assert; [destruct (vl_portfolio v1); reflexivity|]. cbn. rewrite map_app. reflexivity.
        * rewrite pop_front_k. apply orel_omap.
      + intros p1 p2 _ _ ->. cbv zeta.
        change ([k * vol_value v1 (close n1)]) with (map (Rmult k) [vol_value v1 (close n1)]). rewrite <- map_app, return_k.
        eapply (orel_bind eq); [apply orel_refl|]. intros r ? _ _ <-. reflexivity.
    - apply orel_assert; [reflexivity|]. cbn [vs_in vl_portfolio vl_variance vl_num vl_base vl_quote]. fold (vs_in v1).
      change (close (tick_in n1)) with (k * close n1). rewrite !vol_value_k, pop_front_k.
      eapply orel_bind; [apply orel_omap|]. intros p1 p2 _ _ ->. cbv zeta.
      change ([k * vol_value v1 (close n1)]) with (map (Rmult k) [vol_value v1 (close n1)]). rewrite <- map_app, return_k.
      eapply (orel_bind eq); [apply orel_refl|]. intros r ? _ _ <-. reflexivity.
  Qed.

  Definition RVol (v1 v2 : @volatility E) : Prop := Forall2 RT (fst v1) (fst v2) /\ snd v2 = vs_in (snd v1).

  Lemma vol_k v1 v2 t b q :
    RVol v1 v2 ->
    orel RVol (@vol_Update E kSecondsPerDay v1 t b q) (@vol_Update E kSecondsPerDay v2 (tick_in t) b (k * q)).
  Proof.
    intros [H1 H2]. unfold vol_Update. rewrite H2. cbv zeta.
    eapply orel_mono.
    - apply (update_sim vol_handler vol_handler kSecondsPerDay 0 RT RVS).
      + intros a c ->. cbn. lia.
      + intros a c ->. reflexivity.
      + intros. apply vol_handler_k; assumption.
      + intros ts. rewrite Z.add_0_r. reflexivity.
      + intros u1 u2 ->. unfold merged, QuoteUnitSpec.tick_in. machine. rewrite max_k, min_k. reflexivity.
      + cbn. lia.
      + left. reflexivity.
      + split; [exact H1|reflexivity].
    - intros x y [A B]. split; [exact A|exact B].
  Qed.

  (** ** The traders *)
  Definition sp_in (s : @stop_state E) : @stop_state E :=
    @StopState E (sp_base s) (k * sp_quote s) (sp_timestamp s) (k * sp_close s) (sp_mode s) (k * stop_order_price s).

  Lemma stop_price_k c s m t p :
    @UpdateStopOrderPrice E c (sp_in s) m t (k * p) = omap (Rmult k) (@UpdateStopOrderPrice E c s m t p).
  Proof.
    unfold UpdateStopOrderPrice. cbn [sp_in sp_timestamp stop_order_price]. cbv zeta.
    set (r := fdiv (fofZ kSecondsPerDay) _).
    destruct m.
    - machine. set (x := stop_order_price s : R). set (g := @fexp E _ : R).
      unfold omap. rewrite bind_assoc. apply bind_ext. intros _ _.
      replace ((1 + stop_order_move_margin c) * (k * p)) with (k * ((1 + stop_order_move_margin c) * p)) by ring.
      rewrite le_k. destruct (Rle_bool _ _); [|reflexivity].
      replace ((1 - (1 - g)) * (k * x)) with (k * ((1 - (1 - g)) * x)) by ring.
      rewrite max_k, min_k. reflexivity.
    - machine. set (x := stop_order_price s : R). set (g := @fexp E _ : R).
      replace ((1 - stop_order_move_margin c) * (k * p)) with (k * ((1 - stop_order_move_margin c) * p)) by ring.
      rewrite le_k. destruct (Rle_bool _ _); [|reflexivity].
      replace ((1 + (g - 1)) * (k * x)) with (k * ((1 + (g - 1)) * x)) by ring.
      rewrite min_k, max_k. reflexivity.
    - machine. set (x := stop_order_price s : R). set (g := @fexp E _ : R).
      unfold omap. rewrite bind_assoc. apply bind_ext. intros _ _.
      replace ((1 + stop_order_move_margin c) * (k * p)) with (k * ((1 + stop_order_move_margin c) * p)) by ring.
      rewrite le_k. destruct (Rle_bool _ _); [|reflexivity].
      replace ((1 - (1 - g)) * (k * x)) with (k * ((1 - (1 - g)) * x)) by ring.
      rewrite max_k, min_k. reflexivity.
  Qed.

  Definition upd_in {S} (f : S -> S) (x : outcome (S * list (@order E))) : outcome (S * list (@order E)) :=
    omap (fun y => (f (fst y), map order_in (snd y))) x.

  Lemma upd_assert {S} (f : S -> S) b x x' : x = upd_in f x' -> (@assert_ E b ;; x) = upd_in f (@assert_ E b ;; x').
  Proof. intros ->. unfold upd_in, omap. rewrite bind_assoc. reflexivity. Qed.

  Lemma stop_update_k c s t sig b q :
    @stop_update E c (sp_in s) (tick_in t) sig b (k * q) = upd_in sp_in (@stop_update E c s t sig b q).
  Proof.
    unfold stop_update. machine. cbn [sp_in sp_timestamp sp_mode]. fold (sp_in s). rewrite !lt_k0. cbv zeta.
    do 3 apply upd_assert.
    assert (Em : @stop_mode E (k * close t) b (k * q) = @stop_mode E (close t) b q).
    { unfold stop_mode. machine. replace (b * (k * close t)) with (k * (b * close t)) by ring. rewrite le_k. reflexivity. }
    rewrite Em. set (m := stop_mode _ b q).
    assert (Ep : (if ((timestamp_sec t >=? sp_timestamp s + max_allowed_gap_sec)%Z || negb (mode_eqb m (sp_mode s)))%bool then
         match m with
         | LONG => Done ((1 - stop_order_margin c) * (k * close t))
         | _ => @assert_ E (mode_eqb m CASH) ;; Done ((1 + stop_order_margin c) * (k * close t))
         end
       else
         @assert_ E (mode_eqb m (sp_mode s)) ;;
         @UpdateStopOrderPrice E c (sp_in s) m (timestamp_sec t) (k * close t))
      = omap (Rmult k) (if ((timestamp_sec t >=? sp_timestamp s + max_allowed_gap_sec)%Z || negb (mode_eqb m (sp_mode s)))%bool then
         match m with
         | LONG => Done ((1 - stop_order_margin c) * close t)
         | _ => @assert_ E (mode_eqb m CASH) ;; Done ((1 + stop_order_margin c) * close t)
         end
       else
         @assert_ E (mode_eqb m (sp_mode s)) ;;
         @UpdateStopOrderPrice E c s m (timestamp_sec t) (close t))).
    { destruct (_ || _)%bool.
      - destruct m; unfold omap; rewrite ?bind_assoc; try (apply bind_ext; intros _ _); cbn [bind]; f_equal; ring.
      - unfold omap. rewrite bind_assoc. apply bind_ext. intros _ _. apply stop_price_k. }
    etransitivity; [apply (f_equal (fun z => bind z _) Ep)|].
    unfold upd_in, omap. rewrite !bind_assoc. apply bind_ext. intros x _. cbn [bind].
    unfold EmitStopOrder. cbn [sp_mode sp_base sp_quote stop_order_price].
    destruct m; rewrite ?bind_assoc; try (apply bind_ext; intros _ _); reflexivity.
  Qed.

  Definition rb_in (s : @rebalancing_state E) : @rebalancing_state E :=
    @RebalancingState E (rb_base s) (k * rb_quote s) (rb_timestamp s) (k * rb_close s).

  Lemma rebalancing_orders_k c p b q :
    Rlt_bool (1 / 1000000) (k * q) = Rlt_bool (1 / 1000000) q ->
    @rebalancing_orders E c (k * p) b (k * q) = map order_in (@rebalancing_orders E c p b q).
  Proof.
    intros Hq. unfold rebalancing_orders. unfold flit. machine.
    set (al := alpha c : R). set (ep := epsilon c : R). change (@flt E) with R in *. cbv zeta.
    replace (b * (k * p) + k * q) with (k * (b * p + q)) by ring. set (v := b * p + q).
    replace (b * (k * p)) with (k * (b * p)) by ring. rewrite div_k.
    destruct (Rlt_bool (al * (1 + ep)) (b * p / v)).
    { cbn [map]. unfold market_order, order_in. cbn. do 2 f_equal.
      replace ((1 - al) * (k * v) - k * q) with (k * ((1 - al) * v - q)) by ring. rewrite div_k. reflexivity. }
    destruct (Rlt_bool (b * p / v) (al * (1 - ep))).
    { cbn [map]. unfold market_order, order_in. cbn. do 2 f_equal.
      replace (k * q - (1 - al) * (k * v)) with (k * (q - (1 - al) * v)) by ring. rewrite div_k. reflexivity. }
    rewrite Hq. destruct (Rlt_bool (1 / 1000000) b && Rlt_bool (1 / 1000000) q)%bool; [|reflexivity].
    rewrite map_app. f_equal.
    - destruct (Rlt_bool (al * (1 + ep)) 1); [|reflexivity].
      replace (al * (1 + ep) * (k * q)) with (k * (al * (1 + ep) * q)) by ring. rewrite div_kr.
      replace (100 * (k * p)) with (k * (100 * p)) by ring. rewrite !lt_k.
      destruct (_ && _)%bool; reflexivity.
    - replace (al * (1 - ep) * (k * q)) with (k * (al * (1 - ep) * q)) by ring. rewrite !div_kr, !lt_k.
      destruct (_ && _)%bool; reflexivity.
  Qed.

  Lemma rebalancing_update_k c s t sig b q :
    Rlt_bool (1 / 1000000) (k * q) = Rlt_bool (1 / 1000000) q ->
    @rebalancing_update E c (rb_in s) (tick_in t) sig b (k * q) = upd_in rb_in (@rebalancing_update E c s t sig b q).
  Proof.
    intros Hq. unfold rebalancing_update. machine. cbn [rb_in rb_timestamp]. rewrite !lt_k0. cbv zeta.
    do 3 apply upd_assert. unfold upd_in, omap. cbn [bind fst snd]. rewrite rebalancing_orders_k by exact Hq. reflexivity.
  Qed.

  (** ** Whole quote units *)
  Definition W (a : @account E) : Prop :=
    (exists n : Z, quote_balance a = IZR n * quote_unit a) /\
    1 / 1000000 < quote_unit a /\ 1 / 1000000 < k * quote_unit a.

  Definition keeps (x : @exec E) : Prop := forall ok a', x = Done (ok, a') -> W a'.

  Lemma keeps_assert b x : keeps x -> keeps (@assert_ E b ;; x).
  Proof. intros H ok a' Hx. apply bind_done in Hx as (u & _ & Hx). eapply H; exact Hx. Qed.
  Lemma keeps_if (b : bool) x y : keeps x -> keeps y -> keeps (if b then x else y).
  Proof. destruct b; auto. Qed.
  Lemma keeps_done a ok : W a -> keeps (Done (ok, a)).
  Proof. intros H o a' Ha. injection Ha as <- <-. exact H. Qed.
  Lemma keeps_set a x y z u : W a -> u = quote_unit a -> W (@set_balances E a x (@Round E y u) z).
  Proof.
    intros ([n Hn] & H1 & H2) ->. unfold W. cbn [set_balances quote_balance quote_unit].
    split; [|auto]. unfold Round. cbn [fltb exact fofZ fmul fdiv fround]. change (@flt E) with R in *.
    rewrite Rlt_bool_true by lra. eexists. apply Rmult_comm.
  Qed.

  Lemma keeps_BuyBase fc x p a : W a -> keeps (@BuyBase E fc x p a).
  Proof.
    intros H. unfold BuyBase. do 2 apply keeps_assert. cbv zeta.
    repeat (apply keeps_if; [apply keeps_done; exact H|]). apply keeps_done, keeps_set; auto.
  Qed.
  Lemma keeps_SellBase fc x p a : W a -> keeps (@SellBase E fc x p a).
  Proof.
    intros H. unfold SellBase. do 2 apply keeps_assert. cbv zeta.
    repeat (apply keeps_if; [apply keeps_done; exact H|]). apply keeps_done, keeps_set; auto.
  Qed.
  Lemma keeps_BuyAtQuote fc x p m a : W a -> keeps (@BuyAtQuote E fc x p m a).
  Proof.
    intros H. unfold BuyAtQuote. do 2 apply keeps_assert. cbv zeta.
    repeat (apply keeps_if; [apply keeps_done; exact H|]). apply keeps_BuyBase; auto.
  Qed.
  Lemma keeps_SellAtQuote fc x p m a : W a -> keeps (@SellAtQuote E fc x p m a).
  Proof.
    intros H. unfold SellAtQuote. do 2 apply keeps_assert. cbv zeta.
    repeat (apply keeps_if; [apply keeps_done; exact H|]). apply keeps_SellBase; auto.
  Qed.

  Lemma keeps_order c o t a : W a -> keeps (@ExecuteOrder E c o t a).
  Proof.
    intros H. unfold ExecuteOrder.
    repeat match goal with
           | |- keeps (bind (assert_ _) _) => apply keeps_assert
           | |- keeps (if _ then _ else _) => apply keeps_if
           | |- keeps (Done _) => apply keeps_done; exact H
           | |- keeps (BuyBase _ _ _ _) => apply keeps_BuyBase; exact H
           | |- keeps (SellBase _ _ _ _) => apply keeps_SellBase; exact H
           | |- keeps (BuyAtQuote _ _ _ _ _) => apply keeps_BuyAtQuote; exact H
           | |- keeps (SellAtQuote _ _ _ _ _) => apply keeps_SellAtQuote; exact H
           | |- keeps (match ?x with MARKET => _ | STOP => _ | LIMIT => _ end) => destruct x
           | |- keeps _ =>
             progress (unfold MarketBuy, MarketSell, MarketBuyAtQuote, MarketSellAtQuote, StopBuy, StopSell, StopBuyAtQuote,
                         StopSellAtQuote, LimitBuy, LimitSell, LimitBuyAtQuote, LimitSellAtQuote; cbv zeta)
           end.
  Qed.

  Lemma W_visible a : W a -> Rlt_bool (1 / 1000000) (k * quote_balance a) = Rlt_bool (1 / 1000000) (quote_balance a).
  Proof.
    intros ([n Hn] & H1 & H2). change (@flt E) with R in *. rewrite Hn. apply Rlt_bool_iff.
    set (u := quote_unit a : R) in *. clearbody u. clear Hn.
    destruct (Z_le_gt_dec n 0) as [Ln|Ln].
    - apply IZR_le in Ln. split; intros L; exfalso.
      + assert (k * (IZR n * u) <= 0) by (replace (k * (IZR n * u)) with (IZR n * (k * u)) by ring; nra). lra.
      + assert (IZR n * u <= 0) by nra. lra.
    - assert (1 <= n)%Z as L by lia. apply IZR_le in L. split; intros _.
      + nra.
      + replace (k * (IZR n * u)) with (IZR n * (k * u)) by ring. nra.
  Qed.

  (** ** Runs *)
  Definition vols_same (x y : option (@flt E)) : Prop := x = y.

  Lemma orel_and {A B} (R : A -> B -> Prop) (P : A -> Prop) x y :
    orel R x y -> (forall a, x = Done a -> P a) -> orel (fun a b => R a b /\ P a) x y.
  Proof. destruct x, y; cbn; auto. Qed.

  (** A trader that trades the same in either currency, on accounts that satisfy V. *)
  Record same_trader (te : @trader_emitter E) (V : @account E -> Prop) (f : te_state te -> te_state te) : Prop := SameTrader {
    ut_update : forall s t sig a, V a ->
      te_update te (f s) (tick_in t) sig (base_balance a) (k * quote_balance a)
      = upd_in f (te_update te s t sig (base_balance a) (quote_balance a));
    ut_new : f (te_new te) = te_new te;
    ut_keeps : forall c o t a ok a', V a -> @ExecuteOrder E c o t a = Done (ok, a') -> V a'
  }.

  Lemma stop_same c : same_trader (stop_emitter c) (fun _ => True) sp_in.
  Proof.
    split; auto.
    - intros s t sig a _. apply stop_update_k.
    - cbn. unfold sp_in, stop_init. machine. cbn [sp_base sp_quote sp_timestamp sp_close sp_mode stop_order_price].
      rewrite !Rmult_0_r. reflexivity.
  Qed.

  Lemma rebalancing_same c : same_trader (rebalancing_emitter c) W rb_in.
  Proof.
    split.
    - intros s t sig a Ha. apply rebalancing_update_k. apply W_visible. exact Ha.
    - cbn. unfold rb_in, rebalancing_init. machine. cbn [rb_base rb_quote rb_timestamp rb_close].
      rewrite !Rmult_0_r. reflexivity.
    - intros cf o t a ok a' Ha H. eapply keeps_order; eauto.
  Qed.

  Section Run.
    Context (cfg : @account_config E) (side : option (@side_input E)) (te : @trader_emitter E)
            (V : @account E -> Prop) (f : te_state te -> te_state te)
            (HT : same_trader te V f) (HV : V (InitAccount cfg)).

    Lemma quote_simulates fast :
      simulates cfg (account_in cfg) side side fast te te RT
        (fun a1 a2 => a2 = acc_in a1 /\ V a1) (fun o1 o2 => o2 = order_in o1) (fun s1 s2 => s2 = f s1) RVol RVol.
    Proof.
      split.
      - intros t1 t2 sig prev ->. reflexivity.
      - intros o1 o2 t1 t2 a1 a2 -> -> [-> Ha]. rewrite ExecuteOrder_k.
        eapply orel_mono; [apply orel_and; [apply orel_omap|]|].
        + intros [ok a'] Hx. instantiate (1 := fun y => V (snd y)). eapply (ut_keeps _ _ _ HT); eauto.
        + intros x y [-> Hx]. cbn [fst snd]. auto.
      - intros t1 t2 ->. reflexivity.
      - intros s1 s2 t1 t2 sig a1 a2 -> -> [-> Ha].
        cbn [acc_in base_balance quote_balance]. rewrite (ut_update _ _ _ HT) by exact Ha.
        eapply orel_mono; [apply orel_omap|]. intros x y ->. cbn [fst snd]. split; [reflexivity|].
        induction (snd x); constructor; auto.
      - intros _ v1 v2 t1 t2 Hv ->. eapply orel_mono; [|intros x y H; exact H].
        pose proof (vol_k v1 v2 t1 (fofZ 1) (fofZ 0) Hv) as X.
        replace (k * @fofZ E 0) with (@fofZ E 0) in X by (cbn; ring). exact X.
      - intros _ v1 v2 t1 t2 a1 a2 Hv -> [-> Ha]. apply (vol_k v1 v2 t1 (base_balance a1) (quote_balance a1) Hv).
      - split; [|exact HV]. unfold InitAccount, acc_in, QuoteUnitSpec.account_in. cbn. f_equal. ring.
      - symmetry. apply (ut_new _ _ _ HT).
      - intros v Hv. unfold NewVolatility in Hv. inv_done.
        assert (RVol ([], @VolState E 0 0 [] (NewMeanVar 0) 0%Z) ([], @VolState E 0 0 [] (NewMeanVar 0) 0%Z)).
        { split; [constructor|]. unfold vs_in. cbn. rewrite Rmult_0_r. reflexivity. }
        split; exact H.
    Qed.

    Lemma run_quote fast lg1 lg2 hl1 hl2 ticks l1 l2 :
      orel (fun x y => fst y = result_in sh as_ k (fst x))
        (ExecuteTrader cfg side fast te lg1 hl1 ticks l1)
        (ExecuteTrader (account_in cfg) side fast te lg2 hl2 (map tick_in ticks) l2).
    Proof.
      eapply orel_mono.
      - eapply (simulation cfg (account_in cfg) side side fast te te lg1 lg2 hl1 hl2 _ _ _ _ _ _ (quote_simulates fast)
                 (fun x y => y = result_in sh as_ k x)).
        + induction ticks; constructor; auto.
        + intros _. unfold result_in, empty_execution_result. cbn. rewrite !Rmult_0_r. reflexivity.
        + intros x1 x2 f1 f2 e1 e2 [A1 A2 A3 A4 A5 A6 A7 A8] -> ->.
          destruct A1 as [A1 _]. unfold exec_result, result_in. rewrite A1, <- A5.
          destruct A6 as [_ A6], A7 as [_ A7]. unfold vol_Get. rewrite A6, A7.
          cbn [acc_in base_balance quote_balance total_fee start_base_balance start_quote_balance QuoteUnitSpec.account_in
               QuoteUnitSpec.tick_in close vs_in vl_variance r_start_base_balance r_start_quote_balance r_end_base_balance
               r_end_quote_balance r_start_price r_end_price r_start_value r_end_value r_total_executed_orders r_total_fee
               r_base_volatility r_trader_volatility].
          machine. f_equal; change (@flt E) with R; ring.
      - intros x y H. exact H.
    Qed.

    Context (ec : evaluation_config) (lg1 lg2 : @logger E) (hl1 hl2 : bool) (history : list (@ohlc_tick E)).
    Local Notation period_in := (period_in sh as_ k).

    Lemma lower_in x : lower_bound timestamp_sec (map tick_in history) x = lower_bound timestamp_sec history x.
    Proof.
      unfold lower_bound. rewrite map_length.
      assert (X : forall fuel f g first len, (forall i, f i = g i) ->
                 Search.search_loop fuel f first len = Search.search_loop fuel g first len).
      { clear. induction fuel as [|fuel IH]; intros f g first len H; cbn; [reflexivity|]. destruct len; [reflexivity|].
        rewrite H. destruct (g _); apply IH; exact H. }
      apply X. intros i. rewrite nth_error_map. destruct (nth_error history i); reflexivity.
    Qed.

    Lemma subset_in a b : HistorySubset timestamp_sec (map tick_in history) a b = HistorySubset timestamp_sec history a b.
    Proof. unfold HistorySubset. rewrite !lower_in, map_length. reflexivity. Qed.

    Definition step_rel (x : @eval_state E lg1 + (list (@period E) * lg_state lg1)) (y : @eval_state E lg2 + (list (@period E) * lg_state lg2)) : Prop :=
      match x, y with
      | inl (n1, p1, _), inl (n2, p2, _) => n2 = n1 /\ p2 = map period_in p1
      | inr (p1, _), inr (p2, _) => p2 = map period_in p1
      | _, _ => False
      end.

    Lemma step_quote n ps l1 l2 :
      orel step_rel (eval_step cfg ec history side te lg1 hl1 (n, ps, l1))
                    (eval_step (account_in cfg) ec (map tick_in history) side te lg2 hl2 (n, map period_in ps, l2)).
    Proof.
      unfold eval_step. destruct (eval_window ec n) as [st en]. destruct (en >? _)%Z; [reflexivity|].
      rewrite subset_in. destruct (HistorySubset timestamp_sec history st en) as [b e].
      destruct (b =? e)%nat; [cbn; auto|]. destruct (e <? b)%nat; [exact I|].
      assert (Er : range (map tick_in history) b e = map tick_in (range history b e)).
      { unfold range. rewrite skipn_map, firstn_map. reflexivity. }
      rewrite Er. eapply orel_bind; [apply run_quote|].
      intros [r1 z1] [r2 z2] _ _ Hr. cbn [fst] in Hr. subst r2.
      cbn [result_in r_start_value r_end_value r_start_price r_end_price]. machine. rewrite !lt_k0.
      apply orel_assert; [reflexivity|]. apply orel_assert; [reflexivity|].
      cbv zeta. rewrite !div_k. destruct (evaluation_period_months ec =? 0)%Z; cbn; rewrite map_app; auto.
    Qed.

    Lemma loop_quote fuel n ps l1 l2 :
      orel (fun x y => fst y = map period_in (fst x))
        (eval_loop cfg ec history side te lg1 hl1 fuel (n, ps, l1))
        (eval_loop (account_in cfg) ec (map tick_in history) side te lg2 hl2 fuel (n, map period_in ps, l2)).
    Proof.
      revert n ps l1 l2. induction fuel as [|fuel IH]; intros n ps l1 l2; [exact I|]. cbn [eval_loop].
      eapply orel_bind; [apply step_quote|].
      intros [[[n1 p1] z1]|[p1 z1]] [[[n2 p2] z2]|[p2 z2]] _ _ H; cbn in H; try contradiction.
      - destruct H as [-> ->]. apply IH.
      - exact H.
    Qed.

    Lemma fold_fee ps z :
      fold_left (fun sum e => @fadd E sum (@r_total_fee E (p_result e))) (map period_in ps) (k * z)
      = k * fold_left (fun sum e => @fadd E sum (@r_total_fee E (p_result e))) ps z.
    Proof.
      revert z. induction ps as [|p ps IH]; intros z; [reflexivity|]. cbn [map fold_left].
      rewrite <- IH. f_equal. cbn. ring.
    Qed.

    Lemma fold_map {A} (g : A -> @period E -> A) ps z :
      (forall x p, g x (period_in p) = g x p) -> fold_left g (map period_in ps) z = fold_left g ps z.
    Proof. intros H. revert z. induction ps as [|p ps IH]; intros z; [reflexivity|]. cbn. rewrite H. apply IH. Qed.

    Lemma average_in sel ps :
      (forall p, sel (period_in p) = sel p) -> @GetAverage E _ (map period_in ps) sel = @GetAverage E _ ps sel.
    Proof.
      intros H. unfold GetAverage. destruct ps as [|p ps]; [reflexivity|].
      change (map period_in (p :: ps)) with (period_in p :: map period_in ps) at 1. cbv iota.
      rewrite map_length, fold_map; [reflexivity|]. intros. rewrite H. reflexivity.
    Qed.

    Lemma summary_quote ps :
      orel (fun x y => y = evaluation_in sh as_ k x)
        (eval_summary cfg ec te ps) (eval_summary (account_in cfg) ec te (map period_in ps)).
    Proof.
      unfold eval_summary. eapply (orel_bind eq).
      - unfold GetGeometricAverage. destruct ps as [|p ps]; [reflexivity|].
        change (map period_in (p :: ps)) with (period_in p :: map period_in ps) at 1. cbv iota zeta.
        rewrite map_length, fold_map by reflexivity. apply orel_refl.
      - intros sc ? _ _ <-. cbn [orel]. unfold evaluation_in.
        cbn [er_account_config er_eval_config er_name er_period er_score er_avg_gain er_avg_base_gain er_avg_total_executed_orders er_avg_total_fee].
        rewrite !average_in by reflexivity. f_equal.
        unfold GetAverage. destruct ps as [|p ps]; [cbn; ring|].
        change (map period_in (p :: ps)) with (period_in p :: map period_in ps) at 1. cbv iota. rewrite map_length.
        change (@fofZ E 0) with 0. rewrite <- (Rmult_0_r k) at 1. rewrite fold_fee. machine. apply div_kr.
    Qed.

    Lemma evaluate_quote fuel l1 l2 :
      orel (fun x y => fst y = evaluation_in sh as_ k (fst x))
        (EvaluateTrader cfg ec history side te lg1 hl1 fuel l1)
        (EvaluateTrader (account_in cfg) ec (map tick_in history) side te lg2 hl2 fuel l2).
    Proof.
      unfold EvaluateTrader. eapply orel_bind; [apply (loop_quote fuel 0 [] l1 l2)|].
      intros [p1 z1] [p2 z2] _ _ H. cbn [fst] in H. subst p2.
      eapply orel_bind; [apply summary_quote|]. intros x y _ _ ->. reflexivity.
    Qed.
  End Run.
End Quoted.
