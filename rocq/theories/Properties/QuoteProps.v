(** C113: orders for a quote amount. *)
From Coq Require Import Reals ZArith Bool List Lra Lia.
From Flocq Require Import Core.
From Verif.Model Require Import Outcome Machine Types Account MachineR.
From Verif.Spec Require Import AccountSpec OrderSpec QuoteSpec.
From Verif.Proofs Require Import Base AccountExact QuoteProofs.
From Verif.Properties Require Import AccountProps.
Local Open Scope R_scope.

Section Quote.
  Context (sh : R -> String.string) (as_ : bool).
  Local Notation E := (exact sh as_).

  (** An order for a quote amount is executed exactly when it is triggered and its plan is
      feasible; then the account changes by exactly the planned trade, otherwise not at all. *)
  Theorem C113_quote_orders (cf : @account_config E) (o : @order E) (t : @ohlc_tick E) (a : @account E) ty sd limit x cap q f b c g :
    sane_config cf -> sane_account a -> sane_tick t -> order_parts o ty sd limit (@QuoteAmount E x) ->
    base_cap a t ty cap ->
    let p := execution_price (market_liquidity a) ty sd limit t in
    quote_plan (fees_of cf ty) a sd p x cap q f b c g ->
    exists ok a', @ExecuteOrder E cf o t a = Done (ok, a') /\
      (ok = true <-> triggered ty sd limit t /\ feasible a sd q f b c g) /\
      (ok = true -> booked a (Trade sd p b c g) a') /\ (ok = false -> a' = a).
  Proof. exact (quote_order cf o t a ty sd limit x cap q f b c g). Qed.

  (** The plan exists. *)
  Theorem C113_plan_exists (fc : @fee_config E) (a : @account E) sd p x cap : sane_account a -> 0 <= x ->
    exists q f b c g, quote_plan fc a sd p x cap q f b c g.
  Proof. exact (plan_exists fc a sd p x cap). Qed.

  (** An executed buy never spends more than the (rounded) request, fee included, and unless the
      volume cap bites it leaves less than the price of one base unit, plus the difference of
      the fees reserved and charged, unspent. *)
  Theorem C113_buy_spends_request (cf : @account_config E) (o : @order E) (t : @ohlc_tick E) (a a' : @account E) ty limit x cap q f b c g :
    sane_config cf -> sane_account a -> sane_tick t -> order_parts o ty BUY limit (@QuoteAmount E x) ->
    base_cap a t ty cap ->
    let p := execution_price (market_liquidity a) ty BUY limit t in
    quote_plan (fees_of cf ty) a BUY p x cap q f b c g ->
    @ExecuteOrder E cf o t a = Done (true, a') ->
    let spent := (quote_balance a : R) - quote_balance a' in
    spent <= q /\ ((q - f) / p <= cap -> q - spent <= base_unit a * p + (f - g)).
  Proof.
    intros Hc Ha Ht Ho Hcap p Pl He spent.
    destruct (quote_order cf o t a ty BUY limit x cap q f b c g Hc Ha Ht Ho Hcap Pl) as (ok & a1 & E1 & Hiff & Hb & _).
    rewrite He in E1. injection E1 as <- <-. destruct (proj1 Hiff eq_refl) as (T & F). specialize (Hb eq_refl).
    destruct F as (_ & _ & F & _).
    assert (P : 0 < p).
    { inversion Ho as [am Hty Hsd Hpr Ham Hpos]. apply execution_price_pos; auto; [apply Ha|]. destruct Hpr as [?|[_ ?]]; auto. }
    assert (X : 0 <= x) by (inversion Ho; apply Rlt_le; assumption).
    assert (C0 : 0 <= cap).
    { destruct ty; cbn [base_cap] in Hcap; [subst cap; apply rmaxval_nonneg|subst cap; apply rmaxval_nonneg|].
      eapply volume_cap_nonneg; eauto. }
    assert (HF : sane_fees (fees_of cf ty)) by (destruct Hc, ty; assumption).
    destruct (plan_buy_bounds (fees_of cf ty) a p x cap q f b c g Ha HF P X C0 F Pl) as (_ & K1 & K2).
    destruct Hb as ((_ & Hb) & _). cbn [tr_quote tr_fee] in Hb. unfold spent. change (@flt E) with R in *.
    rewrite Hb. replace (quote_balance a - (quote_balance a - c - g)) with (c + g) by ring. auto.
  Qed.

  (** An executed sale never earns more than the (rounded) request, net of the fee, and unless
      the volume cap bites it earns less than that by at most the price of one base unit, one
      quote unit and the difference of the fees. *)
  Theorem C113_sell_earns_request (cf : @account_config E) (o : @order E) (t : @ohlc_tick E) (a a' : @account E) ty limit x cap q f b c g :
    sane_config cf -> sane_account a -> sane_tick t -> order_parts o ty SELL limit (@QuoteAmount E x) ->
    base_cap a t ty cap ->
    let p := execution_price (market_liquidity a) ty SELL limit t in
    quote_plan (fees_of cf ty) a SELL p x cap q f b c g ->
    @ExecuteOrder E cf o t a = Done (true, a') ->
    let earned := (quote_balance a' : R) - quote_balance a in
    earned <= q /\ ((q + f) / p <= cap -> q - earned <= base_unit a * p + quote_unit a + (g - f)).
  Proof.
    intros Hc Ha Ht Ho Hcap p Pl He earned.
    destruct (quote_order cf o t a ty SELL limit x cap q f b c g Hc Ha Ht Ho Hcap Pl) as (ok & a1 & E1 & Hiff & Hb & _).
    rewrite He in E1. injection E1 as <- <-. destruct (proj1 Hiff eq_refl) as (T & F). specialize (Hb eq_refl).
    assert (P : 0 < p).
    { inversion Ho as [am Hty Hsd Hpr Ham Hpos]. apply execution_price_pos; auto; [apply Ha|]. destruct Hpr as [?|[_ ?]]; auto. }
    assert (X : 0 <= x) by (inversion Ho; apply Rlt_le; assumption).
    assert (C0 : 0 <= cap).
    { destruct ty; cbn [base_cap] in Hcap; [subst cap; apply rmaxval_nonneg|subst cap; apply rmaxval_nonneg|].
      eapply volume_cap_nonneg; eauto. }
    assert (HF : sane_fees (fees_of cf ty)) by (destruct Hc, ty; assumption).
    destruct (plan_sell_bounds (fees_of cf ty) a p x cap q f b c g Ha HF P X C0 Pl) as (_ & K1 & K2).
    destruct Hb as ((_ & Hb) & _). cbn [tr_quote tr_fee] in Hb. unfold earned. change (@flt E) with R in *.
    rewrite Hb. replace (quote_balance a + c - g - quote_balance a) with (c - g) by ring. auto.
  Qed.

  (** Example: selling for 150 quote at a stop of 95 (executed at 92.5) sells 1.625 base for
      150.25 less a fee of 1.75. *)
  Lemma C113_ex : exists a', @ExecuteOrder E (ex_config sh as_) (ex_sell sh as_) (ex_tick sh as_) (@InitAccount E (ex_config sh as_)) = Done (true, a') /\
    (base_balance a' : R) = 10 - 13 / 8 /\ (quote_balance a' : R) = 1000 + 601 / 4 - 7 / 4 /\ (total_fee a' : R) = 7 / 4.
  Proof.
    destruct (exact_hypotheses_met sh as_) as (Hc & Ha & Ht & _ & Ho & _).
    pose proof rmaxval_nonneg as HM.
    destruct (quote_order (ex_config sh as_) (ex_sell sh as_) (ex_tick sh as_) (@InitAccount E (ex_config sh as_)) STOP SELL 95 150 rmaxval 150 (3 / 2) (13 / 8) (601 / 4) (7 / 4) Hc Ha Ht Ho) as (ok & a' & H & Hiff & Hb & _).
    - reflexivity.
    - assert (BIG : (150 + 3 / 2) / (185 / 2) <= rmaxval) by (unfold rmaxval; cbn; lra).
      assert (P : execution_price (market_liquidity (@InitAccount E (ex_config sh as_))) STOP SELL 95 (ex_tick sh as_) = 185 / 2).
      { cbn. unfold between. rewrite Rmin_left by lra. lra. }
      rewrite P. split.
      + split; [right; exists 600%Z; cbn; lra|]. cbn. destruct (Req_EM_T _ _); lra.
      + split; [right; exists 6%Z; cbn; lra|]. cbn. rewrite Rmax_right by lra. destruct (Req_EM_T _ _); lra.
      + rewrite Rmin_left by exact BIG. split; [right; exists 13%Z; cbn; lra|]. cbn. destruct (Req_EM_T _ _); lra.
      + split; [right; exists 601%Z; cbn; lra|]. cbn. destruct (Req_EM_T _ _); lra.
      + split; [right; exists 7%Z; cbn; lra|]. cbn. rewrite Rmax_right by lra. destruct (Req_EM_T _ _); lra.
    - assert (OK : ok = true) by (apply Hiff; split; [cbn; lra|unfold feasible; cbn; repeat split; lra]).
      exists a'. rewrite OK in H. split; [exact H|]. destruct (Hb OK) as ((B1 & B2) & B3 & _). cbn in B1, B2, B3.
      rewrite B1, B2, B3. cbn. repeat split; lra.
  Qed.
End Quote.

Print Assumptions C113_quote_orders.
Print Assumptions C113_sell_earns_request.
