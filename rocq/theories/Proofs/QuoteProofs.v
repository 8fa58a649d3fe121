(** Exact settlement of orders for a quote amount. *)
From Coq Require Import Reals ZArith Bool List Lra Lia.
From Flocq Require Import Core.
From Verif.Model Require Import Outcome Machine Types Account MachineR.
From Verif.Spec Require Import AccountSpec OrderSpec QuoteSpec.
From Verif.Proofs Require Import Base AccountExact.
From Verif.Properties Require Import AccountProps.
Local Open Scope R_scope.

Section Quote.
  Context {sh : R -> String.string} {as_ : bool}.
  Local Notation E := (exact sh as_).

  Lemma scale_le p b y z : 0 < p -> b <= y / p -> y = z -> b * p <= z.
  Proof. intros Hp H <-. replace y with (y / p * p) by (field; lra). apply Rmult_le_compat_r; lra. Qed.

  Lemma plan_buy_bounds (fc : @fee_config E) (a : @account E) p x cap q f b c g :
    sane_account a -> sane_fees fc -> 0 < p -> 0 <= x -> 0 <= cap -> f < q ->
    quote_plan fc a BUY p x cap q f b c g ->
    0 <= b /\ c + g <= q /\ ((q - f) / p <= cap -> q - (c + g) <= base_unit a * p + (f - g)).
  Proof.
    intros [] Hf Hp Hx Hcap Hfq [Hq HF Hb Hc Hg]. change (@flt E) with R in *.
    assert (D : 0 <= (q - f) / p) by (apply Rmult_le_pos; [lra|left; apply Rinv_0_lt_compat; lra]).
    assert (B0 : 0 <= b) by (apply (rounded_down_nonneg (base_unit a) (Rmin ((q - f) / p) cap)); auto; apply Rmin_glb; auto).
    assert (L : b * p <= q - f).
    { apply (scale_le p b (q - f)); auto. apply rounded_down_le in Hb. eapply Rle_trans; [exact Hb|apply Rmin_l]. }
    assert (C : c <= q - f).
    { apply (rounded_up_le_whole (quote_unit a) (b * p)); auto. apply whole_units_minus; [apply Hq|apply HF]. }
    assert (F0 : 0 <= f) by (apply (fee_due_nonneg fc (quote_unit a) q); auto).
    assert (G : g <= f) by (apply (fee_due_mono fc (quote_unit a) c q); auto; lra).
    split; [exact B0|]. split; [lra|]. intros HC. rewrite Rmin_left in Hb by exact HC.
    apply rounded_up_ge in Hc.
    assert (U : q - f <= (b + base_unit a) * p).
    { replace (q - f) with ((q - f) / p * p) by (field; lra). apply Rmult_le_compat_r; [lra|].
      destruct Hb as (_ & Hb). destruct (Req_EM_T (base_unit a) 0) as [Z|Z]; change (@flt E) with R in *; lra. }
    replace ((b + base_unit a) * p) with (b * p + base_unit a * p) in U by ring. lra.
  Qed.

  Lemma plan_sell_bounds (fc : @fee_config E) (a : @account E) p x cap q f b c g :
    sane_account a -> sane_fees fc -> 0 < p -> 0 <= x -> 0 <= cap ->
    quote_plan fc a SELL p x cap q f b c g ->
    0 <= b /\ c - g <= q /\ ((q + f) / p <= cap -> q - (c - g) <= base_unit a * p + quote_unit a + (g - f)).
  Proof.
    intros [] Hf Hp Hx Hcap [Hq HF Hb Hc Hg]. change (@flt E) with R in *.
    assert (Q0 : 0 <= q) by (apply (rounded_near_nonneg (quote_unit a) x q); auto).
    assert (F0 : 0 <= f) by (apply (fee_due_nonneg fc (quote_unit a) q); auto).
    assert (G0 : 0 <= g) by (apply (fee_due_nonneg fc (quote_unit a) c); auto).
    assert (D : 0 <= (q + f) / p) by (apply Rmult_le_pos; [lra|left; apply Rinv_0_lt_compat; lra]).
    assert (B0 : 0 <= b) by (apply (rounded_down_nonneg (base_unit a) (Rmin ((q + f) / p) cap)); auto; apply Rmin_glb; auto).
    assert (L : b * p <= q + f).
    { apply (scale_le p b (q + f)); auto. apply rounded_down_le in Hb. eapply Rle_trans; [exact Hb|apply Rmin_l]. }
    pose proof (rounded_down_le _ _ _ Hc) as C.
    split; [exact B0|]. split.
    - destruct (Rle_or_lt q c) as [K|K]; [|lra].
      assert (f <= g) by (apply (fee_due_mono fc (quote_unit a) q c); auto). lra.
    - intros HC. rewrite Rmin_left in Hb by exact HC.
      assert (U : q + f <= (b + base_unit a) * p).
      { replace (q + f) with ((q + f) / p * p) by (field; lra). apply Rmult_le_compat_r; [lra|].
        destruct Hb as (_ & Hb). destruct (Req_EM_T (base_unit a) 0) as [Z|Z]; change (@flt E) with R in *; lra. }
      replace ((b + base_unit a) * p) with (b * p + base_unit a * p) in U by ring.
      destruct Hc as (_ & Hc). destruct (Req_EM_T (quote_unit a) 0) as [Z|Z]; change (@flt E) with R in *; lra.
  Qed.

  Lemma BuyAtQuote_exact (fc : @fee_config E) (x p m : R) (a : @account E) q f b c g :
    sane_account a -> sane_fees fc -> 0 < p -> 0 <= x -> 0 <= m -> quote_plan fc a BUY p x m q f b c g ->
    exists ok a', @BuyAtQuote E fc x p m a = Done (ok, a') /\
      (ok = true <-> feasible a BUY q f b c g) /\ (ok = true -> booked a (Trade BUY p b c g) a') /\ (ok = false -> a' = a).
  Proof.
    intros Ha Hfc Hp Hx Hm Pl. pose proof Ha as []. pose proof Pl as [Hq HF Hb Hc Hg].
    unfold BuyAtQuote. cbn [fltb fleb fofZ exact].
    rewrite Rlt_bool_true by exact Hp. rewrite assert_true. cbn [bind].
    rewrite Rle_bool_true by exact Hx. rewrite assert_true. cbn [bind].
    assert (Eq : @Round E x (quote_unit a) = q) by (apply (rounded_near_unique (quote_unit a) x); auto; apply Round_rounded; auto).
    rewrite Eq. assert (EF : @GetFee E a fc q = f) by (apply (fee_due_unique fc (quote_unit a) q); auto; apply GetFee_due; auto).
    rewrite EF. unfold feasible.
    destruct (Rlt_bool_spec q (quote_unit a)) as [H1|H1]; cbn [orb].
    { do 2 eexists; split; [reflexivity|]. split; [|split; congruence]. split; [discriminate|]. intros (K & _). change (@flt E) with R in *. lra. }
    destruct (Rlt_bool_spec (quote_balance a) q) as [H2|H2].
    { do 2 eexists; split; [reflexivity|]. split; [|split; congruence]. split; [discriminate|]. intros (_ & _ & _ & K). change (@flt E) with R in *. lra. }
    destruct (Rle_bool_spec q f) as [H3|H3].
    { do 2 eexists; split; [reflexivity|]. split; [|split; congruence]. split; [discriminate|]. intros (_ & _ & K & _). change (@flt E) with R in *. lra. }
    rewrite fmin_Rmin. cbn [fdiv fsub exact].
    assert (Eb : @Floor E (Rmin ((q - f) / p) m) (base_unit a) = b) by (apply (rounded_down_unique (base_unit a) (Rmin ((q - f) / p) m)); auto; apply Floor_rounded; auto).
    rewrite Eb. destruct (plan_buy_bounds fc a p x m q f b c g Ha Hfc Hp Hx Hm H3 Pl) as (B0 & BC & _).
    destruct (Rlt_bool_spec b (base_unit a)) as [H4|H4].
    { do 2 eexists; split; [reflexivity|]. split; [|split; congruence]. split; [discriminate|]. intros (_ & K & _). change (@flt E) with R in *. lra. }
    rewrite (BuyBase_exact fc b p a b c g Ha Hfc Hp B0 (rounded_near_whole _ _ (proj1 Hb) sa_base_unit) Hc Hg).
    destruct (Rle_dec (base_unit a) b) as [_|N]; [|contradiction].
    destruct (Rle_dec (c + g) (quote_balance a)) as [_|N]; [|exfalso; change (@flt E) with R in *; lra].
    do 2 eexists; split; [reflexivity|]. split; [split; auto|]. split; [|discriminate]. intros _.
    unfold booked. cbn [tr_side tr_base tr_quote tr_fee set_balances base_balance quote_balance total_fee base_unit quote_unit market_liquidity max_volume_ratio].
    repeat split; auto. change (@flt E) with R in *. lra.
  Qed.

  Lemma SellAtQuote_exact (fc : @fee_config E) (x p m : R) (a : @account E) q f b c g :
    sane_account a -> sane_fees fc -> 0 < p -> 0 <= x -> 0 <= m -> quote_plan fc a SELL p x m q f b c g ->
    exists ok a', @SellAtQuote E fc x p m a = Done (ok, a') /\
      (ok = true <-> feasible a SELL q f b c g) /\ (ok = true -> booked a (Trade SELL p b c g) a') /\ (ok = false -> a' = a).
  Proof.
    intros Ha Hfc Hp Hx Hm Pl. pose proof Ha as []. pose proof Pl as [Hq HF Hb Hc Hg].
    unfold SellAtQuote. cbn [fltb fleb fofZ exact].
    rewrite Rlt_bool_true by exact Hp. rewrite assert_true. cbn [bind].
    rewrite Rle_bool_true by exact Hx. rewrite assert_true. cbn [bind].
    assert (Eq : @Round E x (quote_unit a) = q) by (apply (rounded_near_unique (quote_unit a) x); auto; apply Round_rounded; auto).
    rewrite Eq. assert (EF : @GetFee E a fc q = f) by (apply (fee_due_unique fc (quote_unit a) q); auto; apply GetFee_due; auto).
    rewrite EF. unfold feasible.
    destruct (Rlt_bool_spec q (quote_unit a)) as [H1|H1].
    { do 2 eexists; split; [reflexivity|]. split; [|split; congruence]. split; [discriminate|]. intros (K & _). change (@flt E) with R in *. lra. }
    rewrite fmin_Rmin. cbn [fdiv fadd exact].
    assert (Eb : @Floor E (Rmin ((q + f) / p) m) (base_unit a) = b) by (apply (rounded_down_unique (base_unit a) (Rmin ((q + f) / p) m)); auto; apply Floor_rounded; auto).
    rewrite Eb. destruct (plan_sell_bounds fc a p x m q f b c g Ha Hfc Hp Hx Hm Pl) as (B0 & BC & _).
    destruct (Rlt_bool_spec b (base_unit a)) as [H4|H4].
    { do 2 eexists; split; [reflexivity|]. split; [|split; congruence]. split; [discriminate|]. intros (_ & K & _). change (@flt E) with R in *. lra. }
    rewrite (SellBase_exact fc b p a b c g Ha Hfc Hp B0 (rounded_near_whole _ _ (proj1 Hb) sa_base_unit) Hc Hg).
    destruct (Rle_dec (base_unit a) b) as [_|N]; [|contradiction].
    destruct (Rle_dec b (base_balance a)) as [H5|H5].
    2: { do 2 eexists; split; [reflexivity|]. split; [|split; congruence]. split; [discriminate|]. intros (_ & _ & K & _). contradiction. }
    destruct (Rle_dec (quote_unit a) (c - g)) as [H6|H6].
    2: { do 2 eexists; split; [reflexivity|]. split; [|split; congruence]. split; [discriminate|]. intros (_ & _ & _ & K). contradiction. }
    do 2 eexists; split; [reflexivity|]. split; [split; auto|]. split; [|discriminate]. intros _.
    unfold booked. cbn [tr_side tr_base tr_quote tr_fee set_balances base_balance quote_balance total_fee base_unit quote_unit market_liquidity max_volume_ratio].
    repeat split; auto. change (@flt E) with R in *. lra.
  Qed.

  Lemma quote_parts_is (o : @order E) ty sd limit x : order_parts o ty sd limit (@QuoteAmount E x) -> @order_is E o ty sd (@QuoteAmount E x) limit.
  Proof.
    intros H. inversion H as [am Hty Hsd Hpr Ham Hpos]; subst am.
    assert (P : @positive E x) by (apply Rlt_bool_true; exact Hpos).
    destruct ty.
    - apply order_is_market; auto.
    - destruct Hpr as [?|(Hpr & Hl)]; [discriminate|]. apply order_is_priced; auto; [discriminate|apply Rlt_bool_true; exact Hl].
    - destruct Hpr as [?|(Hpr & Hl)]; [discriminate|]. apply order_is_priced; auto; [discriminate|apply Rlt_bool_true; exact Hl].
  Qed.

  Lemma cap_unique (a : @account E) t cap cap' : sane_account a -> volume_cap a t cap -> volume_cap a t cap' -> cap = cap'.
  Proof.
    intros [] H1 H2. unfold volume_cap in *. destruct (Rlt_dec 0 (max_volume_ratio a)); [|congruence].
    apply (rounded_down_unique (base_unit a) (max_volume_ratio a * volume t)); auto.
  Qed.

  Theorem quote_order (cf : @account_config E) (o : @order E) (t : @ohlc_tick E) (a : @account E) ty sd limit x cap q f b c g :
    sane_config cf -> sane_account a -> sane_tick t -> order_parts o ty sd limit (@QuoteAmount E x) ->
    base_cap a t ty cap ->
    let p := execution_price (market_liquidity a) ty sd limit t in
    quote_plan (fees_of cf ty) a sd p x cap q f b c g ->
    exists ok a', @ExecuteOrder E cf o t a = Done (ok, a') /\
      (ok = true <-> triggered ty sd limit t /\ feasible a sd q f b c g) /\
      (ok = true -> booked a (Trade sd p b c g) a') /\ (ok = false -> a' = a).
  Proof.
    intros Hc Ha Ht Ho Hcap p Pl. pose proof (quote_parts_is o ty sd limit x Ho) as Hi.
    pose proof (C12_dispatch E cf o t a ty sd (@QuoteAmount E x) limit Hi) as HD.
    inversion Ho as [am Hty Hsd Hpr Ham Hpos]; subst am.
    assert (Hx : 0 <= x) by (apply Rlt_le; exact Hpos).
    assert (Hlimit : ty = MARKET \/ 0 < limit) by (destruct Hpr as [?|[_ ?]]; auto).
    pose proof Ha as [_ _ _ _ _ _ _ Hliq _]. destruct Hc as [Hm Hs Hl].
    pose proof (fun h => execution_price_pos (market_liquidity a) ty sd limit t Hliq Ht h Hlimit) as Hep. fold p in Hep.
    pose proof rmaxval_nonneg as Hmax. pose proof (GetMaxBaseAmount_cap a t Ha) as Hvc.
    assert (R0 : forall (X : outcome (bool * @account E)) P, 0 < p -> (exists ok a', X = Done (ok, a') /\ (ok = true <-> P) /\ (ok = true -> booked a (Trade sd p b c g) a') /\ (ok = false -> a' = a)) ->
               triggered ty sd limit t -> exists ok a', X = Done (ok, a') /\ (ok = true <-> triggered ty sd limit t /\ P) /\ (ok = true -> booked a (Trade sd p b c g) a') /\ (ok = false -> a' = a)).
    { intros X P _ (ok & a' & E1 & E2 & E3) T. exists ok, a'. split; [exact E1|]. split; [|exact E3]. tauto. }
    assert (T0 : ~ triggered ty sd limit t -> exists ok a', (Done (false, a) : outcome (bool * @account E)) = Done (ok, a') /\
               (ok = true <-> triggered ty sd limit t /\ feasible a sd q f b c g) /\ (ok = true -> booked a (Trade sd p b c g) a') /\ (ok = false -> a' = a)).
    { intros N. exists false, a. split; [reflexivity|]. split; [|split; [discriminate|reflexivity]]. split; [discriminate|tauto]. }
    destruct ty, sd; cbn [operation] in HD; injection HD as HD; rewrite <- HD; cbn [fees_of base_cap] in *.
    - subst cap. apply R0; [apply Hep; exact Logic.I| |exact Logic.I]. apply BuyAtQuote_exact; auto. apply Hep; exact Logic.I.
    - subst cap. apply R0; [apply Hep; exact Logic.I| |exact Logic.I]. apply SellAtQuote_exact; auto. apply Hep; exact Logic.I.
    - subst cap. destruct Hlimit as [?|Hlp]; [discriminate|]. unfold StopBuyAtQuote. cbn [fltb fleb fofZ exact].
      rewrite Rlt_bool_true by exact Hlp. rewrite assert_true. cbn [bind]. rewrite Rle_bool_true by exact Hx. rewrite assert_true. cbn [bind].
      destruct (Rlt_bool_spec (high t) limit) as [T|T]; [apply T0; cbn [triggered]; change (@flt E) with R in *; lra|].
      rewrite (price_SB a t limit). fold p. apply R0; [apply Hep; exact T| |exact T]. apply BuyAtQuote_exact; auto.
    - subst cap. destruct Hlimit as [?|Hlp]; [discriminate|]. unfold StopSellAtQuote. cbn [fltb fleb fofZ exact].
      rewrite Rlt_bool_true by exact Hlp. rewrite assert_true. cbn [bind]. rewrite Rle_bool_true by exact Hx. rewrite assert_true. cbn [bind].
      destruct (Rlt_bool_spec limit (low t)) as [T|T]; [apply T0; cbn [triggered]; change (@flt E) with R in *; lra|].
      rewrite (price_SS a t limit). fold p. apply R0; [apply Hep; exact T| |exact T]. apply SellAtQuote_exact; auto.
    - assert (Ecap : @GetMaxBaseAmount E a t = cap) by (eapply cap_unique; eauto).
      destruct Hlimit as [?|Hlp]; [discriminate|]. unfold LimitBuyAtQuote. cbn [fltb fleb fofZ exact].
      rewrite Rlt_bool_true by exact Hlp. rewrite assert_true. cbn [bind]. rewrite Rle_bool_true by exact Hx. rewrite assert_true. cbn [bind].
      destruct (Rlt_bool_spec limit (low t)) as [T|T]; [apply T0; cbn [triggered]; change (@flt E) with R in *; lra|].
      rewrite Ecap. apply R0; [apply Hep; exact T| |exact T]. apply BuyAtQuote_exact; auto. eapply volume_cap_nonneg; eauto.
    - assert (Ecap : @GetMaxBaseAmount E a t = cap) by (eapply cap_unique; eauto).
      destruct Hlimit as [?|Hlp]; [discriminate|]. unfold LimitSellAtQuote. cbn [fltb fleb fofZ exact].
      rewrite Rlt_bool_true by exact Hlp. rewrite assert_true. cbn [bind]. rewrite Rle_bool_true by exact Hx. rewrite assert_true. cbn [bind].
      destruct (Rlt_bool_spec (high t) limit) as [T|T]; [apply T0; cbn [triggered]; change (@flt E) with R in *; lra|].
      rewrite Ecap. apply R0; [apply Hep; exact T| |exact T]. apply SellAtQuote_exact; auto. eapply volume_cap_nonneg; eauto.
  Qed.

  Lemma plan_exists (fc : @fee_config E) (a : @account E) sd p x cap : sane_account a -> 0 <= x ->
    exists q f b c g, quote_plan fc a sd p x cap q f b c g.
  Proof.
    intros [] Hx. destruct (@rounded_near_exists sh as_ (quote_unit a) x sa_quote_unit Hx) as (q & Hq).
    pose proof (@GetFee_due sh as_ a fc q sa_quote_unit) as HF. set (f := @GetFee E a fc q) in *.
    destruct (@rounded_down_exists sh as_ (base_unit a) (Rmin (match sd with BUY => q - f | SELL => q + f end / p) cap) sa_base_unit) as (b & Hb).
    assert (K : exists c, match sd with BUY => rounded_up | SELL => rounded_down end (quote_unit a) (b * p) c)
      by (destruct sd; [apply (@rounded_up_exists sh as_)|apply (@rounded_down_exists sh as_)]; exact sa_quote_unit).
    destruct K as (c & K). exists q, f, b, c, (@GetFee E a fc c). split; auto. apply GetFee_due; auto.
  Qed.
End Quote.
