(** Orders of the float account: the trade an accepted order stands for. *)
From Coq Require Import Reals ZArith Bool List Lra Lia.
From Flocq Require Import Core BinarySingleNaN Plus_error.
From Verif.Model Require Import Outcome Machine Types Account MachineIEEE.
From Verif.Spec Require Import AccountSpec AccountIEEESpec OrderSpec SetupSpec FloatTradeSpec.
From Verif.Proofs Require Import Base FloatLemmas FloatErr AccountAny AccountIEEE AccountErr AccountBook.
Import ListNotations.
Local Open Scope R_scope.

Section Trade.
  Context {lm : libm} {as_ : bool}.
  Local Notation I := (ieee lm as_).

  (** The price between two prices. *)
  Lemma mix_err l x y :
    in_range 0 1 l -> ok_price x -> ok_price y ->
    let P := B2R (Bplus mode_NE (Bmult mode_NE l x) (Bmult mode_NE (Bminus mode_NE (f32_of_Z 1) l) y)) in
    let V := between (B2R l) (B2R x) (B2R y) in
    bpow radix2 (-26) <= V /\ V - 4 * eps * V <= P <= V + 4 * eps * V.
  Proof.
    intros [Fl Hl] [Fx Hx] [Fy Hy]. destruct (@one_finite) as [F1 R1].
    pose proof (bpow_gt_0 radix2 (-26)) as H26.
    destruct (Bminus_nneg 0 (f32_of_Z 1) l ltac:(lia)) as [Hm Em].
    { split; auto. rewrite R1. simpl. lra. }
    { split; auto. }
    { rewrite R1. lra. }
    set (m := Bminus mode_NE (f32_of_Z 1) l) in *.
    destruct (Bmult_nneg 0 26 l x ltac:(lia)) as [Hp1 E1].
    { split; auto. } { split; auto. lra. }
    destruct (Bmult_nneg 0 26 m y ltac:(lia) Hm) as [Hp2 E2].
    { split; auto. lra. }
    change (0 + 26)%Z with 26%Z in *.
    destruct (Bplus_nneg 26 _ _ ltac:(lia) Hp1 Hp2) as [Hs Es]. cbv zeta. rewrite Es, E1, E2, Em, R1. clear Es E1 E2 Hs Hp1 Hp2 Hm m Em.
    unfold between. set (L := B2R l) in *. set (X := B2R x) in *. set (Y := B2R y) in *.
    assert (PX : 0 <= L * X) by (apply Rmult_le_pos; lra). assert (PY : 0 <= (1 - L) * Y) by (apply Rmult_le_pos; lra).
    pose proof (rnd_err_le (1 - L) ltac:(lra)) as K1. pose proof (rnd_nonneg (1 - L) ltac:(lra)) as N1. set (m := rnd (1 - L)) in *.
    assert (PmY : 0 <= m * Y) by (apply Rmult_le_pos; lra).
    assert (K2 : (1 - L) * Y - (1 - L) * Y * eps - eta * Y <= m * Y <= (1 - L) * Y + (1 - L) * Y * eps + eta * Y).
    { split; [apply Rle_trans with (((1 - L) - (1 - L) * eps - eta) * Y)|apply Rle_trans with (((1 - L) + (1 - L) * eps + eta) * Y)];
        try lra; apply Rmult_le_compat_r; lra. }
    pose proof (rnd_err_le (m * Y) PmY) as K3. pose proof (rnd_nonneg _ PmY) as N3. set (mY := rnd (m * Y)) in *.
    pose proof (rnd_err_le (L * X) PX) as K4. pose proof (rnd_nonneg _ PX) as N4. set (lX := rnd (L * X)) in *.
    pose proof (rnd_err_le (lX + mY) ltac:(lra)) as K5. set (P := rnd (lX + mY)) in *.
    assert (HV : bpow radix2 (-26) <= L * X + (1 - L) * Y).
    { assert (L * bpow radix2 (-26) <= L * X) by (apply Rmult_le_compat_l; lra).
      assert ((1 - L) * bpow radix2 (-26) <= (1 - L) * Y) by (apply Rmult_le_compat_l; lra). lra. }
    split; [exact HV|].
    assert (HeY : eta * Y <= bpow radix2 (-124)).
    { apply Rle_trans with (eta * bpow radix2 26); [apply Rmult_le_compat_l; [left; apply eta_pos|lra]|]. unfold eta. rewrite <- bpow_plus. apply bpow_le. lia. }
    assert (He2 : eta <= bpow radix2 (-124)) by (apply bpow_le; lia).
    assert (H124 : bpow radix2 (-124) <= bpow radix2 (-26) * eps * eps).
    { unfold eps. rewrite <- !bpow_plus. apply bpow_le. lia. }
    pose proof eta_pos as He.
    assert (PeY : 0 <= eta * Y) by (apply Rmult_le_pos; lra).
    set (eY := eta * Y) in *. set (A := L * X) in *. set (B := (1 - L) * Y) in *. set (b26 := bpow radix2 (-26)) in *.
    rewrite eps_val in *. lra.
  Qed.

  (** How the amount handed to BuyBase / SellBase comes about. *)
  Definition amount_from (a : @account I) (t : @ohlc_tick I) (ty : order_type) (sd : order_side) (fc : @fee_config I)
             (am : @order_amount I) (P y : f32) : Prop :=
    match am with
    | NoAmount => False
    | BaseAmount x => y = match ty with LIMIT => @fmin I x (@GetMaxBaseAmount I a t) | _ => x end
    | QuoteAmount x =>
      let q0 := @Round I x (quote_unit a) in let f0 := @GetFee I a fc q0 in
      let m := match ty with LIMIT => @GetMaxBaseAmount I a t | _ => @fmaxval I end in
      B2R (base_unit a : f32) <= B2R y /\
      match sd with
      | BUY => B2R (f0 : f32) < B2R (q0 : f32) /\ y = @Floor I (@fmin I (Bdiv mode_NE (Bminus mode_NE q0 f0) P) m) (base_unit a)
      | SELL => y = @Floor I (@fmin I (Bdiv mode_NE (Bplus mode_NE q0 f0) P) m) (base_unit a)
      end
    end.

  Definition settled (sd : order_side) (fc : @fee_config I) (y P : f32) (a a' : @account I) : Prop :=
    match sd with
    | BUY => nneg 77 y /\ B2R y * B2R P <= bpow radix2 87 /\ @BuyBase I fc y P a = Done (true, a')
    | SELL => nneg 78 y /\ @SellBase I fc y P a = Done (true, a')
    end.

  Lemma buy_at_quote fc x p m a a' :
    ok_settings a -> bounded40 a -> ok_fees fc -> exec_price p -> nneg 40 x -> balance_ok m ->
    @BuyAtQuote I fc x p m a = Done (true, a') ->
    let q := @Round I x (quote_unit a) in let f := @GetFee I a fc q in
    let y := @Floor I (@fmin I (Bdiv mode_NE (Bminus mode_NE q f) p) m) (base_unit a) in
    B2R (base_unit a : f32) <= B2R (y : f32) /\ B2R (f : f32) < B2R (q : f32) /\ settled BUY fc y p a a'.
  Proof.
    intros Hset Hb Hfc Hp Hx Hm. pose proof Hset as [Hbu Hqu Hl Hvr].
    unfold BuyAtQuote. cbn [fltb fleb fofZ ieee].
    destruct (@zero_finite) as [F0 R0]. pose proof Hp as [Fp Hp'].
    pose proof (bpow_gt_0 radix2 (-27)) as H20.
    rewrite (fltb_intro (f32_of_Z 0) p) by (auto; lra). rewrite assert_true. cbn [bind].
    pose proof Hx as [Fx Hx'].
    rewrite (fleb_intro (f32_of_Z 0) x) by (auto; lra). rewrite assert_true. cbn [bind].
    pose proof (Round_nneg 40 x (quote_unit a) ltac:(lia) Hx Hqu) as Hq.
    change (40 + 3)%Z with 43%Z in *. cbv zeta.
    set (q := @Round I x (quote_unit a)) in *.
    destruct (Bltb q (quote_unit a) || Bltb (quote_balance a) q); [discriminate|].
    pose proof (GetFee_nneg 43 a fc q ltac:(lia) Hfc Hqu Hq) as Hf.
    change (43 + 4)%Z with 47%Z in *.
    set (f := @GetFee I a fc q) in *.
    destruct (Bleb q f) eqn:Ecmp; [discriminate|].
    apply fleb_false in Ecmp; [|apply Hq|apply Hf].
    cbn [fdiv fsub ieee].
    destruct (Bminus_nneg 47 q f ltac:(lia)) as [Hd _]; auto; [|lra|].
    { apply (nneg_weaken 43); auto. lia. }
    destruct (Bdiv_nneg 27 47 (Bminus mode_NE q f) p ltac:(lia) Hd Fp ltac:(apply Hp')) as [Hdiv Ediv].
    change (27 + 47)%Z with 74%Z in *.
    pose proof (fmin_nneg (lm := lm) (as_ := as_) 74 _ m Hdiv Hm) as Hmin.
    pose proof (Floor_nneg (lm := lm) (as_ := as_) 74 _ (base_unit a) ltac:(lia) Hmin Hbu) as Hfl.
    change (74 + 3)%Z with 77%Z in *.
    pose proof (Floor_le (lm := lm) (as_ := as_) 74 _ (base_unit a) ltac:(lia) Hmin Hbu) as Hle.
    assert (Hmin' : B2R (@fmin I (Bdiv mode_NE (Bminus mode_NE q f) p) m : f32) <= 2 * (B2R (Bminus mode_NE q f) / B2R p)).
    { apply Rle_trans with (B2R (Bdiv mode_NE (Bminus mode_NE q f) p)).
      - unfold fmin. cbn [fltb ieee]. destruct (Bltb m _) eqn:Em; [|lra]. apply fltb_true in Em; [lra|apply Hm|apply Hdiv].
      - rewrite Ediv. apply rnd_le_2. destruct Hd as [_ Hd]. apply Rmult_le_pos; [lra|]. left; apply Rinv_0_lt_compat; lra. }
    set (y := @Floor I (@fmin I (Bdiv mode_NE (Bminus mode_NE q f) p) m) (base_unit a)) in *.
    destruct (Bltb y (base_unit a)) eqn:Ey; [discriminate|].
    apply fltb_false in Ey; [|apply Hfl|apply Hbu].
    intros HB. split; [exact Ey|]. split; [exact Ecmp|]. cbn [settled]. split; [exact Hfl|]. split; [|exact HB].
    assert (Hu20 : 0 <= B2R (base_unit a : f32) <= bpow radix2 20).
    { pose proof (bpow_gt_0 radix2 (-30)). destruct Hbu as [_ [->|Hu]]; [split; [lra|apply bpow_ge_0]|lra]. }
    eapply Rle_trans; [apply Rmult_le_compat_r; [lra|exact Hle]|].
    apply Rle_trans with ((8 * (B2R (Bminus mode_NE q f) / B2R p) + 2 * B2R (base_unit a : f32)) * B2R p).
    { apply Rmult_le_compat_r; lra. }
    replace ((8 * (B2R (Bminus mode_NE q f) / B2R p) + 2 * B2R (base_unit a : f32)) * B2R p)
      with (8 * B2R (Bminus mode_NE q f) + 2 * (B2R (base_unit a : f32) * B2R p)) by (field; lra).
    assert (B2R (base_unit a : f32) * B2R p <= bpow radix2 20 * bpow radix2 27) by (apply Rmult_le_compat; lra).
    rewrite <- bpow_plus in *. assert (bpow radix2 (20 + 27) <= bpow radix2 47) by (apply bpow_le; lia).
    destruct Hd as [_ Hd]. assert (E : bpow radix2 87 = bpow radix2 40 * bpow radix2 47) by (rewrite <- bpow_plus; reflexivity).
    assert (16 <= bpow radix2 40) by (change 16 with (bpow radix2 4); apply bpow_le; lia). rewrite E. nra.
  Qed.

  Lemma sell_at_quote fc x p m a a' :
    ok_settings a -> bounded40 a -> ok_fees fc -> exec_price p -> nneg 40 x -> balance_ok m ->
    @SellAtQuote I fc x p m a = Done (true, a') ->
    let q := @Round I x (quote_unit a) in let f := @GetFee I a fc q in
    let y := @Floor I (@fmin I (Bdiv mode_NE (Bplus mode_NE q f) p) m) (base_unit a) in
    B2R (base_unit a : f32) <= B2R (y : f32) /\ settled SELL fc y p a a'.
  Proof.
    intros Hset Hb Hfc Hp Hx Hm. pose proof Hset as [Hbu Hqu Hl Hvr].
    unfold SellAtQuote. cbn [fltb fleb fofZ ieee].
    destruct (@zero_finite) as [F0 R0]. pose proof Hp as [Fp Hp'].
    pose proof (bpow_gt_0 radix2 (-27)) as H20.
    rewrite (fltb_intro (f32_of_Z 0) p) by (auto; lra). rewrite assert_true. cbn [bind].
    pose proof Hx as [Fx Hx'].
    rewrite (fleb_intro (f32_of_Z 0) x) by (auto; lra). rewrite assert_true. cbn [bind].
    pose proof (Round_nneg 40 x (quote_unit a) ltac:(lia) Hx Hqu) as Hq.
    change (40 + 3)%Z with 43%Z in *. cbv zeta.
    set (q := @Round I x (quote_unit a)) in *.
    destruct (Bltb q (quote_unit a)); [discriminate|].
    pose proof (GetFee_nneg 43 a fc q ltac:(lia) Hfc Hqu Hq) as Hf.
    change (43 + 4)%Z with 47%Z in *.
    set (f := @GetFee I a fc q) in *.
    cbn [fdiv fadd ieee].
    destruct (Bplus_nneg 47 q f ltac:(lia)) as [Hd _]; auto.
    { apply (nneg_weaken 43); auto. lia. }
    change (47 + 1)%Z with 48%Z in *.
    destruct (Bdiv_nneg 27 48 (Bplus mode_NE q f) p ltac:(lia) Hd Fp ltac:(apply Hp')) as [Hdiv _].
    change (27 + 48)%Z with 75%Z in *.
    pose proof (fmin_nneg (lm := lm) (as_ := as_) 75 _ m Hdiv Hm) as Hmin.
    pose proof (Floor_nneg (lm := lm) (as_ := as_) 75 _ (base_unit a) ltac:(lia) Hmin Hbu) as Hfl.
    change (75 + 3)%Z with 78%Z in *.
    set (y := @Floor I (@fmin I (Bdiv mode_NE (Bplus mode_NE q f) p) m) (base_unit a)) in *.
    destruct (Bltb y (base_unit a)) eqn:Ey; [discriminate|].
    apply fltb_false in Ey; [|apply Hfl|apply Hbu].
    intros HB. split; [exact Ey|]. cbn [settled]. auto.
  Qed.

  Lemma order_settles c o t a a' ty sd p am :
    ok_config c -> ok_settings a -> bounded40 a -> ok_tick t -> asks o ty sd p am ->
    @ExecuteOrder I c o t a = Done (true, a') ->
    let V := ideal_price (B2R (market_liquidity a : f32)) ty sd (B2R p) t in
    exists P y, exec_price P /\ V - 4 * eps * V <= B2R P <= V + 4 * eps * V /\ (ty = LIMIT -> P = p) /\
      ftriggered ty sd (B2R p) t /\ settled sd (ffees_of c ty) y P a a' /\ amount_from a t ty sd (ffees_of c ty) am P y.
  Proof.
    intros [Hc1 Hc2 Hc3] Hset Hb Ht [Hty Hsd Ham Hx Hpr] HE.
    assert (Hcase : exists x, (am = @BaseAmount I x /\ nneg 60 x \/ am = @QuoteAmount I x /\ nneg 40 x) /\ nneg 60 x /\ 0 < B2R (x : f32)).
    { destruct am as [|x|x]; [destruct Hx| |]; destruct Hx as [Hox Hpos]; apply range_nneg in Hox; exists x.
      - auto.
      - split; [auto|]. split; [apply (nneg_weaken 40); auto; lia|exact Hpos]. }
    clear Hx. destruct Hcase as (x & Hx & Hn60 & Hpos).
    assert (Hn77 : nneg 77 x) by (apply (nneg_weaken 60); auto; lia).
    assert (Hn78 : nneg 78 x) by (apply (nneg_weaken 60); auto; lia).
    pose proof (positive_num x ltac:(apply Hn60) Hpos) as Hpx.
    pose proof (nonneg_true _ _ Hn60) as Hge.
    assert (Hpam : @positive_amount I am).
    { destruct Hx as [[-> _]|[-> _]]; exact Hpx. }
    assert (Hxp : forall y p, nneg 60 y -> exec_price p -> B2R y * B2R p <= bpow radix2 87).
    { intros y p' [_ Hy] [_ Hp']. change 87%Z with (60 + 27)%Z. rewrite bpow_plus. pose proof (bpow_gt_0 radix2 (-27)).
      apply Rmult_le_compat; lra. }
    assert (Hmax : balance_ok (@fmaxval I)).
    { split; [reflexivity|]. apply Rlt_le, (F2R_gt_0 radix2). reflexivity. }
    pose proof (MaxBase_ok a t Hset Ht) as Hcap.
    pose proof Ht as [Ho Hh Hl Hcl Hv _ _]. pose proof (os_liquidity _ Hset) as Hliq.
    assert (HMB : exec_price (@GetMarketBuyPrice I a t)) by (apply mix_price; auto).
    assert (HMS : exec_price (@GetMarketSellPrice I a t)) by (apply mix_price; auto).
    assert (Hmin60 : nneg 60 (@fmin I x (@GetMaxBaseAmount I a t))) by (apply fmin_nneg; auto).
    assert (Hmin77 : nneg 77 (@fmin I x (@GetMaxBaseAmount I a t))) by (apply fmin_nneg; auto).
    assert (Hmin78 : nneg 78 (@fmin I x (@GetMaxBaseAmount I a t))) by (apply fmin_nneg; auto).
    assert (Hpriced : ty <> MARKET ->
       order_is o ty sd am p /\ @positive I p /\ ok_price p /\ exec_price p /\
       exec_price (@GetStopBuyPrice I a t p) /\ exec_price (@GetStopSellPrice I a t p)).
    { intros Hne. destruct Hpr as [Hm|[Hp Hpp]]; [contradiction|].
      pose proof (positive_price (lm := lm) (as_ := as_) p Hpp) as Hpp'.
      split; [apply order_is_priced; auto|]. split; [exact Hpp'|]. split; [exact Hpp|]. split; [apply price_exec; exact Hpp|].
      split; apply mix_price; auto using fmax_price, fmin_price. }
    assert (FR : forall z, ok_price z -> is_finite z = true) by (intros z Hz; apply Hz).
    destruct ty; cbv zeta; cbn [ffees_of].
    - assert (Hd : order_is o MARKET sd am x) by (apply order_is_market; auto).
      apply (dispatch c o t a) in Hd. rewrite HE in Hd.
      destruct sd; destruct Hx as [[Hx Hk]|[Hx Hk]]; rewrite Hx in Hd |- *; cbn [operation] in Hd;
        injection Hd as Hd; cbn [ideal_price ftriggered amount_from].
      + exists (@GetMarketBuyPrice I a t), x. split; [exact HMB|]. split; [apply mix_err; auto|]. split; [discriminate|]. split; [exact Logic.I|].
        split; [|reflexivity]. cbn [settled]. auto.
      + apply buy_at_quote in Hd; auto. destruct Hd as (D1 & D2 & D3). eexists (@GetMarketBuyPrice I a t), _.
        split; [exact HMB|]. split; [apply mix_err; auto|]. split; [discriminate|]. split; [exact Logic.I|]. split; [exact D3|]. auto.
      + exists (@GetMarketSellPrice I a t), x. split; [exact HMS|]. split; [apply mix_err; auto|]. split; [discriminate|]. split; [exact Logic.I|].
        split; [|reflexivity]. cbn [settled]. auto.
      + apply sell_at_quote in Hd; auto. destruct Hd as (D1 & D3). eexists (@GetMarketSellPrice I a t), _.
        split; [exact HMS|]. split; [apply mix_err; auto|]. split; [discriminate|]. split; [exact Logic.I|]. split; [exact D3|]. auto.
    - destruct (Hpriced ltac:(discriminate)) as (Hd & Hpp & Hpok & Hep & HSB & HSS).
      apply (dispatch c o t a) in Hd. rewrite HE in Hd.
      assert (EB : B2R (@fmax I p (open t) : f32) = Rmax (B2R p) (B2R (open t : f32))) by (apply fmax_val; auto).
      assert (ES : B2R (@fmin I p (open t) : f32) = Rmin (B2R p) (B2R (open t : f32))) by (apply fmin_val; auto).
      pose proof (mix_err (market_liquidity a) (@fmax I p (open t)) (high t) Hliq (fmax_price (lm := lm) (as_ := as_) _ _ Hpok Ho) Hh) as MB.
      pose proof (mix_err (market_liquidity a) (@fmin I p (open t)) (low t) Hliq (fmin_price (lm := lm) (as_ := as_) _ _ Hpok Ho) Hl) as MS.
      cbv zeta in MB, MS. change (@flt I) with f32 in *. rewrite EB in MB. rewrite ES in MS.
      destruct sd; destruct Hx as [[Hx Hk]|[Hx Hk]]; rewrite Hx in Hd |- *; cbn [operation] in Hd;
        injection Hd as Hd; unfold StopBuy, StopBuyAtQuote, StopSell, StopSellAtQuote in Hd;
        rewrite Hpp, assert_true in Hd; cbn [bind] in Hd; rewrite Hge, assert_true in Hd; cbn [bind] in Hd;
        (destruct (fltb _ _) eqn:Etr; [discriminate Hd|]); apply fltb_false in Etr; auto;
        cbn [ideal_price ftriggered amount_from].
      + exists (@GetStopBuyPrice I a t p), x. split; [exact HSB|]. split; [apply MB|]. split; [discriminate|]. split; [exact Etr|].
        split; [|reflexivity]. cbn [settled]. auto.
      + apply buy_at_quote in Hd; auto. destruct Hd as (D1 & D2 & D3). eexists (@GetStopBuyPrice I a t p), _.
        split; [exact HSB|]. split; [apply MB|]. split; [discriminate|]. split; [exact Etr|]. split; [exact D3|]. auto.
      + exists (@GetStopSellPrice I a t p), x. split; [exact HSS|]. split; [apply MS|]. split; [discriminate|]. split; [exact Etr|].
        split; [|reflexivity]. cbn [settled]. auto.
      + apply sell_at_quote in Hd; auto. destruct Hd as (D1 & D3). eexists (@GetStopSellPrice I a t p), _.
        split; [exact HSS|]. split; [apply MS|]. split; [discriminate|]. split; [exact Etr|]. split; [exact D3|]. auto.
    - destruct (Hpriced ltac:(discriminate)) as (Hd & Hpp & Hpok & Hep & HSB & HSS).
      apply (dispatch c o t a) in Hd. rewrite HE in Hd.
      assert (Pp : 0 <= B2R p) by (destruct Hep as [_ Hep]; pose proof (bpow_gt_0 radix2 (-27)); lra).
      destruct sd; destruct Hx as [[Hx Hk]|[Hx Hk]]; rewrite Hx in Hd |- *; cbn [operation] in Hd;
        injection Hd as Hd; unfold LimitBuy, LimitBuyAtQuote, LimitSell, LimitSellAtQuote in Hd;
        rewrite Hpp, assert_true in Hd; cbn [bind] in Hd; rewrite Hge, assert_true in Hd; cbn [bind] in Hd;
        (destruct (fltb _ _) eqn:Etr; [discriminate Hd|]); apply fltb_false in Etr; auto;
        cbn [ideal_price ftriggered amount_from].
      + eexists p, _. split; [exact Hep|]. split; [rewrite eps_val; lra|]. split; [reflexivity|]. split; [exact Etr|].
        split; [|reflexivity]. cbn [settled]. auto.
      + apply buy_at_quote in Hd; auto. destruct Hd as (D1 & D2 & D3). eexists p, _.
        split; [exact Hep|]. split; [rewrite eps_val; lra|]. split; [reflexivity|]. split; [exact Etr|]. split; [exact D3|]. auto.
      + eexists p, _. split; [exact Hep|]. split; [rewrite eps_val; lra|]. split; [reflexivity|]. split; [exact Etr|].
        split; [|reflexivity]. cbn [settled]. auto.
      + apply sell_at_quote in Hd; auto. destruct Hd as (D1 & D3). eexists p, _.
        split; [exact Hep|]. split; [rewrite eps_val; lra|]. split; [reflexivity|]. split; [exact Etr|]. split; [exact D3|]. auto.
  Qed.

  (** Rounding a whole amount again. *)
  Lemma round_again k (y u : f32) : (20 <= k <= 97)%Z -> nneg k y -> ok_unit u -> float_units u y -> B2R u <= B2R y ->
    B2R y - 7 * eps * B2R y <= B2R (@Round I y u : f32) <= B2R y + 7 * eps * B2R y.
  Proof.
    intros Hk Hy Hu W L. destruct (ok_unit_cases u Hu) as [U0|(PU & FU & RU)].
    - rewrite (Round_zero_unit y u Hu U0). pose proof (proj2 Hy). change (@flt I) with f32 in *. rewrite eps_val. lra.
    - destruct (units_of u y Hu PU (proj1 Hy) (proj1 (proj2 Hy)) W) as (n & Hn & En & D1 & D2).
      pose proof (settle_units (lm := lm) (as_ := as_) k y u n _ Hk Hy FU RU D2) as G. pose proof (eta_unit _ (proj1 RU)) as He. pose proof eta_pos as He0.
      assert (PW : 0 <= B2R u * IZR n) by (apply Rmult_le_pos; [lra|apply (IZR_le 0); exact Hn]).
      rewrite (Rabs_pos_eq _ PW) in G.
      assert (HU : B2R u * eta <= B2R u * (eps * / 16)).
      { apply Rmult_le_compat_l; [lra|]. rewrite eps_val. unfold eta. change (/ 16777216) with (bpow radix2 (-24)). change (/ 16) with (bpow radix2 (-4)). rewrite <- bpow_plus. apply bpow_le. lia. }
      set (W_ := B2R u * IZR n) in *. apply Rabs_le_inv in G. apply Rabs_le_inv in D1. apply Rabs_le_inv in D2.
      set (ue := B2R u * eta) in *. change (@flt I) with f32 in *. rewrite eps_val in *. lra.
  Qed.

  Lemma fee_lip (fc : @fee_config I) q q0 : ok_fees fc ->
    fee_exact fc q <= fee_exact fc q0 + Rmax 0 (q - q0) /\ (q0 <= q -> fee_exact fc q0 <= fee_exact fc q).
  Proof.
    intros [[_ Hr] [_ Hf] [_ Hm]]. unfold fee_exact. set (r := B2R (relative_fee fc : f32)) in *. set (fx := B2R (fixed_fee fc : f32)) in *. set (mn := B2R (minimum_fee fc : f32)) in *.
    split.
    - assert (r * q <= r * q0 + Rmax 0 (q - q0)).
      { unfold Rmax. destruct (Rle_dec 0 (q - q0)); nra. }
      pose proof (Rmax_l 0 (q - q0)). unfold Rmax at 1 2. destruct (Rle_dec mn (fx + r * q)), (Rle_dec mn (fx + r * q0)); lra.
    - intros L. apply Rle_max_compat_l. nra.
  Qed.

  Lemma cap_about (a : @account I) t : ok_settings a -> ok_tick t -> about_cap a t (B2R (@GetMaxBaseAmount I a t : f32)).
  Proof.
    intros [Hbu Hqu Hl Hvr] Ht. unfold about_cap, GetMaxBaseAmount. cbn [fltb fofZ ieee fmul fmaxval].
    destruct (@zero_finite) as [F0 R0]. pose proof Hvr as [Fr Hr]. destruct (ot_volume _ Ht) as [Fv Hv].
    destruct (Bltb (f32_of_Z 0) (max_volume_ratio a)) eqn:E.
    - apply fltb_true in E; auto. rewrite R0 in E. split; [intros _|lra].
      destruct (Bmult_nneg 0 40 (max_volume_ratio a) (volume t) ltac:(lia)) as [H1 E1]; [split; [exact Fr|exact Hr]|split; [exact Fv|exact Hv]|].
      pose proof (Floor_err (lm := lm) (as_ := as_) 40 _ (base_unit a) ltac:(lia) H1 Hbu) as K. cbv zeta in K. change (@flt I) with f32 in *. rewrite E1 in K.
      assert (P : 0 <= B2R (max_volume_ratio a) * B2R (volume t)) by (apply Rmult_le_pos; lra).
      pose proof (rnd_err_le _ P) as K2. pose proof (proj2 (ok_unit_sign _ Hbu)) as PU. pose proof eta_pos. pose proof eta_100.
      unfold about_down. rewrite tol_val. set (X := B2R (max_volume_ratio a) * B2R (volume t)) in *.
      destruct K as [K3 K4]. split; [eapply Rle_trans; [|exact K3]|eapply Rle_trans; [exact K4|]]; rewrite eps_val in *; lra.
    - apply fltb_false in E; auto. rewrite R0 in E. change (@flt I) with f32 in *. split; [lra|]. intros _.
      unfold B2R, F2R. cbn -[bpow IZR]. change (bpow radix2 24) with 16777216. lra.
  Qed.

  Lemma price_nonneg P : exec_price P -> 0 < B2R P <= bpow radix2 27.
  Proof. intros [_ H]. pose proof (bpow_gt_0 radix2 (-27)). lra. Qed.

  (** The base amount bought or sold for a quote amount. *)
  Lemma quote_base (P y0 d y bu : f32) D k :
    (20 <= k <= 94)%Z -> exec_price P -> nneg k y0 -> ok_unit bu -> y = @Floor I y0 bu -> B2R bu <= B2R y ->
    0 <= D -> B2R d <= D -> 0 <= B2R d -> B2R y0 <= rnd (B2R d / B2R P) ->
    B2R (@Round I y bu : f32) * B2R P <= D + 16 * eps * D + bpow radix2 (-120) /\
    B2R (@Round I y bu : f32) <= B2R y0 + 11 * eps * (B2R y0 + B2R bu).
  Proof.
    intros Hk HP Hy0 Hu Ey Ly HD Ld Pd L0. destruct (price_nonneg P HP) as [PP LP].
    pose proof (Floor_nneg (lm := lm) (as_ := as_) k y0 bu ltac:(lia) Hy0 Hu) as Hy. change (@flt I) with f32 in *. rewrite <- Ey in Hy.
    pose proof (Floor_err (lm := lm) (as_ := as_) k y0 bu ltac:(lia) Hy0 Hu) as K. cbv zeta in K. change (@flt I) with f32 in *. rewrite <- Ey in K.
    assert (Wy : float_units bu y) by (rewrite Ey; apply Floor_whole; [exact Hu|rewrite <- Ey; apply Hy]).
    pose proof (round_again (k + 3) y bu ltac:(lia) Hy Hu Wy Ly) as R.
    pose proof (proj2 (ok_unit_sign _ Hu)) as PU. pose proof (proj2 Hy0) as P0. pose proof eta_pos as He.
    split; [|rewrite eps_val in *; lra].
    assert (Hdp : 0 <= B2R d / B2R P) by (apply Rmult_le_pos; [lra|]; left; apply Rinv_0_lt_compat; lra).
    pose proof (rnd_err_le _ Hdp) as K2. set (z := rnd (B2R d / B2R P)) in *.
    assert (Edp : B2R d / B2R P * B2R P = B2R d) by (field; lra).
    assert (Hz : z * B2R P <= B2R d + B2R d * eps + eta * B2R P).
    { apply Rle_trans with ((B2R d / B2R P + B2R d / B2R P * eps + eta) * B2R P); [apply Rmult_le_compat_r; lra|].
      right. rewrite !Rmult_plus_distr_r, Edp. replace (B2R d / B2R P * eps * B2R P) with (B2R d / B2R P * B2R P * eps) by ring. rewrite Edp. reflexivity. }
    assert (HeP : eta * B2R P <= bpow radix2 (-123)).
    { apply Rle_trans with (eta * bpow radix2 27); [apply Rmult_le_compat_l; lra|]. unfold eta. rewrite <- bpow_plus. apply bpow_le. lia. }
    assert (H123 : bpow radix2 (-120) = 8 * bpow radix2 (-123)) by (change (-120)%Z with (3 + -123)%Z; rewrite bpow_plus; reflexivity).
    assert (PeP : 0 <= eta * B2R P) by (apply Rmult_le_pos; lra).
    assert (H0P : B2R y0 * B2R P <= z * B2R P) by (apply Rmult_le_compat_r; lra).
    assert (HyP : B2R y * B2R P <= (B2R y0 + 3 * eps * (B2R y0 + B2R bu)) * B2R P) by (apply Rmult_le_compat_r; lra).
    assert (HbuP : B2R bu * B2R P <= B2R y * B2R P) by (apply Rmult_le_compat_r; lra).
    assert (HRP : B2R (@Round I y bu) * B2R P <= (B2R y + 7 * eps * B2R y) * B2R P) by (apply Rmult_le_compat_r; lra).
    assert (P0P : 0 <= B2R y0 * B2R P) by (apply Rmult_le_pos; lra).
    assert (PbuP : 0 <= B2R bu * B2R P) by (apply Rmult_le_pos; lra).
    rewrite Rmult_plus_distr_r in HyP, HRP.
    replace (3 * eps * (B2R y0 + B2R bu) * B2R P) with (3 * eps * (B2R y0 * B2R P + B2R bu * B2R P)) in HyP by ring.
    replace (7 * eps * B2R y * B2R P) with (7 * eps * (B2R y * B2R P)) in HRP by ring.
    set (RP := B2R (@Round I y bu) * B2R P) in *. set (YP := B2R y * B2R P) in *. set (Y0P := B2R y0 * B2R P) in *. set (UP := B2R bu * B2R P) in *.
    set (ZP := z * B2R P) in *. set (eP := eta * B2R P) in *. rewrite eps_val in *. lra.
  Qed.

  Lemma fmin_l (x y : @flt I) : is_finite (x : f32) = true -> is_finite (y : f32) = true ->
    B2R (@fmin I x y : f32) <= B2R (x : f32) /\ B2R (@fmin I x y : f32) <= B2R (y : f32).
  Proof. intros Fx Fy. rewrite (fmin_val x y Fx Fy). split; [apply Rmin_l|apply Rmin_r]. Qed.

  Lemma order_trades c o t a a' ty sd p am :
    ok_config c -> ok_settings a -> bounded40 a -> float_whole a -> ok_tick t -> asks o ty sd p am ->
    @ExecuteOrder I c o t a = Done (true, a') ->
    let V := ideal_price (B2R (market_liquidity a : f32)) ty sd (B2R p) t in
    exists tr, tr_side tr = sd /\ V - 4 * eps * V <= tr_price tr <= V + 4 * eps * V /\ (ty = LIMIT -> tr_price tr = B2R p) /\
      ftriggered ty sd (B2R p) t /\ fair_float (ffees_of c ty) a tr /\ booked_float a tr a' /\ about_asked a t ty am tr /\
      (forall nb nq nf, has_units a -> holds a nb nq nf -> few_units a -> few_units a' ->
         exists kb kq kf, unit_trade a tr kb kq kf /\ holds a' (nb + base_change sd kb) (nq + quote_change sd kq - kf) (nf + kf)).
  Proof.
    intros Hc Hset Hb Hw Ht Hsh HE. pose proof Hset as [Hbu Hqu Hl Hvr].
    destruct (order_settles c o t a a' ty sd p am Hc Hset Hb Ht Hsh HE) as (P & y & HP & HV & HL & Htr & Hs & Ham).
    assert (Hfc : ok_fees (ffees_of c ty)) by (destruct Hc, ty; assumption).
    assert (HT : exists tr, tr_side tr = sd /\ tr_price tr = B2R P /\ tr_base tr = B2R (@Round I y (base_unit a) : f32) /\
              fair_float (ffees_of c ty) a tr /\ booked_float a tr a' /\
              tr_quote tr = B2R (quote_of sd a (@Round I y (base_unit a)) P) /\
              tr_fee tr = B2R (@GetFee I a (ffees_of c ty) (quote_of sd a (@Round I y (base_unit a)) P) : f32)).
    { destruct sd; cbn [settled] in Hs.
      - destruct Hs as (N & L & S). exact (buy_books _ y P a a' Hset Hb Hw Hfc HP N L S).
      - destruct Hs as (N & S). exact (sell_books _ y P a a' Hset Hb Hw Hfc HP N S). }
    assert (Ny : nneg 78 y) by (destruct sd; cbn [settled] in Hs; [apply (nneg_weaken 77); [lia|apply Hs]|apply Hs]).
    destruct HT as (tr & T1 & T2 & T3 & T4 & T5 & T6 & T7). exists tr. cbv zeta. split; [exact T1|]. rewrite T2. split; [exact HV|].
    split; [intros E; rewrite (HL E); reflexivity|]. split; [exact Htr|]. split; [exact T4|]. split; [exact T5|].
    split; [|destruct (ExecuteOrder_all c o t a true a' HE) as [_ HS]; intros nb nq nf HU HH HF HF'; destruct sd; cbn [settled] in Hs;
      [destruct Hs as (N & L & S); destruct (buy_counts _ y P a a' nb nq nf Hset Hb Hfc HP N L S HU HH HF HF' HS) as (kb & kq & kf & b & q & f & U1 & U2 & U3 & -> & -> & -> & G1 & G2 & G3 & G4)
      |destruct Hs as (N & S); destruct (sell_counts _ y P a a' nb nq nf Hset Hb Hfc HP N S HU HH HF HF' HS) as (kb & kq & kf & b & q & f & U1 & U2 & U3 & -> & -> & -> & G1 & G2 & G3 & G4)];
      exists kb, kq, kf; (split; [constructor; auto; eexists; (split; [eassumption|]); [exact T3|exact T6|exact T7]|]); cbn [base_change quote_change];
      [exact G4|exact G4]].
    unfold about_asked. destruct Hsh as [_ _ _ Hoa _]. pose proof (proj2 (ok_unit_sign _ Hbu)) as PBU. pose proof (proj2 (ok_unit_sign _ Hqu)) as PQU.
    pose proof eta_pos as He. pose proof eta_100 as H100. pose proof (bpow_gt_0 radix2 (-100)) as P100. pose proof (proj2 Ny) as Py.
    pose proof (MaxBase_ok a t Hset Ht) as Hcap. pose proof (cap_about a t Hset Ht) as Hcab.
    assert (Fmax : balance_ok (@fmaxval I)).
    { split; [reflexivity|]. apply Rlt_le, (F2R_gt_0 radix2). reflexivity. }
    destruct am as [|x|x]; [destruct Hoa| |]; cbn [amount_from] in Ham; destruct Hoa as [[Fx Hx] Px]; change (@flt I) with f32 in *.
    - pose proof (Round_err (lm := lm) (as_ := as_) 78 y (base_unit a) ltac:(lia) Ny Hbu) as K. cbv zeta in K. change (@flt I) with f32 in *. rewrite <- T3 in K.
      assert (G : about_near (B2R (base_unit a)) (B2R y) (tr_base tr)).
      { unfold about_near. rewrite tol_val. rewrite eps_val in *. lra. }
      destruct ty; try (rewrite <- Ham; exact G).
      exists (B2R (@GetMaxBaseAmount I a t : f32)). split; [exact Hcab|]. rewrite <- (fmin_val x _ Fx (proj1 Hcap)). change (@flt I) with f32 in *. rewrite <- Ham. exact G.
    - cbv zeta in Ham. destruct Ham as [Ly Ham].
      set (m := match ty with LIMIT => @GetMaxBaseAmount I a t | _ => @fmaxval I end) in *.
      assert (Hm : balance_ok m) by (destruct ty; assumption).
      assert (N40 : nneg 40 x) by (split; assumption).
      pose proof (Round_nneg (lm := lm) (as_ := as_) 40 x (quote_unit a) ltac:(lia) N40 Hqu) as Hq. change (40 + 3)%Z with 43%Z in *.
      pose proof (Round_err (lm := lm) (as_ := as_) 40 x (quote_unit a) ltac:(lia) N40 Hqu) as Kq. cbv zeta in Kq. change (@flt I) with f32 in *.
      set (q0 := @Round I x (quote_unit a)) in *.
      pose proof (GetFee_nneg 43 a (ffees_of c ty) q0 ltac:(lia) Hfc Hqu Hq) as Hf. change (43 + 4)%Z with 47%Z in *.
      pose proof (GetFee_err 43 a (ffees_of c ty) q0 ltac:(lia) Hfc Hqu Hq) as Kf. cbv zeta in Kf. change (@flt I) with f32 in *.
      set (f0 := @GetFee I a (ffees_of c ty) q0) in *.
      assert (Hq47 : nneg 47 q0) by (apply (nneg_weaken 43); [lia|exact Hq]).
      destruct HP as [FP HP']. pose proof (conj FP HP' : exec_price P) as HP. destruct T4 as [_ Pb Tq Tf _]. rewrite T1 in Tq.
      destruct (fee_lip (ffees_of c ty) (tr_quote tr) (B2R q0) Hfc) as [Lip Mono].
      assert (PZ : 0 <= fee_exact (ffees_of c ty) (B2R q0)).
      { unfold fee_exact. eapply Rle_trans; [|apply Rmax_l]. apply (of_min _ Hfc). }
      assert (PZ1 : 0 <= fee_exact (ffees_of c ty) (tr_quote tr)).
      { unfold fee_exact. eapply Rle_trans; [|apply Rmax_l]. apply (of_min _ Hfc). }
      set (Z0 := fee_exact (ffees_of c ty) (B2R q0)) in *. set (Z1 := fee_exact (ffees_of c ty) (tr_quote tr)) in *.
      assert (Pq0 : 0 <= B2R q0) by apply Hq. assert (Pf0 : 0 <= B2R f0) by apply Hf. rewrite T2 in Tq.
      assert (H120 : bpow radix2 (-120) * 1048576 = bpow radix2 (-100)) by (change 1048576 with (bpow radix2 20); rewrite <- bpow_plus; reflexivity).
      pose proof (bpow_gt_0 radix2 (-120)) as P120.
      unfold about_up, about_down in Tq, Tf. rewrite T3 in Tq. rewrite tol_val in Tq, Tf. rewrite T1.
      assert (PBP : 0 <= B2R (@Round I y (base_unit a)) * B2R P).
      { rewrite T3 in Pb. apply Rmult_le_pos; [exact Pb|]. pose proof (bpow_gt_0 radix2 (-27)). lra. }
      destruct sd.
      + destruct Ham as [Lf Ey].
        destruct (Bminus_nneg 47 q0 f0 ltac:(lia) Hq47 Hf ltac:(lra)) as [Hd Ed].
        destruct (Bdiv_nneg 27 47 (Bminus mode_NE q0 f0) P ltac:(lia) Hd FP ltac:(apply HP')) as [Hz Ez].
        pose proof (fmin_nneg (lm := lm) (as_ := as_) _ _ m Hz Hm) as Hy0. destruct (fmin_l _ m (proj1 Hz) (proj1 Hm)) as [L1 L2].
        change (27 + 47)%Z with 74%Z in *. change (@flt I) with f32 in *.
        pose proof (rnd_err_le (B2R q0 - B2R f0) ltac:(lra)) as Kd. rewrite <- Ed in Kd. rewrite Ez in L1.
        destruct (quote_base P _ (Bminus mode_NE q0 f0) y (base_unit a) ((B2R q0 - B2R f0) + (B2R q0 - B2R f0) * eps + eta) 74 ltac:(lia) HP Hy0 Hbu Ey Ly)
          as [Q1 Q2]; [rewrite eps_val in *; lra|lra|apply Hd|exact L1|].
        set (RP := B2R (@Round I y (base_unit a)) * B2R P) in *.
        split.
        * rewrite tol_val. set (D := B2R q0 - B2R f0) in *.
          unfold Rmax in Lip. destruct (Rle_dec 0 (tr_quote tr - B2R q0)); rewrite eps_val in *; unfold D in *; lra.
        * destruct ty; auto. eexists. split; [exact Hcab|]. rewrite T3. rewrite tol_val. subst m. change (@flt I) with f32 in *.
          destruct Hcap as [_ Pc]. change (@flt I) with f32 in *. rewrite eps_val in *. lra.
      + destruct (Bplus_nneg 47 q0 f0 ltac:(lia) Hq47 Hf) as [Hd Ed]. change (47 + 1)%Z with 48%Z in *.
        destruct (Bdiv_nneg 27 48 (Bplus mode_NE q0 f0) P ltac:(lia) Hd FP ltac:(apply HP')) as [Hz Ez].
        pose proof (fmin_nneg (lm := lm) (as_ := as_) _ _ m Hz Hm) as Hy0. destruct (fmin_l _ m (proj1 Hz) (proj1 Hm)) as [L1 L2].
        change (27 + 48)%Z with 75%Z in *. change (@flt I) with f32 in *.
        pose proof (rnd_err_le (B2R q0 + B2R f0) ltac:(lra)) as Kd. rewrite <- Ed in Kd. rewrite Ez in L1.
        destruct (quote_base P _ (Bplus mode_NE q0 f0) y (base_unit a) ((B2R q0 + B2R f0) + (B2R q0 + B2R f0) * eps + eta) 75 ltac:(lia) HP Hy0 Hbu Ham Ly)
          as [Q1 Q2]; [rewrite eps_val in *; lra|lra|apply Hd|exact L1|].
        set (RP := B2R (@Round I y (base_unit a)) * B2R P) in *.
        split.
        * rewrite tol_val. destruct (Rle_dec (B2R q0) (tr_quote tr)) as [LL|LL].
          -- specialize (Mono LL). rewrite eps_val in *. lra.
          -- rewrite eps_val in *. lra.
        * destruct ty; auto. eexists. split; [exact Hcab|]. rewrite T3. rewrite tol_val. subst m. change (@flt I) with f32 in *.
          destruct Hcap as [_ Pc]. change (@flt I) with f32 in *. rewrite eps_val in *. lra.
  Qed.
End Trade.
