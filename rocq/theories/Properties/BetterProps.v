(** C121: more money and lower fees. *)
From Coq Require Import Reals ZArith Bool List Lra Lia.
From Flocq Require Import Core BinarySingleNaN.
From Verif.Model Require Import Outcome Machine Types Account MachineR MachineIEEE.
From Verif.Spec Require Import AccountSpec OrderSpec QuoteSpec AccountIEEESpec BetterSpec.
From Verif.Proofs Require Import Base FloatLemmas AccountExact AccountAny AccountIEEE QuoteProofs BetterProofs.
From Verif.Properties Require Import AccountProps ProgressFloatProps.
Import ListNotations.
Local Open Scope R_scope.

Section Float.
  Context (lm : libm) (as_ : bool).
  Local Notation I := (ieee lm as_).

  (** In single precision: whoever has at least as much money and no higher fees can execute
      every order for a base amount that the other one can execute, and is still no worse off
      afterwards. *)
  Theorem C121_order c c' (o : @order I) (t : @ohlc_tick I) (a a' a1 : @account I) :
    ok_config c -> ok_config c' -> cheaper_config c c' -> ok_settings a ->
    balances_ok a -> not_exceeded a -> balances_ok a' -> not_exceeded a' -> better a a' ->
    ok_tick t -> ok_order o -> for_base o ->
    @ExecuteOrder I c o t a = Done (true, a1) ->
    exists a1', @ExecuteOrder I c' o t a' = Done (true, a1') /\ better a1 a1'.
  Proof.
    intros Hc Hc' Hch Hs B1 N1 B2 N2 Hbt Ht Ho Hf H.
    exact (ExecuteOrder_better c c' o t a a' a1 Hc Hc' Hch Hs (bounded_of a B1 N1) (bounded_of a' B2 N2) Hbt Ht Ho Hf H).
  Qed.

  (** So it is with every sequence of orders that are all executed: under lower fees they are
      all executed, too, and leave at least as much. *)
  Theorem C121_orders c c' (l : list (@order I * @ohlc_tick I)) : forall (a a' a2 : @account I),
    ok_config c -> ok_config c' -> cheaper_config c c' -> ok_settings a ->
    balances_ok a -> balances_ok a' -> better a a' ->
    Forall (fun ot => ok_order (fst ot) /\ for_base (fst ot) /\ ok_tick (snd ot)) l ->
    within_range c a l -> within_range c' a' l ->
    all_executed c a l a2 ->
    exists a2', all_executed c' a' l a2' /\ better a2 a2'.
  Proof.
    intros a a' a2 Hc Hc' Hch. revert a a' a2. induction l as [|(o, t) l IH]; intros a a' a2 Hs Hb Hb' Hbt Hl HW HW' H; inversion H; subst.
    - exists a'. split; [constructor|exact Hbt].
    - inversion Hl as [|? ? (Ho & Hf & Ht) Hl']; subst. cbn [fst snd] in *.
      assert (N : not_exceeded a) by (apply (HW [] (o, t) l); [reflexivity|constructor]).
      assert (N' : not_exceeded a') by (apply (HW' [] (o, t) l); [reflexivity|constructor]).
      match goal with HE : ExecuteOrder c o t a = Done (true, ?b) |- _ => rename b into b1; rename HE into HE1 end.
      destruct (C121_order c c' o t a a' b1 Hc Hc' Hch Hs Hb N Hb' N' Hbt Ht Ho Hf HE1) as (b1' & E1 & B1).
      destruct (ExecuteOrder_good c o t a Hc Hs (bounded_of a Hb N) Ht Ho) as (ok & x & X1 & X2 & _).
      rewrite HE1 in X1. injection X1 as <- <-.
      destruct (ExecuteOrder_good c' o t a' Hc' (better_settings a a' Hbt Hs) (bounded_of a' Hb' N') Ht Ho) as (ok' & x' & Y1 & Y2 & _).
      rewrite E1 in Y1. injection Y1 as <- <-.
      destruct (ExecuteOrder_all c o t a true b1 HE1) as [_ Hss].
      destruct (IH b1 b1' a2) as (a2' & K1 & K2); auto.
      + apply (ok_settings_same a); auto.
      + intros l1 ot l2 a3 El HA. apply (HW ((o, t) :: l1) ot l2 a3); [rewrite El; reflexivity|]. econstructor; eauto.
      + intros l1 ot l2 a3 El HA. apply (HW' ((o, t) :: l1) ot l2 a3); [rewrite El; reflexivity|]. econstructor; eauto.
      + exists a2'. split; [econstructor; eauto|exact K2].
  Qed.
End Float.

Section Exact.
  Context (sh : R -> String.string) (as_ : bool).
  Local Notation E := (exact sh as_).

  Lemma up_mono u x x' y y' : 0 <= u -> rounded_up u x y -> rounded_up u x' y' -> x <= x' -> y <= y'.
  Proof.
    intros U (W & H) (W' & H') L. destruct (Req_EM_T u 0) as [->|N]; [lra|].
    destruct W as [|(n & ->)]; [contradiction|]. destruct W' as [|(m & ->)]; [contradiction|].
    apply Rmult_le_compat_r; [exact U|]. apply IZR_le. apply Z.lt_succ_r. apply lt_IZR. rewrite succ_IZR.
    apply Rmult_lt_reg_r with u; lra.
  Qed.

  Lemma down_mono u x x' y y' : 0 <= u -> rounded_down u x y -> rounded_down u x' y' -> x <= x' -> y <= y'.
  Proof.
    intros U (W & H) (W' & H') L. destruct (Req_EM_T u 0) as [->|N]; [lra|].
    destruct W as [|(n & ->)]; [contradiction|]. destruct W' as [|(m & ->)]; [contradiction|].
    apply Rmult_le_compat_r; [exact U|]. apply IZR_le. apply Z.lt_succ_r. apply lt_IZR. rewrite succ_IZR.
    apply Rmult_lt_reg_r with u; lra.
  Qed.

  (** In exact arithmetic: an executed buy for a quote amount is executed, too, with more money
      and lower fees, and buys at least as much. *)
  Theorem C121_quote_buy (c c' : @account_config E) (o : @order E) (t : @ohlc_tick E) (a a' a1 : @account E) ty limit x :
    sane_config c -> sane_config c' -> exact_cheaper_config c c' -> sane_account a -> sane_account a' ->
    same_settings a a' -> (quote_balance a : R) <= quote_balance a' ->
    sane_tick t -> order_parts o ty BUY limit (@QuoteAmount E x) ->
    @ExecuteOrder E c o t a = Done (true, a1) ->
    exists a1', @ExecuteOrder E c' o t a' = Done (true, a1') /\
      (base_balance a1 : R) - base_balance a <= base_balance a1' - base_balance a'.
  Proof.
    intros Hc Hc' Hch Ha Ha' Hss Hq Ht Ho He. pose proof Hss as (U1 & U2 & U3 & U4).
    assert (X : 0 <= x) by (inversion Ho; apply Rlt_le; assumption).
    assert (CP : exists cap, base_cap a t ty cap).
    { destruct ty; cbn [base_cap]; eauto. unfold volume_cap. destruct (Rlt_dec _ _); eauto.
      destruct (@rounded_down_exists sh as_ (base_unit a) (max_volume_ratio a * volume t) (sa_base_unit _ Ha)) as (y & Hy). eauto. }
    destruct CP as (cap & CP).
    assert (CP' : base_cap a' t ty cap).
    { destruct ty; cbn [base_cap] in *; auto. unfold volume_cap in *. rewrite U1, U4. exact CP. }
    set (p := execution_price (market_liquidity a) ty BUY limit t).
    destruct (plan_exists (fees_of c ty) a BUY p x cap Ha X) as (q & f & b & cc & g & Pl).
    destruct (quote_order c o t a ty BUY limit x cap q f b cc g Hc Ha Ht Ho CP Pl) as (ok & a2 & E1 & Hiff & Hb & _).
    rewrite He in E1. injection E1 as <- <-. destruct (proj1 Hiff eq_refl) as (T & F1 & F2 & F3 & F4). destruct (Hb eq_refl) as ((B1 & _) & _).
    pose proof (@GetFee_due sh as_ a' (fees_of c' ty) q (sa_quote_unit _ Ha')) as HF'. set (f' := @GetFee E a' (fees_of c' ty) q) in *.
    assert (P : 0 < p).
    { inversion Ho as [am Hty Hsd Hpr Ham Hpos]. apply execution_price_pos; auto; [apply Ha|]. destruct Hpr as [?|[_ ?]]; auto. }
    destruct Pl as [Q1 Q2 Q3 Q4 Q5].
    assert (Q0 : 0 <= q) by (pose proof (sa_quote_unit _ Ha); change (@flt E) with R in *; lra).
    assert (LF : f' <= f).
    { unfold fee_due in *. rewrite U2 in HF'. apply (up_mono _ _ _ _ _ (sa_quote_unit _ Ha) HF' Q2).
      destruct Hch as (K1 & K2 & K3). assert (K : exact_cheaper (fees_of c ty) (fees_of c' ty)) by (destruct ty; assumption).
      destruct K as (M1 & M2 & M3). apply Rle_max_compat_l || idtac. apply Rmax_lub.
      - eapply Rle_trans; [exact M3|apply Rmax_l].
      - eapply Rle_trans; [|apply Rmax_r]. apply Rplus_le_compat; [exact M2|]. apply Rmult_le_compat_r; assumption. }
    destruct (@rounded_down_exists sh as_ (base_unit a) (Rmin ((q - f') / p) cap) (sa_base_unit _ Ha)) as (b' & Hb').
    assert (LB : b <= b').
    { apply (down_mono _ _ _ _ _ (sa_base_unit _ Ha) Q3 Hb'). apply Rle_min_compat_r. unfold Rdiv. apply Rmult_le_compat_r; [left; apply Rinv_0_lt_compat; exact P|]. lra. }
    destruct (@rounded_up_exists sh as_ (quote_unit a) (b' * p) (sa_quote_unit _ Ha)) as (c1 & Hc1).
    assert (Pl' : quote_plan (fees_of c' ty) a' BUY (execution_price (market_liquidity a') ty BUY limit t) x cap q f' b' c1 (@GetFee E a' (fees_of c' ty) c1)).
    { rewrite U3. fold p. split; rewrite ?U1, ?U2; auto.
      - rewrite <- U2. exact HF'.
      - rewrite <- U2. apply GetFee_due. apply (sa_quote_unit _ Ha'). }
    destruct (quote_order c' o t a' ty BUY limit x cap q f' b' c1 _ Hc' Ha' Ht Ho CP' Pl') as (ok' & a1' & E1' & Hiff' & Hb1' & _).
    assert (OK : ok' = true).
    { apply Hiff'. split; [exact T|]. unfold feasible. rewrite U1, U2. change (@flt E) with R in *. lra. }
    subst ok'. exists a1'. split; [exact E1'|]. destruct (Hb1' eq_refl) as ((B1' & _) & _). cbn [tr_base] in *.
    change (@flt E) with R in *. lra.
  Qed.
End Exact.

(** *** Concrete cases. *)
Section Examples.
  Context {lm : libm} {as_ : bool}.
  Local Notation I := (ieee lm as_).
  Local Notation num z := (f32_of_Z z : @flt I).

  (** All three kinds of orders under one fee; units 0.00001 and 0.01. *)
  Definition one_fee_config (base quote bu qu rel fixed : @flt I) : @account_config I :=
    let fc := @FeeConfig I rel fixed (num 0) in
    @AccountConfig I base quote bu qu fc fc fc (num 1) (num 0).
  Definition flat2 : @ohlc_tick I := @OhlcTick I 300 (num 2) (num 2) (num 2) (num 2) (num 1000).
  Definition wide_tick : @ohlc_tick I := @OhlcTick I 300 (num 100) (num 110) (num 90) (num 105) (num 1000).
  Definition buy_all : @order I := @Order I (Some MARKET) (Some BUY) (@QuoteAmount I (@flit I 1007 100)) None.
  Definition sell_one : @order I := @Order I (Some MARKET) (Some SELL) (@QuoteAmount I (num 1)) None.
End Examples.

Section ExamplesMet.
  Context (lm : libm) (as_ : bool).
  Local Notation I := (ieee lm as_).
  Local Notation n := (@n lm as_).
  Local Notation num z := (f32_of_Z z : @flt I).
  Local Notation cfg := (@one_fee_config lm as_).
  Local Notation cents := (@flit I 1 100).
  Local Notation dust := (@flit I 1 100000).
  Local Notation Q := (@flit I 1007 100).
  Local Notation fee1 := (@flit I 1 1000).
  Local Notation fee2 := (@flit I 2 1000).

  Lemma num_val z : (Z.abs z <= 2 ^ 24)%Z -> is_finite (f32_of_Z z) = true /\ B2R (f32_of_Z z) = IZR z.
  Proof. intros H. exact (ofZ_finite z H). Qed.

  Lemma one_fee_ok base quote bu qu rel fixed :
    in_range 0 1 rel -> in_range 0 (bpow radix2 20) fixed -> ok_unit bu -> ok_unit qu ->
    ok_config (cfg base quote bu qu rel fixed) /\ ok_settings (@InitAccount I (cfg base quote bu qu rel fixed)).
  Proof.
    intros H1 H2 H3 H4.
    destruct (num_val 0 ltac:(lia)) as [F0 V0]. destruct (num_val 1 ltac:(lia)) as [F1 V1].
    assert (R0 : in_range 0 (bpow radix2 20) (f32_of_Z 0)) by (split; [exact F0|rewrite V0; pose proof (bpow_ge_0 radix2 20); lra]).
    assert (L1 : in_range 0 1 (f32_of_Z 1)) by (split; [exact F1|rewrite V1; lra]).
    assert (L0 : in_range 0 1 (f32_of_Z 0)) by (split; [exact F0|rewrite V0; lra]).
    split; [split; constructor; assumption|]. constructor; assumption.
  Qed.

  Lemma one_fee_cheaper base quote bu qu base' quote' bu' qu' rel fixed rel' fixed' :
    B2R (rel' : f32) <= B2R (rel : f32) -> B2R (fixed' : f32) <= B2R (fixed : f32) ->
    cheaper_config (cfg base quote bu qu rel fixed) (cfg base' quote' bu' qu' rel' fixed').
  Proof. intros H1 H2. repeat split; cbn; auto; lra. Qed.

  Lemma small_fees : in_range 0 1 fee1 /\ in_range 0 1 fee2 /\ in_range 0 1 (num 0) /\
    in_range 0 (bpow radix2 20) (num 0) /\ in_range 0 (bpow radix2 20) (num 1) /\
    B2R (fee1 : f32) <= B2R (fee2 : f32).
  Proof.
    lit_fact (@flit I 1 1000). rename F into F1, V into V1. lit_fact (@flit I 2 1000). rename F into F2, V into V2.
    destruct (num_val 0 ltac:(lia)) as [G0 W0]. destruct (num_val 1 ltac:(lia)) as [G1 W1].
    change (bpow radix2 20) with 1048576. unfold in_range. rewrite V1, V2, W0, W1.
    repeat split; auto; lra.
  Qed.

  Lemma units_ok : ok_unit cents /\ ok_unit dust /\ ok_unit (num 1).
  Proof.
    lit_fact (@flit I 1 100). rename F into FU, V into VU. lit_fact (@flit I 1 100000). rename F into FB, V into VB.
    destruct (num_val 1 ltac:(lia)) as [G1 W1].
    unfold ok_unit. rewrite VU, VB, W1. change (bpow radix2 (-30)) with (/ 1073741824). change (bpow radix2 20) with 1048576.
    repeat split; auto; right; lra.
  Qed.

  Lemma small_price z : (1 <= z <= 1000)%Z -> ok_price (num z).
  Proof.
    intros Hz. destruct (num_val z ltac:(lia)) as [F V]. split; [exact F|]. rewrite V.
    assert (1 <= IZR z <= 1000) by (split; apply IZR_le; lia).
    change (bpow radix2 (-26)) with (/ 67108864). change (bpow radix2 26) with 67108864. lra.
  Qed.

  Lemma ticks_ok : ok_tick (@flat2 lm as_) /\ ok_tick (@wide_tick lm as_).
  Proof.
    assert (Hv : ok_amount (num 1000)).
    { destruct (num_val 1000 ltac:(lia)) as [F V]. split; [exact F|]. rewrite V. change (bpow radix2 40) with 1099511627776. lra. }
    split; (split; cbn [open high low close volume flat2 wide_tick]; try (apply small_price; lia); try exact Hv);
      change (@flt I) with f32;
      rewrite ?(proj2 (num_val 2 ltac:(lia))), ?(proj2 (num_val 100 ltac:(lia))), ?(proj2 (num_val 110 ltac:(lia))), ?(proj2 (num_val 90 ltac:(lia))); lra.
  Qed.

  (** The orders of C01's example under lower fees and with more money: the hypotheses of
      C121_orders are met, and the two end with different balances. *)
  Theorem C121_ex :
    let rich := cfg (num 11) (num 1000) (num 1) (num 1) fee1 (num 0) in
    let poor := cfg (num 10) (num 1000) (num 1) (num 1) fee2 (num 1) in
    let l := [(@fx_buy lm as_, @wide_tick lm as_); (@fx_sell lm as_, @wide_tick lm as_)] in
    let a := @InitAccount I poor in let a' := @InitAccount I rich in
    (ok_config poor /\ ok_config rich /\ cheaper_config poor rich /\ ok_settings a /\
     balances_ok a /\ balances_ok a' /\ better a a' /\
     Forall (fun ot => ok_order (fst ot) /\ for_base (fst ot) /\ ok_tick (snd ot)) l) /\
    within_range poor a l /\ within_range rich a' l /\
    exists a2 a2', all_executed poor a l a2 /\ all_executed rich a' l a2' /\
      B2SF (quote_balance a2 : f32) = B2SF (num 1120) /\ B2SF (quote_balance a2' : f32) = B2SF (num 1122).
  Proof.
    cbv zeta. destruct small_fees as (S1 & S2 & S3 & S4 & S5 & S6). destruct units_ok as (U1 & U2 & U3).
    set (rich := cfg (num 11) (num 1000) (num 1) (num 1) fee1 (num 0)).
    set (poor := cfg (num 10) (num 1000) (num 1) (num 1) fee2 (num 1)).
    set (l := [_; _]).
    destruct (one_fee_ok (num 10) (num 1000) (num 1) (num 1) fee2 (num 1) S2 S5 U3 U3) as [P1 P2]. fold poor in P1, P2.
    destruct (one_fee_ok (num 11) (num 1000) (num 1) (num 1) fee1 (num 0) S1 S4 U3 U3) as [R1 R2]. fold rich in R1, R2.
    assert (BK : forall z, (0 <= z <= 1000)%Z -> balance_ok (num z)).
    { intros z Hz. destruct (num_val z ltac:(lia)) as [F V]. split; [exact F|]. rewrite V. apply IZR_le. lia. }
    assert (RUN : forall c k, c = rich /\ k = 1122%Z \/ c = poor /\ k = 1120%Z ->
       exists a1 a2, @ExecuteOrder I c (@fx_buy lm as_) (@wide_tick lm as_) (@InitAccount I c) = Done (true, a1) /\
         not_exceeded a1 /\ @ExecuteOrder I c (@fx_sell lm as_) (@wide_tick lm as_) a1 = Done (true, a2) /\
         B2SF (quote_balance a2 : f32) = B2SF (num k)).
    { intros c k Hc.
      assert (E : omap (fun r : bool * @account I => (fst r, Bltb limit40 (base_balance (snd r) : f32), Bltb limit40 (quote_balance (snd r) : f32),
                               Bltb limit40 (total_fee (snd r) : f32)))
                   (@ExecuteOrder I c (@fx_buy lm as_) (@wide_tick lm as_) (@InitAccount I c)) = Done (true, false, false, false))
        by (destruct Hc as [[-> ->]|[-> ->]]; clear; destruct as_; vm_compute; reflexivity).
      apply omap_done in E as ((b, a1) & E1 & E2). cbn [fst snd] in E2. injection E2 as -> N1 N2 N3.
      assert (E : (do r <- (@ExecuteOrder I c (@fx_buy lm as_) (@wide_tick lm as_) (@InitAccount I c));
                   omap (fun r : bool * @account I => (fst r, B2SF (quote_balance (snd r) : f32)))
                     (@ExecuteOrder I c (@fx_sell lm as_) (@wide_tick lm as_) (snd r))) = Done (true, B2SF (num k)))
        by (destruct Hc as [[-> ->]|[-> ->]]; clear; destruct as_; vm_compute; reflexivity).
      rewrite E1 in E. cbn [bind snd] in E. apply omap_done in E as ((b, a2) & E3 & E4). cbn [fst snd] in E4. injection E4 as -> E4.
      exists a1, a2. repeat split; assumption. }
    assert (WR : forall c a1 a2, @ExecuteOrder I c (@fx_buy lm as_) (@wide_tick lm as_) (@InitAccount I c) = Done (true, a1) ->
       not_exceeded (@InitAccount I c) -> not_exceeded a1 ->
       @ExecuteOrder I c (@fx_sell lm as_) (@wide_tick lm as_) a1 = Done (true, a2) ->
       within_range c (@InitAccount I c) l /\ all_executed c (@InitAccount I c) l a2).
    { intros c a1 a2 E1 N0 N1 E2. split; [|econstructor; [exact E1|econstructor; [exact E2|constructor]]].
      intros l1 ot l2 a3 El HA. destruct l1 as [|x1 l1]; [inversion HA; subst; exact N0|].
      injection El as <- El. inversion HA as [|? ? ? b1 ? ? X1 X2]; subst. rewrite E1 in X1. injection X1 as <-.
      destruct l1 as [|x2 l1]; [inversion X2; subst; exact N1|]. destruct l1; discriminate El. }
    destruct (RUN rich 1122%Z ltac:(auto)) as (b1 & b2 & B1 & B2 & B3 & B4).
    destruct (RUN poor 1120%Z ltac:(auto)) as (d1 & d2 & D1 & D2 & D3 & D4).
    destruct (WR rich b1 b2 B1) as [WB XB]; auto; [repeat split; vm_compute; reflexivity|].
    destruct (WR poor d1 d2 D1) as [WD XD]; auto; [repeat split; vm_compute; reflexivity|].
    assert (L01 : B2R (f32_of_Z 0) <= B2R (f32_of_Z 1)) by (rewrite (proj2 (num_val 0 ltac:(lia))), (proj2 (num_val 1 ltac:(lia))); lra).
    assert (L1011 : B2R (f32_of_Z 10) <= B2R (f32_of_Z 11)) by (rewrite (proj2 (num_val 10 ltac:(lia))), (proj2 (num_val 11 ltac:(lia))); lra).
    split; [|split; [exact WD|]; split; [exact WB|]; exists d2, b2; auto].
    split; [exact P1|]. split; [exact R1|]. split; [apply one_fee_cheaper; assumption|]. split; [exact P2|].
    split; [repeat split; apply BK; lia|]. split; [repeat split; apply BK; lia|].
    split; [split; [repeat split|]; split; [exact L1011|]; split; apply Rle_refl|].
    assert (HA : forall z, (1 <= z <= 1000)%Z -> ok_order_amount (@BaseAmount I (num z))).
    { intros z Hz. destruct (num_val z ltac:(lia)) as [F V]. assert (1 <= IZR z <= 1000) by (split; apply IZR_le; lia).
      split; [split; [exact F|]|]; change (@flt I) with f32; rewrite V; [change (bpow radix2 60) with 1152921504606846976|]; lra. }
    apply Forall_cons; [|apply Forall_cons; [|apply Forall_nil]]; (split; [|split; [eexists; reflexivity|apply ticks_ok]]); cbn [fst].
    - apply (OkOrder _ MARKET BUY (num 2) (@BaseAmount I (num 2))); auto. apply HA. lia.
    - apply (OkOrder _ LIMIT SELL (num 108) (@BaseAmount I (num 3))); auto; [apply HA; lia|].
      right. split; [reflexivity|apply small_price; lia].
  Qed.

  (** Orders for quote amounts behave differently. At a fee of 0.2% an order to buy for the
      whole balance of 10.07 is executed; at 0.1% it is turned down: what is bought costs, after
      rounding, more than there is. *)
  Theorem C121_quote_buy_refuted :
    let c := cfg (num 0) Q dust cents fee2 (num 0) in let c' := cfg (num 0) Q dust cents fee1 (num 0) in
    let a := @InitAccount I c in
    (ok_config c /\ ok_config c' /\ cheaper_config c c' /\ ok_settings a /\ ok_tick (@wide_tick lm as_)) /\
    @InitAccount I c' = a /\
    (exists a1, @ExecuteOrder I c (@buy_all lm as_) (@wide_tick lm as_) a = Done (true, a1)) /\
    @ExecuteOrder I c' (@buy_all lm as_) (@wide_tick lm as_) a = Done (false, a).
  Proof.
    cbv zeta. destruct small_fees as (S1 & S2 & S3 & S4 & S5 & S6). destruct units_ok as (U1 & U2 & U3).
    destruct (one_fee_ok (num 0) Q dust cents fee2 (num 0) S2 S4 U2 U1) as [P1 P2].
    destruct (one_fee_ok (num 0) Q dust cents fee1 (num 0) S1 S4 U2 U1) as [R1 _].
    split; [split; [exact P1|]; split; [exact R1|]; split; [apply one_fee_cheaper; [exact S6|lra]|]; split; [exact P2|apply ticks_ok]|].
    split; [reflexivity|]. split.
    - assert (E : omap fst (@ExecuteOrder I (cfg (num 0) Q dust cents fee2 (num 0)) (@buy_all lm as_) (@wide_tick lm as_)
                    (@InitAccount I (cfg (num 0) Q dust cents fee2 (num 0)))) = Done true) by (clear; destruct as_; vm_compute; reflexivity).
      apply omap_done in E as ((b, a1) & E1 & E2). cbn [fst] in E2. subst b. exists a1. exact E1.
    - assert (E : omap fst (@ExecuteOrder I (cfg (num 0) Q dust cents fee1 (num 0)) (@buy_all lm as_) (@wide_tick lm as_)
                    (@InitAccount I (cfg (num 0) Q dust cents fee2 (num 0)))) = Done false) by (clear; destruct as_; vm_compute; reflexivity).
      apply omap_done in E as ((b, a1) & E1 & E2). cbn [fst] in E2. subst b.
      rewrite E1, (proj1 (ExecuteOrder_all _ _ _ _ _ _ E1) eq_refl). reflexivity.
  Qed.

  (** With units of 1 and a fixed fee of 1, an order to sell for 1 at a price of 2 sells one
      unit; without the fee it sells nothing and is turned down. *)
  Theorem C121_quote_sell_refuted :
    let c := cfg (num 10) (num 0) (num 1) (num 1) (num 0) (num 1) in let c' := cfg (num 10) (num 0) (num 1) (num 1) (num 0) (num 0) in
    let a := @InitAccount I c in
    (ok_config c /\ ok_config c' /\ cheaper_config c c' /\ ok_settings a /\ ok_tick (@flat2 lm as_)) /\
    @InitAccount I c' = a /\
    (exists a1, @ExecuteOrder I c (@sell_one lm as_) (@flat2 lm as_) a = Done (true, a1)) /\
    @ExecuteOrder I c' (@sell_one lm as_) (@flat2 lm as_) a = Done (false, a).
  Proof.
    cbv zeta. destruct small_fees as (S1 & S2 & S3 & S4 & S5 & S6). destruct units_ok as (U1 & U2 & U3).
    destruct (one_fee_ok (num 10) (num 0) (num 1) (num 1) (num 0) (num 1) S3 S5 U3 U3) as [P1 P2].
    destruct (one_fee_ok (num 10) (num 0) (num 1) (num 1) (num 0) (num 0) S3 S4 U3 U3) as [R1 _].
    assert (L01 : B2R (f32_of_Z 0) <= B2R (f32_of_Z 1)) by (rewrite (proj2 (num_val 0 ltac:(lia))), (proj2 (num_val 1 ltac:(lia))); lra).
    split; [split; [exact P1|]; split; [exact R1|]; split; [apply one_fee_cheaper; [lra|exact L01]|]; split; [exact P2|apply ticks_ok]|].
    split; [reflexivity|]. split.
    - assert (E : omap fst (@ExecuteOrder I (cfg (num 10) (num 0) (num 1) (num 1) (num 0) (num 1)) (@sell_one lm as_) (@flat2 lm as_)
                    (@InitAccount I (cfg (num 10) (num 0) (num 1) (num 1) (num 0) (num 1)))) = Done true) by (clear; destruct as_; vm_compute; reflexivity).
      apply omap_done in E as ((b, a1) & E1 & E2). cbn [fst] in E2. subst b. exists a1. exact E1.
    - assert (E : omap fst (@ExecuteOrder I (cfg (num 10) (num 0) (num 1) (num 1) (num 0) (num 0)) (@sell_one lm as_) (@flat2 lm as_)
                    (@InitAccount I (cfg (num 10) (num 0) (num 1) (num 1) (num 0) (num 1)))) = Done false) by (clear; destruct as_; vm_compute; reflexivity).
      apply omap_done in E as ((b, a1) & E1 & E2). cbn [fst] in E2. subst b.
      rewrite E1, (proj1 (ExecuteOrder_all _ _ _ _ _ _ E1) eq_refl). reflexivity.
  Qed.
End ExamplesMet.
