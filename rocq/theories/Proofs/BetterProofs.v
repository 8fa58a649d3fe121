(** More money and lower fees do not hurt an order for a base amount. *)
From Coq Require Import Reals ZArith Bool List Lia Lra.
From Flocq Require Import Core BinarySingleNaN.
From Verif.Model Require Import Outcome Machine Types Account MachineIEEE.
From Verif.Spec Require Import OrderSpec AccountIEEESpec BetterSpec.
From Verif.Proofs Require Import Base FloatLemmas FloatErr AccountAny AccountIEEE AccountErr ClearFloat.
Local Open Scope R_scope.

Section Better.
  Context {lm : libm} {as_ : bool}.
  Local Notation I := (ieee lm as_).

  Lemma Round_mono k (x y u : @flt I) : (20 <= k <= 97)%Z -> nneg k x -> nneg k y -> ok_unit u ->
    B2R (x : f32) <= B2R (y : f32) -> B2R (@Round I x u : f32) <= B2R (@Round I y u : f32).
  Proof.
    intros Hk Hx Hy [Fu Hu] Hle. unfold Round. cbn [fltb fofZ ieee fmul fround fdiv].
    destruct zero_finite as [F0 R0].
    destruct (Bltb (f32_of_Z 0) u) eqn:E; [|exact Hle].
    apply fltb_true in E; auto. rewrite R0 in E.
    destruct Hu as [Hu|Hu]; [lra|].
    destruct (unit_round_nneg mode_NA k x u Hk Hx Fu Hu) as [_ ->].
    destruct (unit_round_nneg mode_NA k y u Hk Hy Fu Hu) as [_ ->].
    apply rnd_mono. apply Rmult_le_compat_l; [lra|]. apply IZR_le.
    apply (Zrnd_le (round_mode mode_NA)). apply rnd_mono.
    apply Rmult_le_compat_r; [|exact Hle]. left. apply Rinv_0_lt_compat. exact E.
  Qed.

  Lemma GetFee_cheaper k (a a' : @account I) fc fc' (x : @flt I) :
    (22 <= k <= 96)%Z -> ok_fees fc -> ok_fees fc' -> cheaper fc fc' -> ok_unit (quote_unit a) -> quote_unit a' = quote_unit a -> nneg k x ->
    B2R (@GetFee I a' fc' x : f32) <= B2R (@GetFee I a fc x : f32).
  Proof.
    intros Hk [Hr Hf Hm] [Hr2 Hf2 Hm2] (C1 & C2 & C3) Hu Eu Hx. unfold GetFee. rewrite Eu. cbn [fadd fmul ieee].
    destruct (Bmult_nneg k 0 x (relative_fee fc) ltac:(lia) Hx (range_nneg 0 _ Hr)) as [Hp1 Ep1].
    destruct (Bmult_nneg k 0 x (relative_fee fc') ltac:(lia) Hx (range_nneg 0 _ Hr2)) as [Hp2 Ep2].
    rewrite Z.add_0_r in *.
    assert (Hf1' : nneg k (fixed_fee fc)) by (apply (nneg_weaken 20); [lia|apply range_nneg; exact Hf]).
    assert (Hf2' : nneg k (fixed_fee fc')) by (apply (nneg_weaken 20); [lia|apply range_nneg; exact Hf2]).
    destruct (Bplus_nneg k (fixed_fee fc) _ ltac:(lia) Hf1' Hp1) as [Hs1 Es1].
    destruct (Bplus_nneg k (fixed_fee fc') _ ltac:(lia) Hf2' Hp2) as [Hs2 Es2].
    assert (Hm1' : nneg (k + 1) (minimum_fee fc)) by (apply (nneg_weaken 20); [lia|apply range_nneg; exact Hm]).
    assert (Hm2' : nneg (k + 1) (minimum_fee fc')) by (apply (nneg_weaken 20); [lia|apply range_nneg; exact Hm2]).
    apply (Ceil_mono (k + 1)); auto using fmax_nneg; [lia|].
    rewrite !fmax_val by (apply Hm1' || apply Hm2' || apply Hs1 || apply Hs2).
    rewrite Es1, Es2, Ep1, Ep2.
    apply Rmax_lub.
    - eapply Rle_trans; [exact C3|]. apply Rmax_l.
    - eapply Rle_trans; [|apply Rmax_r]. apply rnd_mono. apply Rplus_le_compat; [exact C2|].
      apply rnd_mono. apply Rmult_le_compat_l; [apply Hx|exact C1].
  Qed.

  Lemma better_settings (a a' : @account I) : better a a' -> ok_settings a -> ok_settings a'.
  Proof. intros (H & _). apply ok_settings_same. exact H. Qed.

  Lemma BuyBase_better fc fc' x p (a a' a1 : @account I) :
    ok_settings a -> bounded40 a -> bounded40 a' -> better a a' -> ok_fees fc -> ok_fees fc' -> cheaper fc fc' ->
    exec_price p -> nneg 77 x -> B2R x * B2R p <= bpow radix2 87 ->
    @BuyBase I fc x p a = Done (true, a1) ->
    exists a1', @BuyBase I fc' x p a' = Done (true, a1') /\ better a1 a1'.
  Proof.
    intros Hs Hb Hb' Hbt Hfc Hfc' Hch Hp Hx Hxp H.
    pose proof (BuyBase_all fc x p a _ _ H) as (_ & Set1).
    destruct (BuyBase_parts fc x p a a1 Hs Hb Hfc Hp Hx Hxp H) as (q & f & tot & Eq & Ef & Nb & Nbp & Ebp & Nq & Nf & Et & Bt & Bu & (s1 & N1 & E1 & F1) & (s2 & N2 & E2 & F2) & (s3 & N3 & E3 & F3)).
    pose proof (better_settings a a' Hbt Hs) as Hs'. pose proof Hbt as ((U1 & U2 & U3 & U4) & B1 & B2 & B3).
    assert (A : exists a1', @BuyBase I fc' x p a' = Done (true, a1')).
    { unfold BuyBase. rewrite U1, U2. cbn [fltb fleb fofZ ieee].
      destruct (@zero_finite) as [F0 R0]. destruct Hp as [Fp Hp].
      pose proof (bpow_gt_0 radix2 (-27)) as H20.
      rewrite (fltb_intro (f32_of_Z 0) p) by (auto; lra). rewrite assert_true. cbn [bind].
      pose proof Hx as [Fx Hx'].
      rewrite (fleb_intro (f32_of_Z 0) x) by (auto; lra). rewrite assert_true. cbn [bind].
      rewrite (fltb_no (@Round I x (base_unit a)) (base_unit a)) by (apply Nb || apply Hs || exact Bu).
      cbn [fmul ieee]. change (@flt I) with f32 in *. rewrite <- Eq. cbn [fadd fsub ieee].
      pose proof (GetFee_cheaper 93 a a' fc fc' q ltac:(lia) Hfc Hfc' Hch ltac:(apply Hs) U2 Nq) as Cf.
      pose proof (GetFee_nneg 93 a' fc' q ltac:(lia) Hfc' ltac:(apply Hs') Nq) as Nf'. change (93 + 4)%Z with 97%Z in *.
      set (f' := @GetFee I a' fc' q) in *. change (@flt I) with f32 in *. rewrite <- Ef in Cf.
      destruct (Bplus_nneg 97 q f' ltac:(lia)) as [Ht Et']; auto.
      { apply (nneg_weaken 93); auto. lia. }
      rewrite (fltb_no (quote_balance a') (Bplus mode_NE q f')); [eauto|apply Hb'|apply Ht|].
      rewrite Et'. eapply Rle_trans; [|exact B2]. eapply Rle_trans; [|apply Bt]. rewrite Et. apply rnd_mono.
      apply Rplus_le_compat_l. exact Cf. }
    destruct A as (a1' & A). exists a1'. split; [exact A|].
    pose proof (BuyBase_all fc' x p a' _ _ A) as (_ & Set2).
    destruct (BuyBase_parts fc' x p a' a1' Hs' Hb' Hfc' Hp Hx Hxp A) as (q' & f' & tot' & Eq' & Ef' & Nb' & Nbp' & Ebp' & Nq' & Nf' & Et' & Bt' & Bu' & (s1' & N1' & E1' & F1') & (s2' & N2' & E2' & F2') & (s3' & N3' & E3' & F3')).
    rewrite U1, U2 in *. change (@flt I) with f32 in *. rewrite <- Eq in Eq'. subst q'.
    pose proof (GetFee_cheaper 93 a a' fc fc' q ltac:(lia) Hfc Hfc' Hch ltac:(apply Hs) U2 Nq) as Cf.
    change (@flt I) with f32 in *. rewrite <- Ef, <- Ef' in Cf.
    split; [|split; [|split]].
    - destruct Set1 as (? & ? & ? & ?), Set2 as (? & ? & ? & ?). unfold same_settings. repeat split; congruence.
    - rewrite F1, F1'. apply (Round_mono 81); auto; [lia|apply Hs|]. rewrite E1, E1'. apply rnd_mono. lra.
    - rewrite F2, F2'. apply (Round_mono 40); auto; [lia|apply Hs|]. rewrite E2, E2'. apply rnd_mono.
      assert (B2R tot' <= B2R tot) by (rewrite Et, Et'; apply rnd_mono; lra). lra.
    - rewrite F3, F3'. apply (Round_mono 42); auto; [lia|apply Hs|]. rewrite E3, E3'. apply rnd_mono. lra.
  Qed.

  Lemma SellBase_better fc fc' x p (a a' a1 : @account I) :
    ok_settings a -> bounded40 a -> bounded40 a' -> better a a' -> ok_fees fc -> ok_fees fc' -> cheaper fc fc' ->
    exec_price p -> nneg 78 x ->
    @SellBase I fc x p a = Done (true, a1) ->
    exists a1', @SellBase I fc' x p a' = Done (true, a1') /\ better a1 a1'.
  Proof.
    intros Hs Hb Hb' Hbt Hfc Hfc' Hch Hp Hx H.
    pose proof (SellBase_all fc x p a _ _ H) as (_ & Set1).
    destruct (SellBase_parts fc x p a a1 Hs Hb Hfc Hp Hx H) as (q & f & tot & Eq & Ef & Nb & Nbp & Ebp & Nq & Nf & Et & Bt & Bu & Bb & (s1 & N1 & E1 & F1) & (s2 & N2 & E2 & F2) & (s3 & N3 & E3 & F3)).
    pose proof (better_settings a a' Hbt Hs) as Hs'. pose proof Hbt as ((U1 & U2 & U3 & U4) & B1 & B2 & B3).
    assert (A : exists a1', @SellBase I fc' x p a' = Done (true, a1')).
    { unfold SellBase. rewrite U1, U2. cbn [fltb fleb fofZ ieee].
      destruct (@zero_finite) as [F0 R0]. destruct Hp as [Fp Hp].
      pose proof (bpow_gt_0 radix2 (-27)) as H20.
      rewrite (fltb_intro (f32_of_Z 0) p) by (auto; lra). rewrite assert_true. cbn [bind].
      pose proof Hx as [Fx Hx'].
      rewrite (fleb_intro (f32_of_Z 0) x) by (auto; lra). rewrite assert_true. cbn [bind].
      rewrite (fltb_no (@Round I x (base_unit a)) (base_unit a)) by (apply Nb || apply Hs || exact Bu).
      rewrite (fltb_no (base_balance a') (@Round I x (base_unit a))) by (apply Nb || apply Hb' || (eapply Rle_trans; [exact Bb|exact B1])).
      cbn [orb fmul ieee]. change (@flt I) with f32 in *. rewrite <- Eq. cbn [fadd fsub ieee].
      pose proof (GetFee_cheaper 70 a a' fc fc' q ltac:(lia) Hfc Hfc' Hch ltac:(apply Hs) U2 Nq) as Cf.
      pose proof (GetFee_nneg 70 a' fc' q ltac:(lia) Hfc' ltac:(apply Hs') Nq) as Nf'. change (70 + 4)%Z with 74%Z in *.
      set (f' := @GetFee I a' fc' q) in *. change (@flt I) with f32 in *. rewrite <- Ef in Cf.
      destruct (Bminus_finite 74 q f' ltac:(lia)) as [Ht Et']; auto.
      { apply (nneg_weaken 70); auto. lia. }
      rewrite (fltb_no (Bminus mode_NE q f') (quote_unit a)); [eauto|apply Ht|apply Hs|].
      rewrite Et'. eapply Rle_trans; [exact Bt|]. rewrite Et. apply rnd_mono. lra. }
    destruct A as (a1' & A). exists a1'. split; [exact A|].
    pose proof (SellBase_all fc' x p a' _ _ A) as (_ & Set2).
    destruct (SellBase_parts fc' x p a' a1' Hs' Hb' Hfc' Hp Hx A) as (q' & f' & tot' & Eq' & Ef' & Nb' & Nbp' & Ebp' & Nq' & Nf' & Et' & Bt' & Bu' & Bb' & (s1' & N1' & E1' & F1') & (s2' & N2' & E2' & F2') & (s3' & N3' & E3' & F3')).
    rewrite U1, U2 in *. change (@flt I) with f32 in *. rewrite <- Eq in Eq'. subst q'.
    pose proof (GetFee_cheaper 70 a a' fc fc' q ltac:(lia) Hfc Hfc' Hch ltac:(apply Hs) U2 Nq) as Cf.
    change (@flt I) with f32 in *. rewrite <- Ef, <- Ef' in Cf.
    split; [|split; [|split]].
    - destruct Set1 as (? & ? & ? & ?), Set2 as (? & ? & ? & ?). unfold same_settings. repeat split; congruence.
    - rewrite F1, F1'. apply (Round_mono 40); auto; [lia|apply Hs|]. rewrite E1, E1'. apply rnd_mono. lra.
    - rewrite F2, F2'. apply (Round_mono 75); auto; [lia|apply Hs|]. rewrite E2, E2'. apply rnd_mono.
      assert (B2R tot <= B2R tot') by (rewrite Et, Et'; apply rnd_mono; lra). lra.
    - rewrite F3, F3'. apply (Round_mono 75); auto; [lia|apply Hs|]. rewrite E3, E3'. apply rnd_mono. lra.
  Qed.

  Lemma ExecuteOrder_better c c' o t (a a' a1 : @account I) :
    ok_config c -> ok_config c' -> cheaper_config c c' -> ok_settings a -> bounded40 a -> bounded40 a' -> better a a' ->
    ok_tick t -> ok_order o -> for_base o ->
    @ExecuteOrder I c o t a = Done (true, a1) ->
    exists a1', @ExecuteOrder I c' o t a' = Done (true, a1') /\ better a1 a1'.
  Proof.
    intros [Hc1 Hc2 Hc3] [Hd1 Hd2 Hd3] (K1 & K2 & K3) Hset Hb Hb' Hbt Ht [ty sd p am Hty Hsd Ham Hx Hpr] (x & Ex) H.
    rewrite Ex in Ham. subst am. destruct Hx as [Hox Hpos]. apply range_nneg in Hox. rename Hox into Hn60.
    pose proof Hbt as ((U1 & U2 & U3 & U4) & _).
    assert (Hn77 : nneg 77 x) by (apply (nneg_weaken 60); auto; lia).
    assert (Hn78 : nneg 78 x) by (apply (nneg_weaken 60); auto; lia).
    pose proof (positive_num x ltac:(apply Hn60) Hpos) as Hpx.
    pose proof (nonneg_true _ _ Hn60) as Hge.
    assert (Hxp : forall y p, nneg 60 y -> exec_price p -> B2R y * B2R p <= bpow radix2 87).
    { intros y p' [_ Hy] [_ Hp']. change 87%Z with (60 + 27)%Z. rewrite bpow_plus. pose proof (bpow_gt_0 radix2 (-27)).
      apply Rmult_le_compat; lra. }
    pose proof (MaxBase_ok a t Hset Ht) as Hcap.
    pose proof Ht as [Ho Hh Hl Hcl Hv _ _]. pose proof (os_liquidity _ Hset) as Hliq.
    assert (HMB : exec_price (@GetMarketBuyPrice I a t)) by (apply mix_price; auto).
    assert (HMS : exec_price (@GetMarketSellPrice I a t)) by (apply mix_price; auto).
    assert (Hmin60 : nneg 60 (@fmin I x (@GetMaxBaseAmount I a t))) by (apply fmin_nneg; auto).
    assert (Hmin77 : nneg 77 (@fmin I x (@GetMaxBaseAmount I a t))) by (apply fmin_nneg; auto).
    assert (Hmin78 : nneg 78 (@fmin I x (@GetMaxBaseAmount I a t))) by (apply fmin_nneg; auto).
    assert (Hpriced : ty <> MARKET ->
       order_is o ty sd (@BaseAmount I x) p /\ @positive I p /\ exec_price p /\
       exec_price (@GetStopBuyPrice I a t p) /\ exec_price (@GetStopSellPrice I a t p)).
    { intros Hne. destruct Hpr as [Hm|[Hp Hpp]]; [contradiction|].
      pose proof (positive_price (lm := lm) (as_ := as_) p Hpp) as Hpp'.
      split; [apply order_is_priced; auto|]. split; [exact Hpp'|]. split; [apply price_exec; exact Hpp|].
      split; apply mix_price; auto using fmax_price, fmin_price. }
    destruct ty.
    - assert (Hd : order_is o MARKET sd (@BaseAmount I x) x) by (apply order_is_market; auto).
      pose proof (dispatch c o t a _ _ _ _ Hd) as D. pose proof (dispatch c' o t a' _ _ _ _ Hd) as D'.
      destruct sd; cbn [operation] in D, D'; injection D as D; injection D' as D'; rewrite <- D in H; rewrite <- D'.
      + unfold MarketBuy, GetMarketBuyPrice in *. rewrite U3. eapply BuyBase_better; try exact H; auto.
      + unfold MarketSell, GetMarketSellPrice in *. rewrite U3. eapply SellBase_better; try exact H; auto.
    - destruct (Hpriced ltac:(discriminate)) as (Hd & Hpp & Hep & HSB & HSS).
      pose proof (dispatch c o t a _ _ _ _ Hd) as D. pose proof (dispatch c' o t a' _ _ _ _ Hd) as D'.
      destruct sd; cbn [operation] in D, D'; injection D as D; injection D' as D'; rewrite <- D in H; rewrite <- D';
        unfold StopBuy, StopSell in *; rewrite Hpp, assert_true in *; cbn [bind] in *; rewrite Hge, assert_true in *; cbn [bind] in *;
        (destruct (fltb _ _); [discriminate|]).
      + unfold GetStopBuyPrice in *. rewrite U3. eapply BuyBase_better; try exact H; auto.
      + unfold GetStopSellPrice in *. rewrite U3. eapply SellBase_better; try exact H; auto.
    - destruct (Hpriced ltac:(discriminate)) as (Hd & Hpp & Hep & HSB & HSS).
      pose proof (dispatch c o t a _ _ _ _ Hd) as D. pose proof (dispatch c' o t a' _ _ _ _ Hd) as D'.
      destruct sd; cbn [operation] in D, D'; injection D as D; injection D' as D'; rewrite <- D in H; rewrite <- D';
        unfold LimitBuy, LimitSell in *; rewrite Hpp, assert_true in *; cbn [bind] in *; rewrite Hge, assert_true in *; cbn [bind] in *;
        (destruct (fltb _ _); [discriminate|]); unfold GetMaxBaseAmount in *; rewrite U1, U4.
      + eapply BuyBase_better; try exact H; auto.
      + eapply SellBase_better; try exact H; auto.
  Qed.
End Better.
