(** C114: which orders the exchange carries out in single precision. *)
From Coq Require Import Reals ZArith Bool List Lra Lia.
From Flocq Require Import Core BinarySingleNaN.
From Verif.Model Require Import Outcome Machine Types Account MachineIEEE.
From Verif.Spec Require Import AccountSpec AccountIEEESpec OrderSpec SetupSpec FloatTradeSpec ClearSpec.
From Verif.Proofs Require Import Base FloatLemmas FloatErr AccountAny AccountIEEE AccountErr AccountBook AccountTrade ClearFloat.
From Verif.Properties Require Import AccountProps AccountFloatProps.
Import ListNotations.
Local Open Scope R_scope.

Section Props.
  Context (lm : libm) (as_ : bool).
  Local Notation I := (ieee lm as_).

  Lemma budget_float fc (a : @account I) (x : f32) : ok_settings a -> ok_fees fc -> nneg 40 x ->
    let q0 := @Round I x (quote_unit a) in let f0 := @GetFee I a fc q0 in
    budget fc a (B2R x) (B2R (q0 : f32)) (B2R (f0 : f32)) /\ nneg 43 q0 /\ nneg 47 f0.
  Proof.
    intros [Hbu Hqu _ _] Hfc Hx. cbv zeta. pose proof (proj2 (ok_unit_sign _ Hqu)) as PQU. pose proof eta_pos as He. pose proof eta_100 as H100. pose proof (proj2 Hx) as Px.
    pose proof (Round_nneg (lm := lm) (as_ := as_) 40 x (quote_unit a) ltac:(lia) Hx Hqu) as Hq. change (40 + 3)%Z with 43%Z in *.
    pose proof (Round_err (lm := lm) (as_ := as_) 40 x (quote_unit a) ltac:(lia) Hx Hqu) as Kq. cbv zeta in Kq. change (@flt I) with f32 in *.
    set (q0 := @Round I x (quote_unit a)) in *.
    pose proof (GetFee_nneg 43 a fc q0 ltac:(lia) Hfc Hqu Hq) as Hf. change (43 + 4)%Z with 47%Z in *.
    pose proof (GetFee_err 43 a fc q0 ltac:(lia) Hfc Hqu Hq) as Kf. cbv zeta in Kf. change (@flt I) with f32 in *.
    assert (PZ : 0 <= fee_exact fc (B2R q0)).
    { unfold fee_exact. eapply Rle_trans; [|apply Rmax_l]. apply (of_min _ Hfc). }
    split; [|split; [exact Hq|exact Hf]]. change (@flt I) with f32 in *. split.
    - unfold about_near. rewrite tol_val. rewrite eps_val in *. lra.
    - unfold about_up. rewrite tol_val. set (Z := fee_exact fc (B2R q0)) in *. rewrite eps_val in *. lra.
  Qed.

  Lemma maxval_ok : balance_ok (@fmaxval I).
  Proof. split; [reflexivity|]. apply Rlt_le, (F2R_gt_0 radix2). reflexivity. Qed.
  Lemma maxval_ge : bpow radix2 100 <= B2R (@fmaxval I : f32).
  Proof.
    cbn [fmaxval ieee]. unfold B2R, F2R. cbn -[bpow IZR].
    apply Rle_trans with (1 * bpow radix2 104); [rewrite Rmult_1_l; apply bpow_le; lia|]. apply Rmult_le_compat_r; [apply bpow_ge_0|apply (IZR_le 1); lia].
  Qed.
  Lemma cap_of_ok ty (a : @account I) t : ok_settings a -> ok_tick t -> balance_ok (cap_of ty a t).
  Proof. intros Hs Ht. destruct ty; [apply maxval_ok|apply maxval_ok|apply MaxBase_ok; assumption]. Qed.
  Lemma limited_float ty (a : @account I) t D : ok_settings a -> ok_tick t -> D <= bpow radix2 100 ->
    limited a t ty D (Rmin D (B2R (cap_of ty a t))).
  Proof.
    intros Hs Ht HD. pose proof maxval_ge as L. destruct ty; cbn [limited cap_of]; try (apply Rmin_left; change (@flt I) with f32 in *; lra).
    eexists. split; [apply cap_about; assumption|reflexivity].
  Qed.

  (** What a quote amount comes to. *)
  Lemma quote_net sd (q f : f32) : nneg 43 q -> nneg 47 f -> (sd = BUY -> B2R f < B2R q) ->
    let d := match sd with BUY => Bminus mode_NE q f | SELL => Bplus mode_NE q f end in
    nneg 48 d /\ B2R d = rnd (net sd (B2R q) (B2R f)) /\ 0 <= net sd (B2R q) (B2R f) <= bpow radix2 48.
  Proof.
    intros Hq Hf L. assert (Hq47 : nneg 47 q) by (apply (nneg_weaken 43); [lia|exact Hq]).
    assert (E48 : bpow radix2 48 = 2 * bpow radix2 47) by (change 48%Z with (1 + 47)%Z; rewrite bpow_plus; reflexivity).
    pose proof (proj2 Hq47) as Pq. pose proof (proj2 Hf) as Pf.
    destruct sd; cbv zeta; cbn [net].
    - specialize (L eq_refl). destruct (Bminus_nneg 47 q f ltac:(lia) Hq47 Hf ltac:(lra)) as [Hd Ed]. split; [apply (nneg_weaken 47); [lia|exact Hd]|]. split; [exact Ed|]. lra.
    - destruct (Bplus_nneg 47 q f ltac:(lia) Hq47 Hf) as [Hd Ed]. split; [exact Hd|]. split; [exact Ed|]. lra.
  Qed.

  Lemma net_div sd (q f : R) P : exec_price P -> 0 <= net sd q f <= bpow radix2 48 -> net sd q f / B2R P <= bpow radix2 100.
  Proof.
    intros HP H. destruct (price_nonneg P HP) as [PP _].
    apply Rle_trans with (bpow radix2 48 * bpow radix2 27); [|rewrite <- bpow_plus; apply bpow_le; lia].
    apply Rmult_le_compat; [apply H|left; apply Rinv_0_lt_compat; exact PP|apply H|].
    change 27%Z with (- (-27))%Z. rewrite bpow_opp. apply Rinv_le; [apply bpow_gt_0|apply HP].
  Qed.

  (** The price at which the code settles is one of the possible prices. *)
  Lemma price_possible (a : @account I) t ty sd p (P : f32) tr :
    let V := ideal_price (B2R (market_liquidity a : f32)) ty sd (B2R p) t in
    V - 4 * eps * V <= B2R P <= V + 4 * eps * V -> (ty = LIMIT -> P = p) -> tr_price tr = B2R P -> priced a t ty sd p tr.
  Proof.
    cbv zeta. intros HV HL E. split; [|intros Et; rewrite E, (HL Et); reflexivity]. rewrite E.
    set (V := ideal_price _ ty sd (B2R p) t) in *. apply Rabs_le.
    assert (E22 : bpow radix2 (-22) = 4 * eps) by (unfold eps; change (-22)%Z with (2 + -24)%Z; rewrite bpow_plus; reflexivity). rewrite E22. lra.
  Qed.

  (** ** C114 An order that is triggered, large enough and affordable however the roundings
      turn out is carried out *)
  Theorem C114_executes c o t (a : @account I) ty sd p am :
    ok_config c -> ok_settings a -> balances_ok a -> not_exceeded a -> ok_tick t ->
    asks o ty sd p am -> ftriggered ty sd (B2R p) t ->
    large_enough c a t ty sd p am ->
    (forall tr, possible c a t ty sd p am tr -> affordable a tr) ->
    exists a', @ExecuteOrder I c o t a = Done (true, a').
  Proof.
    intros Hc Hs Hbal Hn Ht Ha Htr [Hcap Hlarge] Haff. pose proof (bounded_of a Hbal Hn) as Hb. pose proof Hs as [Hbu Hqu Hl Hvr].
    destruct (order_runs c o t a ty sd p am Hc Hs Hb Ht Ha Htr) as (P & HP & HV & HL & HR).
    assert (Hfc : ok_fees (ffees_of c ty)) by (destruct Hc, ty; assumption).
    destruct (price_nonneg P HP) as [PP LP].
    (* the common end: y is the amount handed to BuyBase or SellBase *)
    assert (End : forall y : f32, nneg (match sd with BUY => 77 | SELL => 78 end) y -> (sd = BUY -> B2R y * B2R P <= bpow radix2 87) ->
        B2R (base_unit a : f32) <= B2R y ->
        (forall tr, tr_side tr = sd -> tr_price tr = B2R P -> tr_base tr = B2R (@Round I y (base_unit a) : f32) ->
           match sd with
           | BUY => about_up (B2R (quote_unit a : f32)) (tr_base tr * tr_price tr) (tr_quote tr)
           | SELL => about_down (B2R (quote_unit a : f32)) (tr_base tr * tr_price tr) (tr_quote tr)
           end ->
           about_up (B2R (quote_unit a : f32)) (fee_exact (ffees_of c ty) (tr_quote tr)) (tr_fee tr) -> affordable a tr) ->
        exists a', match sd with BUY => @BuyBase I (ffees_of c ty) y P a | SELL => @SellBase I (ffees_of c ty) y P a end = Done (true, a')).
    { clear - Hs Hb Hfc HP. intros y Ny Ly Gy HA. destruct sd.
      - destruct (BuyBase_executes (ffees_of c ty) y P a Hs Hb Hfc HP Ny (Ly eq_refl) Gy) as (q & f & K1 & K2 & K3). apply K3.
        exact (HA (Trade BUY (B2R P) (B2R (@Round I y (base_unit a) : f32)) q f) eq_refl eq_refl eq_refl K1 K2).
      - destruct (Rle_dec (B2R (@Round I y (base_unit a) : f32)) (B2R (base_balance a : f32))) as [L|L].
        + destruct (SellBase_executes (ffees_of c ty) y P a Hs Hb Hfc HP Ny Gy L) as (q & f & K1 & K2 & K3). apply K3.
          exact (proj2 (HA (Trade SELL (B2R P) (B2R (@Round I y (base_unit a) : f32)) q f) eq_refl eq_refl eq_refl K1 K2)).
        + exfalso. apply L. pose proof (proj2 (ok_unit_sign _ (os_quote_unit _ Hs))) as PQ.
          set (b := B2R (@Round I y (base_unit a) : f32)) in *. set (u := B2R (quote_unit a : f32)) in *.
          assert (Pb : 0 <= b).
          { apply (Round_nneg (lm := lm) (as_ := as_) 78 y (base_unit a)); [lia|exact Ny|apply Hs]. }
          assert (Pp : 0 <= B2R P) by (destruct (price_nonneg P HP); lra).
          pose proof (Rmult_le_pos _ _ Pb Pp) as PbP. pose proof (bpow_gt_0 radix2 (-100)) as P100.
          assert (PZ : forall x, 0 <= fee_exact (ffees_of c ty) x).
          { intros x. unfold fee_exact. eapply Rle_trans; [|apply Rmax_l]. apply (of_min _ Hfc). }
          assert (Pt : forall m, 0 <= m -> 0 <= tol m).
          { intros m Hm. unfold tol. pose proof (bpow_gt_0 radix2 (-20)). nra. }
          refine (proj1 (HA (Trade SELL (B2R P) b (b * B2R P) (fee_exact (ffees_of c ty) (b * B2R P))) eq_refl eq_refl eq_refl _ _));
            cbn [tr_base tr_price tr_quote tr_fee]; unfold about_down, about_up; change (@flt I) with f32 in *; fold u.
          * pose proof (Pt (b * B2R P + u) ltac:(lra)). lra.
          * specialize (PZ (b * B2R P)). pose proof (Pt (fee_exact (ffees_of c ty) (b * B2R P) + u) ltac:(lra)). lra. }
    pose proof eta_pos as He. pose proof eta_100 as H100. pose proof (proj2 (ok_unit_sign _ Hbu)) as PBU.
    destruct am as [|x|x]; [destruct HR| |]; destruct Ha as [_ _ _ Hx _]; cbn [ok_order_amount] in Hx; destruct Hx as [[Fx Hx] Px]; change (@flt I) with f32 in *.
    - cbv zeta in HR. destruct HR as [N60 HE].
      set (y := match ty with LIMIT => @fmin I x (@GetMaxBaseAmount I a t) | _ => x end) in *.
      assert (Hy : B2R (base_unit a) <= B2R y).
      { destruct ty; try exact Hlarge. unfold y. rewrite (fmin_val x _ Fx (proj1 (MaxBase_ok a t Hs Ht))). apply Rmin_glb; [exact Hlarge|].
        specialize (Hcap eq_refl _ (cap_about a t Hs Ht)). rewrite tol_val in Hcap. pose proof (bpow_gt_0 radix2 (-100)). change (@flt I) with f32 in *. rewrite eps_val in *. lra. }
      destruct (End y) as (a' & E); [destruct sd; apply (nneg_weaken 60); auto; lia| |exact Hy| |exists a'; change (@flt I) with f32 in *; rewrite HE; exact E].
      { intros _. change 87%Z with (60 + 27)%Z. rewrite bpow_plus. apply Rmult_le_compat; [apply N60|lra|apply N60|exact LP]. }
      intros tr T1 T2 T3 T4 T5. apply Haff. constructor; auto.
      { apply (price_possible a t ty sd p P); assumption. }
      exists (B2R y). split.
      + destruct ty; [reflexivity|reflexivity|]. eexists. split; [apply cap_about; assumption|]. unfold y. apply fmin_val; [exact Fx|apply (MaxBase_ok a t Hs Ht)].
      + pose proof (Round_err (lm := lm) (as_ := as_) 60 y (base_unit a) ltac:(lia) N60 Hbu) as K. cbv zeta in K. change (@flt I) with f32 in *. rewrite <- T3 in K.
        unfold about_near. rewrite tol_val. pose proof (bpow_gt_0 radix2 (-100)). pose proof (proj2 N60). rewrite eps_val in *. lra.
    - cbv zeta in HR. destruct Hlarge as [Hx1 Hlarge]. assert (N40 : nneg 40 x) by (split; assumption).
      destruct (budget_float (ffees_of c ty) a x Hs Hfc N40) as (HB & Nq & Nf).
      set (q0 := @Round I x (quote_unit a)) in *. set (f0 := @GetFee I a (ffees_of c ty) q0) in *. change (@flt I) with f32 in *.
      assert (HPP : priced a t ty sd p (Trade sd (B2R P) 0 0 0)) by (apply (price_possible a t ty sd p P); auto).
      destruct (Hlarge _ _ _ HB HPP) as [H1 H2].
      assert (Lf : sd = BUY -> B2R f0 < B2R q0) by (intros E; apply H2; exact E).
      destruct (quote_net sd q0 f0 Nq Nf Lf) as (Nd & Ed & HD).
      set (d := match sd with BUY => Bminus mode_NE q0 f0 | SELL => Bplus mode_NE q0 f0 end) in *.
      pose proof (cap_of_ok ty a t Hs Ht) as Hm. set (m := cap_of ty a t) in *.
      pose proof (net_div sd (B2R q0) (B2R f0) P HP HD) as HDP.
      destruct (quote_amount_base (lm := lm) (as_ := as_) _ _ d P m (base_unit a) 48 ltac:(lia) HP (proj1 HD) Nd Ed Hm eq_refl Hbu ltac:(lia)) as (Ny & _ & K1 & K2).
      pose proof (limited_float ty a t _ Hs Ht HDP) as HLim. fold m in HLim.
      set (y := @Floor I (@fmin I (Bdiv mode_NE d P) m) (base_unit a)) in *. change (30 + 48)%Z with 78%Z in *. change (@flt I) with f32 in *.
      assert (Hy : B2R (base_unit a) <= B2R y).
      { apply K2. apply Rmin_glb; [exact H1|]. destruct ty; unfold m; cbn [cap_of].
        1,2: apply Rle_trans with (bpow radix2 100); [|apply maxval_ge]; change (@flt I) with f32 in *; lra.
        apply (Hcap eq_refl). apply cap_about; assumption. }
      destruct (K1 Hy) as [_ K3]. clear K1 K2.
      assert (HE : @ExecuteOrder I c o t a = match sd with BUY => @BuyBase I (ffees_of c ty) y P a | SELL => @SellBase I (ffees_of c ty) y P a end /\
                   nneg (match sd with BUY => 77 | SELL => 78 end) y /\ (sd = BUY -> B2R y * B2R P <= bpow radix2 87)).
      { change (@flt I) with f32 in *. rewrite HR. destruct sd.
        - destruct (BuyAtQuote_runs (ffees_of c ty) x P m a Hs Hb Hfc HP N40 Hm Hx1 (proj2 (H2 eq_refl)) (Lf eq_refl) Hy) as (E1 & E2 & E3).
          split; [exact E1|]. split; [exact E2|]. intros _. exact E3.
        - destruct (SellAtQuote_runs (ffees_of c ty) x P m a Hs Hb Hfc HP N40 Hm Hx1 Hy) as (E1 & E2).
          split; [exact E1|]. split; [exact E2|]. discriminate. }
      destruct HE as (HE & N & L87).
      destruct (End y N L87 Hy) as (a' & E); [|exists a'; change (@flt I) with f32 in *; rewrite HE; exact E].
      intros tr T1 T2 T3 T4 T5. apply Haff. constructor; auto.
      { apply (price_possible a t ty sd p P); assumption. }
      exists (B2R q0), (B2R f0). eexists. split; [exact HB|]. rewrite T2, T3. split; [exact HLim|exact K3].
  Qed.

  (** Conversely, an order that is carried out was triggered and stands for a possible,
      nearly affordable trade, and the balances follow from that trade. *)
  Theorem C114_only c o t (a a' : @account I) ty sd p am :
    ok_config c -> ok_settings a -> balances_ok a -> not_exceeded a -> float_whole a -> ok_tick t ->
    asks o ty sd p am -> @ExecuteOrder I c o t a = Done (true, a') ->
    ftriggered ty sd (B2R p) t /\
    exists tr, possible c a t ty sd p am tr /\ nearly_affordable a tr /\ booked_float a tr a'.
  Proof.
    intros Hc Hs Hbal Hn Hw Ht Ha HE. pose proof (bounded_of a Hbal Hn) as Hb. pose proof Hs as [Hbu Hqu Hl Hvr].
    destruct (order_settles c o t a a' ty sd p am Hc Hs Hb Ht Ha HE) as (P & y & HP & HV & HL & Htr & Hset & Ham). split; [exact Htr|].
    assert (Hfc : ok_fees (ffees_of c ty)) by (destruct Hc, ty; assumption).
    assert (HT : exists tr, tr_side tr = sd /\ tr_price tr = B2R P /\ tr_base tr = B2R (@Round I y (base_unit a) : f32) /\
              fair_float (ffees_of c ty) a tr /\ booked_float a tr a').
    { destruct sd; cbn [settled] in Hset.
      - destruct Hset as (N & L & S). destruct (buy_books _ y P a a' Hs Hb Hw Hfc HP N L S) as (tr & T1 & T2 & T3 & T4 & T5 & _). eauto 10.
      - destruct Hset as (N & S). destruct (sell_books _ y P a a' Hs Hb Hw Hfc HP N S) as (tr & T1 & T2 & T3 & T4 & T5 & _). eauto 10. }
    assert (Ny : nneg 78 y) by (destruct sd; cbn [settled] in Hset; [apply (nneg_weaken 77); [lia|apply Hset]|apply Hset]).
    destruct HT as (tr & T1 & T2 & T3 & [F1 F2 F3 F4 F5] & T5). exists tr. split; [|split; [exact F5|exact T5]].
    pose proof (bpow_gt_0 radix2 (-100)) as P100. pose proof (proj2 (ok_unit_sign _ Hbu)) as PBU.
    constructor; auto; [apply (price_possible a t ty sd p P); assumption| |rewrite T1 in F3; exact F3].
    destruct am as [|x|x]; [destruct Ham| |]; destruct Ha as [_ _ _ Hx _]; cbn [ok_order_amount] in Hx; destruct Hx as [[Fx Hx] Px]; cbn [amount_from] in Ham; change (@flt I) with f32 in *.
    - exists (B2R y). split.
      + rewrite Ham. destruct ty; [reflexivity|reflexivity|]. eexists. split; [apply cap_about; assumption|]. apply fmin_val; [exact Fx|apply (MaxBase_ok a t Hs Ht)].
      + pose proof (Round_err (lm := lm) (as_ := as_) 78 y (base_unit a) ltac:(lia) Ny Hbu) as K. cbv zeta in K. change (@flt I) with f32 in *. rewrite <- T3 in K.
        unfold about_near. rewrite tol_val. pose proof (proj2 Ny). rewrite eps_val in *. lra.
    - cbv zeta in Ham. destruct Ham as [Ly Ham]. assert (N40 : nneg 40 x) by (split; assumption).
      destruct (budget_float (ffees_of c ty) a x Hs Hfc N40) as (HB & Nq & Nf).
      set (q0 := @Round I x (quote_unit a)) in *. set (f0 := @GetFee I a (ffees_of c ty) q0) in *. change (@flt I) with f32 in *.
      assert (Lf : sd = BUY -> B2R f0 < B2R q0) by (intros ->; apply Ham).
      destruct (quote_net sd q0 f0 Nq Nf Lf) as (Nd & Ed & HD).
      set (d := match sd with BUY => Bminus mode_NE q0 f0 | SELL => Bplus mode_NE q0 f0 end) in *.
      pose proof (cap_of_ok ty a t Hs Ht) as Hm.
      pose proof (net_div sd (B2R q0) (B2R f0) P HP HD) as HDP.
      destruct (quote_amount_base (lm := lm) (as_ := as_) _ _ d P (cap_of ty a t) (base_unit a) 48 ltac:(lia) HP (proj1 HD) Nd Ed Hm eq_refl Hbu ltac:(lia)) as (_ & _ & K1 & _).
      pose proof (limited_float ty a t _ Hs Ht HDP) as HLim.
      assert (Ey : y = @Floor I (@fmin I (Bdiv mode_NE d P) (cap_of ty a t)) (base_unit a)).
      { unfold d, cap_of. destruct sd; [exact (proj2 Ham)|exact Ham]. }
      change (@flt I) with f32 in *. rewrite <- Ey in K1. destruct (K1 Ly) as [_ K3].
      exists (B2R q0), (B2R f0). eexists. split; [exact HB|]. rewrite T2, T3. split; [exact HLim|exact K3].
  Qed.

  (** So an order that is not triggered, or for which no possible trade is nearly affordable,
      is rejected, and changes nothing. *)
  Theorem C114_rejects c o t (a : @account I) ty sd p am :
    ok_config c -> ok_settings a -> balances_ok a -> not_exceeded a -> float_whole a -> ok_tick t ->
    asks o ty sd p am ->
    ~ (ftriggered ty sd (B2R p) t /\ exists tr, possible c a t ty sd p am tr /\ nearly_affordable a tr) ->
    @ExecuteOrder I c o t a = Done (false, a).
  Proof.
    intros Hc Hs Hbal Hn Hw Ht Ha Hno. pose proof (bounded_of a Hbal Hn) as Hb.
    assert (Ho : ok_order o) by (destruct Ha as [H1 H2 H3 H4 H5]; exact (OkOrder o ty sd p am H1 H2 H3 H4 H5)).
    destruct (ExecuteOrder_good c o t a Hc Hs Hb Ht Ho) as (ok & a' & E & _ & Hrej & _).
    destruct ok; [|rewrite (Hrej eq_refl) in E; exact E].
    exfalso. apply Hno. destruct (C114_only c o t a a' ty sd p am Hc Hs Hbal Hn Hw Ht Ha E) as (K1 & tr & K2 & K3 & _). eauto.
  Qed.

  (** Selling the whole base balance, as the stop trader does: the balance is not rounded
      away, and nothing is left. *)
  Theorem C114_sell_all c o t (a : @account I) ty p :
    ok_config c -> ok_settings a -> balances_ok a -> not_exceeded a -> float_whole a -> ok_tick t ->
    asks o ty SELL p (BaseAmount (base_balance a)) -> ty <> LIMIT -> ftriggered ty SELL (B2R p) t ->
    B2R (base_unit a : f32) = 0 \/ B2R (base_balance a : f32) <= bpow radix2 20 * B2R (base_unit a : f32) ->
    (forall tr, possible c a t ty SELL p (BaseAmount (base_balance a)) tr -> tr_base tr = B2R (base_balance a : f32) -> affordable a tr) ->
    exists a', @ExecuteOrder I c o t a = Done (true, a') /\ B2R (base_balance a' : f32) = 0.
  Proof.
    intros Hc Hs Hbal Hn Hw Ht Ha HnL Htr Hfew Haff. pose proof (bounded_of a Hbal Hn) as Hb. pose proof Hs as [Hbu Hqu Hl Hvr].
    destruct (order_runs c o t a ty SELL p _ Hc Hs Hb Ht Ha Htr) as (P & HP & HV & HL & HR). cbv zeta in HR. destruct HR as [N60 HE].
    assert (Hfc : ok_fees (ffees_of c ty)) by (destruct Hc, ty; assumption).
    destruct Ha as [_ _ _ Hx _]. cbn [ok_order_amount] in Hx. destruct Hx as [[Fx Hx] Px]. change (@flt I) with f32 in *.
    assert (Ey : match ty with LIMIT => @fmin I (base_balance a) (@GetMaxBaseAmount I a t) | _ => base_balance a end = base_balance a) by (destruct ty; congruence).
    change (@flt I) with f32 in *. rewrite Ey in *. clear Ey.
    assert (N78 : nneg 78 (base_balance a)) by (apply (nneg_weaken 60); [lia|exact N60]).
    pose proof eta_pos as He.
    (* the balance is its own rounding, and at least one unit *)
    assert (HRd : B2R (@Round I (base_balance a) (base_unit a) : f32) = B2R (base_balance a) /\ B2R (base_unit a) <= B2R (base_balance a) /\
                  forall s, nneg 40 s -> B2R s = 0 -> B2R (@Round I s (base_unit a) : f32) = 0).
    { destruct (ok_unit_cases _ Hbu) as [U0|(PU & FU & RU)].
      - split; [rewrite (Round_zero_unit _ _ Hbu U0); reflexivity|]. split; [lra|]. intros s _ Es. rewrite (Round_zero_unit _ _ Hbu U0). exact Es.
      - destruct Hfew as [U0|Hfew]; [lra|]. destruct Hw as [WB _].
        destruct (whole_units_of _ _ Hbu PU Fx ltac:(lra) WB) as [k Hk]. destruct (units_near _ _ _ Hbu PU Hk ltac:(lra)) as (_ & Nk & K).
        pose proof (eta_unit _ (proj1 RU)) as Hee. change (bpow radix2 20) with 1048576 in Hfew.
        assert (Hk20 : (0 <= k <= 1048577)%Z).
        { apply (count_range (B2R (base_unit a)) k 1048577); [lra| | |reflexivity]; rewrite eps_val in *; lra. }
        assert (G : forall s N, nneg 78 s -> (0 <= N <= 1048577)%Z -> Rabs (B2R s - B2R (base_unit a) * IZR N) <= 25 / 64 * B2R (base_unit a) ->
                    B2R (@Round I s (base_unit a) : f32) = rnd (B2R (base_unit a) * IZR N)).
        { intros s N Ns HN HD. pose proof (count_exact (lm := lm) (as_ := as_) 78 s (base_unit a) N ltac:(lia) Ns Hbu PU HN HD) as C. apply (proj1 (nearest_rnd _ _)) in C. apply C. }
        apply (proj1 (nearest_rnd _ _)) in Hk. destruct Hk as [_ Ek].
        split; [|split].
        + rewrite (G _ k N78 Hk20); [symmetry; exact Ek|]. apply Rabs_le. rewrite eps_val in *. lra.
        + assert (k <> 0)%Z. { intros ->. rewrite Rmult_0_r, rnd_0 in Ek. lra. }
          rewrite Ek. apply round_ge_generic; try exact _; [apply generic_format_B2R|].
          rewrite <- (Rmult_1_r (B2R (base_unit a))) at 1. apply Rmult_le_compat_l; [lra|]. apply (IZR_le 1). lia.
        + intros s Ns Es. rewrite (G s 0%Z); [rewrite Rmult_0_r; apply rnd_0|apply (nneg_weaken 40); [lia|exact Ns]|lia|]. rewrite Es, Rmult_0_r, Rminus_0_r, Rabs_R0. lra. }
    destruct HRd as (E1 & E2 & E3).
    destruct (SellBase_executes (ffees_of c ty) (base_balance a) P a Hs Hb Hfc HP N78 E2 ltac:(change (@flt I) with f32 in *; rewrite E1; lra)) as (q & f & K1 & K2 & K3).
    change (@flt I) with f32 in *. rewrite E1 in K1.
    destruct K3 as (a' & HS).
    { refine (proj2 (Haff (Trade SELL (B2R P) (B2R (base_balance a)) q f) _ eq_refl)). constructor; cbn [tr_side tr_price tr_base tr_quote tr_fee]; auto.
      - apply (price_possible a t ty SELL p P); auto.
      - exists (B2R (base_balance a)). split; [destruct ty; [reflexivity|reflexivity|congruence]|].
        pose proof (proj2 (ok_unit_sign _ Hbu)) as PU. unfold about_near, tol. pose proof (bpow_gt_0 radix2 (-20)). pose proof (bpow_gt_0 radix2 (-100)). change (@flt I) with f32 in *. nra. }
    exists a'. change (@flt I) with f32 in *. rewrite HE. split; [exact HS|].
    destruct (SellBase_parts (ffees_of c ty) (base_balance a) P a a' Hs Hb Hfc HP N78 HS) as
      (q1 & f1 & tot & _ & _ & _ & _ & _ & _ & _ & _ & _ & _ & _ & (s1 & N1 & V1 & B1) & _).
    change (@flt I) with f32 in *. rewrite B1. apply E3; [exact N1|]. rewrite V1, E1. replace (B2R (base_balance a) - B2R (base_balance a)) with 0 by ring. apply rnd_0.
  Qed.

  (** The hypotheses are met: with 10 of base and 1000 of quote currency and a market at 100,
      an order to buy 2 is clearly feasible, one to buy 100 clearly not; the whole base
      balance can be sold. *)
  Local Notation n := (@n lm as_).
  Definition cl_order (sd : order_side) (k : Z) : @order I := @Order I (Some MARKET) (Some sd) (@BaseAmount I (n k)) None.
  Local Notation a := (@InitAccount I (@fx_config lm as_)).

  Lemma nv k : (Z.abs k <= 2 ^ 24)%Z -> B2R (n k : f32) = IZR k.
  Proof. intros H. apply (ofZ_finite k H). Qed.

  Lemma cl_asks sd k : (1 <= k <= 1000)%Z -> asks (cl_order sd k) MARKET sd (n 0) (@BaseAmount I (n k)).
  Proof.
    intros Hk. assert (1 <= IZR k <= 1000) by (split; apply IZR_le; lia). assert (1000 <= bpow radix2 60) by (apply Rle_trans with (bpow radix2 10); [change (bpow radix2 10) with 1024; lra|apply bpow_le; lia]).
    constructor; try reflexivity; [|left; auto]. split; [apply n_range; [lia|lra]|]. rewrite nv by lia. lra.
  Qed.

  Lemma cl_possible sd k tr : (1 <= k <= 1000)%Z -> possible (@fx_config lm as_) a (@fx_tick lm as_) MARKET sd (n 0) (@BaseAmount I (n k)) tr ->
    tr_side tr = sd /\ IZR k - 501 / 1000 <= tr_base tr <= IZR k + 501 / 1000 /\
    9999 / 100 <= tr_price tr <= 10001 / 100 /\ tr_base tr * tr_price tr - 1 - 2 / 10 <= tr_quote tr <= tr_base tr * tr_price tr + 1 + 2 / 10 /\ 0 <= tr_fee tr <= 201 / 100.
  Proof.
    intros Hk [P1 P2 P3 P4 P5]. split; [exact P1|]. assert (Hk' : 1 <= IZR k <= 1000) by (split; apply IZR_le; lia).
    destruct P2 as [P2 _].
    assert (EV : ideal_price (B2R (market_liquidity a : f32)) MARKET sd (B2R (n 0 : f32)) (@fx_tick lm as_) = 100).
    { destruct sd; cbn [ideal_price fx_tick open high low InitAccount fx_config market_liquidity cfg_market_liquidity]; unfold between; rewrite !nv by lia; ring. }
    rewrite EV in P2. clear EV.
    assert (fee1 : fee_exact (ffees_of (@fx_config lm as_) MARKET) (tr_quote tr) = 1).
    { unfold fee_exact. cbn [ffees_of fx_config market_order_fee_config fx_fees minimum_fee fixed_fee relative_fee].
      destruct (ofZ_finite 0 ltac:(lia)) as [_ V0]. destruct (ofZ_finite 1 ltac:(lia)) as [_ V1]. rewrite V0, V1. rewrite Rmult_0_l, Rplus_0_l. apply Rmax_left. lra. }
    rewrite fee1 in P5. clear fee1.
    cbn [InitAccount fx_config start_base_balance start_quote_balance cfg_base_unit cfg_quote_unit base_unit quote_unit market_liquidity cfg_market_liquidity limited] in *.
    destruct P3 as (z & -> & P3). unfold about_near in P3. 
    change (@flt I) with f32 in *. rewrite !nv in * by lia.
    assert (T : forall m, tol m = m / 1048576 + bpow radix2 (-100)) by (intros m; unfold tol; change (bpow radix2 (-20)) with (/ 1048576); reflexivity).
    rewrite T in P3. set (e := bpow radix2 (-100)) in *.
    assert (He : 0 <= e <= / 1048576) by (split; [apply bpow_ge_0|change (/ 1048576) with (bpow radix2 (-20)); apply bpow_le; lia]).
    apply Rabs_le_inv in P2. change (bpow radix2 (-22)) with (/ 4194304) in P2.
    assert (Hb : IZR k - 501 / 1000 <= tr_base tr <= IZR k + 501 / 1000) by lra.
    assert (Hp : 9999 / 100 <= tr_price tr <= 10001 / 100) by lra.
    split; [exact Hb|]. split; [exact Hp|].
    assert (Hx : 0 <= tr_base tr * tr_price tr <= 100200) by nra.
    split.
    - destruct sd; unfold about_up, about_down in P4; rewrite T in P4; lra.
    - unfold about_up in P5. rewrite T in P5. lra.
  Qed.

  Lemma C114_ex_met :
    ok_config (@fx_config lm as_) /\ ok_settings a /\ balances_ok a /\ not_exceeded a /\ float_whole a /\ ok_tick (@fx_tick lm as_).
  Proof.
    destruct (ieee_hypotheses_met lm as_) as (H1 & H2 & H3 & H4 & H5 & _). split; [exact H1|]. split; [exact H2|]. split; [exact H3|].
    split; [apply (H5 [] [(@fx_buy lm as_, @fx_tick lm as_); (@fx_sell lm as_, @fx_tick lm as_)] a); [reflexivity|discriminate|reflexivity]|].
    split; [|apply Forall_cons_iff in H4 as [[_ H4] _]; exact H4].
    destruct (known lm as_ a 10 1000 0) as (_ & _ & K); try lia; try reflexivity. exact K.
  Qed.

  Lemma C114_ex :
    (large_enough (@fx_config lm as_) a (@fx_tick lm as_) MARKET BUY (n 0) (@BaseAmount I (n 2)) /\
     (forall tr, possible (@fx_config lm as_) a (@fx_tick lm as_) MARKET BUY (n 0) (@BaseAmount I (n 2)) tr -> affordable a tr)) /\
    (forall tr, possible (@fx_config lm as_) a (@fx_tick lm as_) MARKET BUY (n 0) (@BaseAmount I (n 100)) tr -> ~ nearly_affordable a tr) /\
    (forall tr, possible (@fx_config lm as_) a (@fx_tick lm as_) MARKET SELL (n 0) (@BaseAmount I (base_balance a)) tr ->
       tr_base tr = B2R (base_balance a : f32) -> affordable a tr).
  Proof.
    assert (EQ : B2R (quote_balance a : f32) = 1000) by (apply (nv 1000); lia). assert (EB : B2R (base_balance a : f32) = 10) by (apply (nv 10); lia).
    assert (EU : B2R (quote_unit a : f32) = 1) by (apply (nv 1); lia). assert (EU' : B2R (base_unit a : f32) = 1) by (apply (nv 1); lia).
    split; [split|split].
    - split; [discriminate|]. cbv zeta. change (@flt I) with f32 in *. rewrite EU'. rewrite (nv 2) by lia. lra.
    - intros tr H. destruct (cl_possible BUY 2 tr ltac:(lia) H) as (E & H1 & H2 & H3 & H4). unfold affordable. rewrite E.
      change (@flt I) with f32 in *. rewrite EQ. nra.
    - intros tr H. destruct (cl_possible BUY 100 tr ltac:(lia) H) as (E & H1 & H2 & H3 & H4). unfold nearly_affordable. rewrite E.
      change (@flt I) with f32 in *. rewrite EQ. unfold tol. change (bpow radix2 (-20)) with (/ 1048576).
      assert (bpow radix2 (-100) <= 1) by (change 1 with (bpow radix2 0); apply bpow_le; lia). nra.
    - intros tr H Eb. destruct (cl_possible SELL 10 tr ltac:(lia) H) as (E & H1 & H2 & H3 & H4). unfold affordable. rewrite E.
      change (@flt I) with f32 in *. rewrite Eb, EU, EB in *. split; [lra|]. nra.
  Qed.
End Props.

Print Assumptions C114_executes.
Print Assumptions C114_only.
Print Assumptions C114_rejects.
Print Assumptions C114_sell_all.
Print Assumptions C114_ex.
