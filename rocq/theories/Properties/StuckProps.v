(** C115: a balance that the stop trader never manages to invest. *)
From Coq Require Import Reals ZArith Bool List Lra Lia String.
From Flocq Require Import Core BinarySingleNaN.
From Verif.Model Require Import Outcome Machine Types Account MachineIEEE SideInput Eval Traders Programs.
From Verif.Spec Require Import AccountSpec AccountIEEESpec OrderSpec SetupSpec FloatTradeSpec ClearSpec RunSpec TraderSpec ProgressSpec StuckSpec.
From Verif.Proofs Require Import Base FloatLemmas FloatErr OrderLaws AccountAny AccountIEEE AccountErr AccountTrade ClearFloat StuckFloat RunProofs TraderProofs StopFloat ProgressProofs SteadyFloat.
From Verif.Properties Require Import AccountProps AccountFloatProps ProgressFloatProps ClearProps.
Import ListNotations.
Local Open Scope R_scope.

(** A run in which every order is turned down. *)
Section Idle.
  Context {M : machine} (cfg : account_config) (hist : option (list side_record)) (te : trader_emitter)
          (O : order -> Prop) (T : ohlc_tick -> Prop) (ticks : list ohlc_tick).
  Local Notation a0 := (opening_account cfg).
  Local Notation A := (fun a => a = a0).
  Context (Hexec : forall o t, O o -> T t -> ExecuteOrder cfg o t a0 = Done (false, a0))
          (Hte : forall vs, increasing_from 0 vs ->
                   Forall (fun v => T (v_tick v) /\ v_base v = base_balance a0 /\ v_quote v = quote_balance a0) vs ->
                   exists oss, orders_emitted te vs = Done oss /\ Forall (Forall O) oss)
          (Hticks : strictly_ordered ticks) (HT : Forall T ticks).

  Lemma idle_Hexec : forall o t a, a = a0 -> True -> O o -> T t -> exists ok a', ExecuteOrder cfg o t a = Done (ok, a') /\ a' = a0.
  Proof. intros o t a -> _ Ho Ht. exists false, a0. auto. Qed.
  Lemma idle_Hte : forall vs, increasing_from 0 vs -> Forall (shown A (fun _ => True) T) vs ->
                   exists oss, orders_emitted te vs = Done oss /\ Forall (Forall O) oss.
  Proof.
    intros vs Hi Hv. apply Hte; [exact Hi|]. eapply Forall_impl; [|exact Hv].
    intros v (H1 & a & -> & _ & H2 & H3). auto.
  Qed.

  Lemma idle_tried t : T t -> forall atts, Forall O (map (fun x => fst (fst x)) atts) -> tried cfg t a0 atts -> executed atts = [].
  Proof.
    intros Tt. induction atts as [|[[o ok] a1] atts IH]; intros HO H; [reflexivity|].
    cbn [map fst] in HO. apply Forall_cons_iff in HO as [O1 O2]. destruct H as [H1 H2].
    rewrite (Hexec o t O1 Tt) in H1. injection H1 as <- <-. cbn. apply IH; assumption.
  Qed.

  Lemma idle_story : forall past rest rows, ticks = past ++ rest -> story cfg hist te past rows ->
    final_account cfg rows = a0 /\ executed_count rows = 0%Z.
  Proof.
    assert (G : forall past rest rows, ticks = past ++ rest -> story cfg hist te past rows -> final_account cfg rows = a0 /\ Forall O (pending rows)).
    { intros past rest rows Et S0.
      destruct (story_good cfg hist te A (fun _ => True) O T ticks idle_Hexec eq_refl idle_Hte Hticks HT (fun _ _ => Logic.I) past rest rows Et S0) as (I1 & _ & I3 & _). auto. }
    intros past. induction past as [|t past IH] using rev_ind; intros rest rows Et S0; (split; [apply (G _ _ _ Et S0)|]).
    - destruct S0 as [Hm _]. destruct rows; [reflexivity|discriminate].
    - destruct (story_unsnoc cfg hist te past t rows S0) as (rows' & r & -> & Ert & S1 & [Ra Ro Rt Rs Ru]).
      rewrite <- app_assoc in Et. cbn [app] in Et.
      destruct (IH (t :: rest) rows' Et S1) as [_ I2]. destruct (G _ _ _ Et S1) as [I1 I3].
      assert (Ea : w_account r = a0) by (rewrite <- I1; exact Ra).
      assert (Tt : T t). { rewrite Et in HT. apply Forall_app in HT as [_ HT']. apply Forall_cons_iff in HT'. apply HT'. }
      unfold executed_count in *. rewrite flat_map_app, app_length, Nat2Z.inj_add, I2. cbn [flat_map]. rewrite app_nil_r.
      rewrite (idle_tried t Tt (w_attempts r)); [reflexivity| |rewrite <- Ert, <- Ea; exact Rt].
      unfold pending in I3. rewrite Ro. exact I3.
  Qed.

  Theorem idle_run side lg hl fast l : side_matches hist side ->
    exists res l', ExecuteTrader cfg side fast te lg hl ticks l = Done (res, l') /\
      r_total_executed_orders res = 0%Z /\
      (ticks <> [] -> r_end_base_balance res = start_base_balance cfg /\ r_end_quote_balance res = start_quote_balance cfg).
  Proof.
    intros Hs.
    destruct (steady_returns cfg hist te A (fun _ => True) O T ticks idle_Hexec eq_refl idle_Hte Hticks HT (fun _ _ => Logic.I) side lg hl fast l Hs) as (res & l' & E).
    exists res, l'. split; [exact E|].
    destruct (run_story cfg hist side fast te lg hl Hs ticks l res l' (or_intror (strict_ordered ticks Hticks)) E) as [(E1 & E2 & _)|(f & r0 & rows & Et & S0 & R & _)].
    - subst. split; [reflexivity|congruence].
    - destruct (idle_story ticks [] rows ltac:(symmetry; apply app_nil_r) S0) as [I1 I2].
      destruct R as (_ & _ & R3 & R4 & _ & _ & _ & _ & R5 & _). rewrite R5, R3, R4, I1, I2. auto.
  Qed.
End Idle.

Section Props.
  Context (lm : libm) (as_ : bool).
  Local Notation I := (ieee lm as_).
  Local Notation Q := (@flit I 1007 100).

  Lemma unlucky_account (cfg : @account_config I) : unlucky cfg ->
    ok_config cfg /\ ok_settings (opening_account cfg) /\ bounded40 (opening_account cfg).
  Proof.
    intros [U1 U2 U3 U4 U5 U6 U9 U7 U8].
    lit_fact (@flit I 1 100). rename F into FU, V into VU.
    lit_fact (@flit I 1 100000). rename F into FB, V into VB.
    lit_fact (@flit I 1007 100). rename F into FQ, V into VQ.
    destruct (@zero_finite) as [F0 R0].
    split; [constructor; [rewrite U5|rewrite U6|rewrite U9]; apply fee_ok|]. split.
    - constructor; cbn; [rewrite U3|rewrite U4|exact U7|exact U8].
      all: split; [assumption|right; change (bpow radix2 (-30)) with (/ 1073741824); change (bpow radix2 20) with 1048576].
      + apply (at_value _ _ _ _ VB). lra.
      + apply (at_value _ _ _ _ VU). lra.
    - unfold bounded40. cbn [opening_account base_balance quote_balance total_fee fofZ ieee]. rewrite U1, U2.
      change (@flt I) with f32 in *. 
      assert (N0 : nneg 40 (f32_of_Z 0)) by (split; [exact F0|]; apply (at_value _ _ _ _ R0); change (bpow radix2 40) with 1099511627776; lra).
      split; [exact N0|]. split; [|exact N0]. split; [exact FQ|]. apply (at_value _ _ _ _ VQ). change (bpow radix2 40) with 1099511627776. lra.
  Qed.

  (** An order to buy for the whole balance is turned down on every tick with prices up to
      499, whatever the stop price. *)
  Theorem C115_order (cfg : @account_config I) o ty p t :
    unlucky cfg -> ty <> LIMIT -> asks o ty BUY p (QuoteAmount Q) -> ok_tick t -> B2R (high t : f32) <= 499 ->
    ExecuteOrder cfg o t (opening_account cfg) = Done (false, opening_account cfg).
  Proof.
    intros U Hty Ha Ht Hh. destruct (unlucky_account cfg U) as (Hc & Hs & Hb). pose proof U as [U1 U2 U3 U4 U5 U6 U9 U7 U8].
    assert (Ho : ok_order o) by (destruct Ha as [H1 H2 H3 H4 H5]; exact (OkOrder o ty BUY p _ H1 H2 H3 H4 H5)).
    set (a := opening_account cfg) in *.
    destruct (ExecuteOrder_good cfg o t a Hc Hs Hb Ht Ho) as (ok & a' & E & _ & Hrej & _).
    destruct ok; [exfalso|rewrite (Hrej eq_refl) in E; exact E].
    destruct (order_settles cfg o t a a' ty BUY p _ Hc Hs Hb Ht Ha E) as (_ & _ & _ & _ & _ & Htr & _).
    destruct (order_runs cfg o t a ty BUY p _ Hc Hs Hb Ht Ha Htr) as (P & HP & HV & _ & HE).
    assert (Hfee : ffees_of cfg ty = @FeeConfig I (@flit I 5 1000) (f32_of_Z 0) (f32_of_Z 0)) by (destruct ty; assumption).
    rewrite Hfee, stuck_buy in HE; try assumption; [congruence| |apply cap_of_ok; assumption|destruct ty; [apply maxval_ge|apply maxval_ge|congruence]].
    assert (LV : ideal_price (B2R (market_liquidity a : f32)) ty BUY (B2R p) t <= B2R (high t : f32)).
    { destruct Hs as [_ _ [_ Hl] _]. destruct Ht as [_ _ _ _ _ _ OH]. set (l := B2R (market_liquidity a : f32)) in *.
      change (@flt I) with f32 in *.
      destruct ty; cbn [ideal_price ftriggered] in *; [| |congruence]; unfold between; change (@flt I) with f32 in *.
      - assert (l * B2R (open t) <= l * B2R (high t)) by (apply Rmult_le_compat_l; lra). lra.
      - assert (Rmax (B2R p) (B2R (open t)) <= B2R (high t)) by (apply Rmax_lub; assumption).
        assert (l * Rmax (B2R p) (B2R (open t)) <= l * B2R (high t)) by (apply Rmult_le_compat_l; lra). lra. }
    set (V := ideal_price _ ty BUY (B2R p) t) in *. change (@flt I) with f32 in *. rewrite eps_val in HV. lra.
  Qed.

  (** The stop trader, whatever its margins, never executes an order. *)
  Theorem C115_never (cfg : @account_config I) hist side (c : @stop_config I) lg hl fast ticks l :
    unlucky cfg -> mild_stop lm as_ c -> side_matches hist side -> strictly_ordered ticks ->
    Forall quoted ticks -> Forall (fun t : @ohlc_tick I => B2R (high t : f32) <= 499) ticks ->
    exists res l', ExecuteTrader cfg side fast (stop_emitter c) lg hl ticks l = Done (res, l') /\
      r_total_executed_orders res = 0%Z /\
      (ticks <> [] -> r_end_base_balance res = f32_of_Z 0 /\ r_end_quote_balance res = Q).
  Proof.
    intros U C Hside Hord HQ HH. pose proof U as [U1 U2 _ _ _ _ _ _ _]. destruct (unlucky_account cfg U) as (Hc & Hs & Hb).
    lit_fact (@flit I 1007 100). rename F into FQ, V into VQ.
    pose (O := fun o : @order I => exists p, stop_range p /\ o = Order (Some STOP) (Some BUY) (@QuoteAmount I Q) (Some p)).
    pose (T := fun t : @ohlc_tick I => quoted t /\ B2R (high t : f32) <= 499).
    rewrite <- U1, <- U2. apply (idle_run cfg hist (stop_emitter c) O T ticks); auto.
    - intros o t (p & (Fp & Rp) & ->) ((Ht & _) & Hh). apply (C115_order cfg _ STOP p); auto; [discriminate|].
      constructor; try reflexivity.
      + cbn [ok_order_amount]. split; [split; [exact FQ|]|]; [apply (at_value _ _ _ _ VQ); change (bpow radix2 40) with 1099511627776; lra|].
        eapply Rlt_le_trans; [|apply Req_le; symmetry; exact VQ]. lra.
      + right. split; [reflexivity|]. split; [exact Fp|]. pose proof (bpow_le radix2 (-26) (-20) ltac:(lia)). pose proof (bpow_le radix2 20 26 ltac:(lia)). lra.
    - intros vs Hi HV.
      assert (HW : Forall (fun v : @view I => ok_portfolio (v_price v) (v_base v) (v_quote v)) vs).
      { eapply Forall_impl; [|exact HV]. intros v (((_ & Hp) & _) & E1 & E2). rewrite E1, E2. destruct Hb as (B1 & B2 & _).
        split; [exact Hp|exact B1|exact B2|].
        destruct B1 as [_ B1]. pose proof (bpow_gt_0 radix2 (-19)). destruct Hp as [_ Hp]. cbn [opening_account quote_balance base_balance] in *. rewrite U2.
        change (v_price v) with (close (v_tick v) : f32). change (@flt I) with f32 in *.
        assert (0 <= B2R (start_base_balance cfg) * B2R (close (v_tick v))) by (apply Rmult_le_pos; lra).
        apply Rle_trans with (bpow radix2 0); [apply bpow_le; lia|]. change (bpow radix2 0) with 1. rewrite VQ. lra. }
      destruct (chain_exists c vs stop_init) as (ps & Hch).
      { intros _. split; [exact Hi|]. eapply Forall_impl; [|exact HW]. intros v W. apply (view_demands lm as_), portfolio_view, W. }
      assert (HN : Forall (near_price lm as_) vs).
      { eapply Forall_impl; [|exact HW]. intros v W. apply (ok_p_price _ _ _ W). }
      assert (G : Forall stop_range ps).
      { clear HV HW Hi. destruct vs as [|v vs], ps as [|p ps]; cbn in Hch; try (destruct Hch; fail); [constructor|].
        destruct Hch as (_ & Hn & Hch). apply Forall_cons_iff in HN as [V1 V2].
        unfold next_stop in Hn. rewrite restart_first in Hn. injection Hn as <-.
        pose proof (start_range lm as_ c v C V1) as G. constructor; auto. eapply chain_range; eauto. }
      eexists. split; [apply orders_chain; eauto|]. pose proof (chain_length _ _ _ _ Hch) as Hl. clear Hi Hch HN.
      revert vs HV HW Hl. induction G as [|p ps G1 G2 IH]; intros [|v vs] HV HW Hl; try discriminate; cbn [combine map]; constructor.
      + apply Forall_cons_iff in HV as [(_ & E1 & E2) _]. apply Forall_cons_iff in HW as [W _]. constructor; [|constructor].
        exists p. split; [exact G1|]. change (closing_order v p = Order (Some STOP) (Some BUY) (@QuoteAmount I Q) (Some p)).
        destruct (product_num lm as_ v (portfolio_view lm as_ v W)) as (N & _ & Z).
        assert (L : is_long v = false).
        { unfold is_long. cbn [fleb fmul ieee]. change (@flt I) with f32 in *. 
          rewrite Bleb_ext; [|rewrite E2; cbn [opening_account quote_balance]; rewrite U2; apply finite_num; exact FQ|exact N].
          rewrite Z; [|rewrite E1; cbn [opening_account base_balance]; rewrite U1; apply zero_finite].
          rewrite E2. cbn [opening_account quote_balance]. rewrite U2. rewrite (ext_finite _ FQ). apply Rle_bool_false.
          eapply Rlt_le_trans; [|apply Req_le; symmetry; exact VQ]. lra. }
        unfold closing_order. rewrite L, E2. cbn [opening_account quote_balance]. rewrite U2. reflexivity.
      + apply Forall_cons_iff in HV as [_ V2]. apply Forall_cons_iff in HW as [_ W2]. apply IH; auto.
    - apply Forall_forall. intros t Hin. rewrite Forall_forall in HQ, HH. split; auto.
  Qed.
End Props.

(** The hypotheses are met: the program with no base currency and 10.07 of quote currency on
    a market that rises from 100 to 111.  With 10.08 the trader buys on the same market, and
    invests all of it. *)
Section Example.
  Context (lm : libm) (as_ : bool).
  Local Notation I := (ieee lm as_).

  Definition st_flags (cents : Z) : trader_flags :=
    TraderFlags "o.bin" "" "" "" "stop" "1970-01-01 00:00:02" "1970-01-01 00:09:00" 0
                (f64_of_Z 0) (Bdiv mode_NE (f64_of_Z cents) (f64_of_Z 100)) (f64_of_Z 1) (f64_of_Z 1) false.
  Definition st_config (cents : Z) : @account_config I := GetAccountConfig (st_flags cents).
  Definition st_ticks : list (@ohlc_tick I) :=
    [pf_tick lm as_ 60 100 101 99 100 10; pf_tick lm as_ 120 100 120 100 120 10; pf_tick lm as_ 180 120 126 119 125 10].

  Lemma st_unlucky : unlucky (st_config 1007).
  Proof.
    assert (E0 : f64_to_f32 (f64_of_Z 0) = f32_of_Z 0) by (apply B2SF_inj; vm_compute; reflexivity).
    assert (E1 : f64_to_f32 (f64_of_Z 1) = f32_of_Z 1) by (apply B2SF_inj; vm_compute; reflexivity).
    assert (R1 : in_range 0 1 (f32_of_Z 1)).
    { destruct (ofZ_finite 1 ltac:(lia)) as [F V]. split; [exact F|]. rewrite V. lra. }
    constructor; cbn [st_config GetAccountConfig start_base_balance start_quote_balance cfg_base_unit cfg_quote_unit market_order_fee_config stop_order_fee_config limit_order_fee_config
      cfg_market_liquidity cfg_max_volume_ratio st_flags tf_start_base_balance tf_start_quote_balance tf_market_liquidity tf_max_volume_ratio]; try exact E0; try reflexivity.
    - apply B2SF_inj. vm_compute. reflexivity.
    - rewrite E1. exact R1.
    - rewrite E1. exact R1.
  Qed.

  Lemma st_market : strictly_ordered st_ticks /\ Forall quoted st_ticks /\
    Forall (fun t : @ohlc_tick I => B2R (high t : f32) <= 499) st_ticks.
  Proof.
    destruct big_enough as (B1 & B2 & B3 & B4 & B5 & B6 & B7). split; [|split].
    - split.
      + intros t Ht. cbn in Ht. repeat (destruct Ht as [<-|Ht]; [cbn; lia|]). destruct Ht.
      + intros i j t t' H1 H2 L. destruct i as [|[|[|i]]], j as [|[|[|j]]]; cbn in H1, H2; try lia; try discriminate; try (destruct i; discriminate); try (destruct j; discriminate);
          injection H1 as <-; injection H2 as <-; cbn; lia.
    - assert (K : forall t o h l c v, (1 <= l <= 128)%Z -> (l <= o <= h)%Z -> (h <= 128)%Z -> (1 <= c <= 128)%Z -> (0 <= v <= 128)%Z -> quoted (pf_tick lm as_ t o h l c v)).
      { intros t o h l c v H1 H2 H3 H4 H5.
        assert (P : forall k, (1 <= k <= 128)%Z -> in_range (bpow radix2 (-19)) (bpow radix2 19) (f32_of_Z k) /\ in_range (bpow radix2 (-26)) (bpow radix2 26) (f32_of_Z k)).
        { intros k Hk. assert (1 <= IZR k <= 128) by (split; apply IZR_le; lia). split; apply (ProgressFloatProps.n_range k); try lia; lra. }
        assert (Q : forall k, (0 <= k <= 128)%Z -> B2R (f32_of_Z k) = IZR k) by (intros k Hk; apply ofZ_finite; lia).
        split; [|apply P; lia]. constructor; try (apply P; lia).
        - apply (ProgressFloatProps.n_range v); [cbn; lia|]. assert (0 <= IZR v <= 128) by (split; apply IZR_le; lia). cbn. lra.
        - cbn [pf_tick low open]. rewrite !Q by lia. apply IZR_le. lia.
        - cbn [pf_tick high open]. rewrite !Q by lia. apply IZR_le. lia. }
      unfold st_ticks. repeat (apply Forall_cons; [apply K; lia|]). apply Forall_nil.
    - unfold st_ticks. repeat (apply Forall_cons; [cbn [pf_tick high]|]); try apply Forall_nil.
      all: match goal with |- B2R (f32_of_Z ?k) <= _ => rewrite (proj2 (ofZ_finite k ltac:(lia))); lra end.
  Qed.

  Definition st_run (cents : Z) : outcome (Z * SpecFloat.spec_float * SpecFloat.spec_float) :=
    omap (fun r : @execution_result I * unit => (r_total_executed_orders (fst r), B2SF (r_end_base_balance (fst r) : f32), B2SF (r_end_quote_balance (fst r) : f32)))
         (@ExecuteTrader I (st_config cents) None true (stop_emitter default_stop) null_logger false st_ticks tt).
End Example.

Lemma C115_ex lm as_ :
  unlucky (st_config lm as_ 1007) /\ mild_stop lm as_ default_stop /\
  strictly_ordered (st_ticks lm as_) /\ Forall quoted (st_ticks lm as_) /\
  Forall (fun t : @ohlc_tick (ieee lm as_) => B2R (high t : f32) <= 499) (st_ticks lm as_) /\
  st_run lm as_ 1007 = Done (0%Z, SpecFloat.S754_zero false, SpecFloat.S754_finite false 10559160 (-20)) /\
  st_run lm as_ 1008 = Done (1%Z, SpecFloat.S754_finite false 12225893 (-27), SpecFloat.S754_zero false).
Proof.
  split; [apply st_unlucky|]. split; [|destruct (st_market lm as_) as (H1 & H2 & H3); do 3 (split; [assumption|]); split; destruct as_; vm_compute; reflexivity].
  constructor; cbn [default_stop stop_order_margin stop_order_move_margin].
  - lit_fact (@flit (ieee lm as_) 1 10). split; [exact F|]. apply (at_value _ _ _ _ V). change (bpow radix2 (-1)) with (/ 2). lra.
  - lit_fact (@flit (ieee lm as_) 1 10). split; [exact F|]. apply (at_value _ _ _ _ V). change (bpow radix2 20) with 1048576. lra.
Qed.

Print Assumptions C115_order.
Print Assumptions C115_never.
Print Assumptions C115_ex.
