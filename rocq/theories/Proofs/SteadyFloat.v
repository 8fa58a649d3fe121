(** Single precision: runs of traders that cope with what they are shown return. *)
From Coq Require Import Reals ZArith List Lra Lia Bool.
From Flocq Require Import Core BinarySingleNaN.
From Verif.Model Require Import Outcome Machine Types Account SideInput MachineR MachineIEEE Eval Traders.
From Verif.Spec Require Import OrderSpec AccountSpec AccountIEEESpec RunSpec TraderSpec ProgressSpec.
From Verif.Proofs Require Import Base FloatLemmas FloatErr OrderLaws AccountAny AccountIEEE RunProofs TraderProofs StopFloat RebalanceFloat RebalanceProofs ProgressProofs.
Import ListNotations.
Local Open Scope R_scope.

Section IEEE.
  Context (lm : libm) (as_ : bool).
  Local Notation I := (ieee lm as_).

  Definition thriving (a : @account I) : Prop :=
    ok_settings a /\ balances_ok a /\ 0 < B2R (base_unit a : f32) /\ 0 < B2R (quote_unit a : f32) /\
    (bpow radix2 (-30) <= B2R (base_balance a : f32) \/ bpow radix2 (-30) <= B2R (quote_balance a : f32)).

  Lemma exec_thriving (c : @account_config I) o t a : ok_config c -> ok_tick t -> ok_order o -> thriving a -> not_exceeded a ->
    exists ok a', ExecuteOrder c o t a = Done (ok, a') /\ thriving a'.
  Proof.
    intros Hc Ht Ho (Hs & Hb & U1 & U2 & Own) N.
    destruct (ExecuteOrder_good c o t a Hc Hs (bounded_of a Hb N) Ht Ho) as (ok & a' & HE & Hb' & Hno & Hyes).
    exists ok, a'. split; [exact HE|]. destruct (ExecuteOrder_all c o t a ok a' HE) as [_ Hss].
    pose proof Hss as (E1 & E2 & _).
    split; [apply (ok_settings_same a); auto|]. split; [exact Hb'|].
    change (@flt I) with f32 in *. rewrite E1, E2. split; [exact U1|]. split; [exact U2|].
    destruct ok; [auto|]. rewrite (Hno eq_refl). exact Own.
  Qed.

  Lemma shown_portfolio (v : @view I) : shown thriving not_exceeded quoted v -> ok_portfolio (v_price v) (v_base v) (v_quote v).
  Proof.
    intros ((_ & Hp) & a & (_ & Hb & _ & _ & Own) & N & E1 & E2). rewrite E1, E2.
    destruct (bounded_of a Hb N) as (B1 & B2 & _). change (@flt I) with f32 in *.
    split; [exact Hp|exact B1|exact B2|]. destruct Hp as [_ Hp]. destruct B1 as [_ B1]. destruct B2 as [_ B2].
    change (v_price v) with (close (v_tick v) : f32). change (@flt I) with f32 in *.
    pose proof (bpow_gt_0 radix2 (-19)). pose proof (bpow_gt_0 radix2 (-30)).
    destruct Own as [Own|Own].
    - apply Rle_trans with (bpow radix2 (-30) * bpow radix2 (-19)); [rewrite <- bpow_plus; apply bpow_le; lia|].
      assert (bpow radix2 (-30) * bpow radix2 (-19) <= B2R (base_balance a) * B2R (close (v_tick v))) by (apply Rmult_le_compat; lra). lra.
    - apply Rle_trans with (bpow radix2 (-30)); [apply bpow_le; lia|]. nra.
  Qed.

  Theorem copes_float_returns (cfg : @account_config I) hist side te lg hl fast ticks l :
    open_for_business cfg -> copes_float te -> side_matches hist side -> strictly_ordered ticks -> Forall quoted ticks ->
    (forall a, reached cfg hist te ticks a -> not_exceeded a) ->
    exists res l', ExecuteTrader cfg side fast te lg hl ticks l = Done (res, l').
  Proof.
    intros [Hc Hset Hbal Hb Hq Own] Hte Hs Ho Ht HX.
    apply (steady_returns cfg hist te thriving not_exceeded ok_order quoted ticks); auto.
    - intros o t a A X W T. apply exec_thriving; auto. apply T.
    - repeat split; auto; apply Hset || apply Hbal.
    - intros vs Hi Hv. apply Hte; [exact Hi|]. eapply Forall_impl; [|exact Hv]. intros v. apply shown_portfolio.
  Qed.

  Lemma portfolio_view (v : @view I) : ok_portfolio (v_price v) (v_base v) (v_quote v) -> ok_view v.
  Proof.
    intros [(F & P) (Fb & B) (Fq & Q) S]. split; auto.
    - split; [exact F|]. pose proof (bpow_le radix2 (-100) (-19) ltac:(lia)). pose proof (bpow_le radix2 19 100 ltac:(lia)). lra.
    - split; [exact Fb|apply B].
    - split; [exact Fq|apply Q].
    - pose proof (bpow_gt_0 radix2 (-60)). change (@flt I) with f32 in *.
      destruct (Rle_lt_or_eq_dec _ _ (proj1 B)) as [L|L]; [left; exact L|right]. rewrite <- L in S. lra.
  Qed.

  (** ** The stop trader: stop prices stay within [2^-20, 2^20]. *)
  Definition stop_range (p : f32) : Prop := is_finite p = true /\ bpow radix2 (-20) <= B2R p <= bpow radix2 20.

  Record mild_stop (c : @stop_config I) : Prop := MildStop {
    ms_margin : number_in 0 (bpow radix2 (-1)) (stop_order_margin c);
    ms_move : number_in 0 (bpow radix2 20) (stop_order_move_margin c)
  }.
  Lemma mild_ok (c : @stop_config I) : mild_stop c -> ok_stop c.
  Proof.
    intros [[F M] Mv]. change (bpow radix2 (-1)) with (/ 2) in M. change (@flt I) with f32 in *.
    split; [split; [exact F|lra]|lra|exact Mv].
  Qed.

  Definition near_price (v : @view I) : Prop := in_range (bpow radix2 (-19)) (bpow radix2 19) (v_price v : f32).

  Lemma start_range (c : @stop_config I) v : mild_stop c -> near_price v -> stop_range (start_price c v).
  Proof.
    intros [[Fm M] _] [Fp P]. change (bpow radix2 (-1)) with (/ 2) in M. pose proof (bpow_gt_0 radix2 (-19)) as G.
    assert (HP : nneg 19 (v_price v)) by (split; [exact Fp|lra]).
    unfold start_price. change (@flt I) with f32 in *. destruct (is_long v); cbn [fmul fsub fadd fofZ ieee].
    - destruct (one_minus _ Fm ltac:(lra)) as (F1 & H1 & E1).
      assert (L1 : bpow radix2 (-1) <= B2R (Bminus mode_NE (f32_of_Z 1) (stop_order_margin c))).
      { rewrite E1. apply rnd_ge_bpow; [lia|]. change (bpow radix2 (-1)) with (/ 2). lra. }
      destruct (Bmult_ge (-1) (-19) 0 19 (Bminus mode_NE (f32_of_Z 1) (stop_order_margin c)) (v_price v)) as ((Fr & Hr) & Lr & _); auto; try lia; try lra.
      { split; auto. pose proof (bpow_gt_0 radix2 (-24)). cbn [bpow]. lra. }
      split; [exact Fr|]. split; [exact Lr|]. pose proof (bpow_le radix2 (0 + 19) 20 ltac:(lia)). lra.
    - destruct (one_plus (stop_order_margin c)) as (H1 & H2).
      { split; auto. split; [lra|]. pose proof (bpow_le radix2 (-1) 20 ltac:(lia)) as K. change (bpow radix2 (-1)) with (/ 2) in K. lra. }
      destruct (ofZ_finite 1 ltac:(lia)) as [F1 V1].
      assert (H3 : nneg 1 (Bplus mode_NE (f32_of_Z 1) (stop_order_margin c))).
      { destruct (Bplus_nneg 0 (f32_of_Z 1) (stop_order_margin c) ltac:(lia)) as (H3 & _); [split; auto; rewrite V1; cbn [bpow]; lra|split; auto; cbn [bpow]; lra|exact H3]. }
      destruct (Bmult_ge 0 (-19) 1 19 (Bplus mode_NE (f32_of_Z 1) (stop_order_margin c)) (v_price v)) as ((Fr & Hr) & Lr & _); auto; try lia; try lra.
      split; [exact Fr|]. split; [|exact (proj2 Hr)]. pose proof (bpow_le radix2 (-20) (0 + -19) ltac:(lia)). lra.
  Qed.

  Lemma limit_range (c : @stop_config I) v : mild_stop c -> near_price v ->
    is_finite (follow_limit c v : f32) = true /\
    (if is_long v then B2R (follow_limit c v : f32) <= bpow radix2 19 else bpow radix2 (-19) <= B2R (follow_limit c v : f32)).
  Proof.
    intros [_ [Fm M]] [Fp P]. pose proof (bpow_gt_0 radix2 (-19)) as G.
    assert (HP : nneg 19 (v_price v)) by (split; [exact Fp|lra]). destruct (ofZ_finite 1 ltac:(lia)) as [F1 V1].
    unfold follow_limit. change (@flt I) with f32 in *. destruct (is_long v); cbn [fmul fsub fadd fofZ ieee].
    - destruct (Bminus_bnd 20 (f32_of_Z 1) (stop_order_move_margin c)) as (H1 & E1); try lia.
      { split; auto. rewrite V1, Rabs_R1. change 1 with (bpow radix2 0). apply bpow_le. lia. }
      { apply nneg_bnd. split; auto. }
      destruct (Bmult_bnd 21 19 (Bminus mode_NE (f32_of_Z 1) (stop_order_move_margin c)) (v_price v)) as (H2 & E2); auto; try lia.
      { apply nneg_bnd; auto. }
      split; [exact (proj1 H2)|]. rewrite E2. apply rnd_le_bpow; [lia|].
      assert (B2R (Bminus mode_NE (f32_of_Z 1) (stop_order_move_margin c)) <= 1) by (rewrite E1, V1; apply rnd_le_1; lra).
      assert (0 <= B2R (v_price v)) by lra. nra.
    - destruct (one_plus _ (conj Fm M)) as (H1 & H2).
      destruct (Bmult_ge 0 (-19) 21 19 (Bplus mode_NE (f32_of_Z 1) (stop_order_move_margin c)) (v_price v)) as (G1 & G2 & _); auto; try lia; try lra.
      split; [exact (proj1 G1)|exact G2].
  Qed.

  Lemma follows_range (c : @stop_config I) v (p p' : f32) : mild_stop c -> near_price v -> stop_range p ->
    @follows I c v p p' -> stop_range p'.
  Proof.
    intros C V (F & P) [->|H]; [split; auto|]. destruct (limit_range c v C V) as (FL & PL).
    pose proof (finite_num _ FL) as NL. pose proof (finite_num _ F) as NP.
    pose proof (ext_lt_big _ FL) as BL. pose proof (ext_lt_big _ F) as BP.
    pose proof (bpow_le radix2 19 20 ltac:(lia)) as D1. pose proof (bpow_le radix2 (-20) (-19) ltac:(lia)) as D2. change (@flt I) with f32 in *.
    destruct (is_long v).
    - destruct H as [H1 H2]. cbn in H1, H2. pose proof (Bltb_num _ _ H1) as [_ N].
      rewrite Bltb_ext in H1 by auto. rewrite Bleb_ext in H2 by auto.
      destruct (Rlt_bool_spec (ext p) (ext p')) as [Q1|]; [|discriminate].
      destruct (Rle_bool_spec (ext p') (ext (follow_limit c v))) as [Q2|]; [|discriminate].
      assert (F' : is_finite (p' : f32) = true) by (apply ext_bounds_finite; auto; lra).
      split; auto. rewrite (ext_finite p), (ext_finite p') in Q1 by auto. rewrite (ext_finite p'), (ext_finite _ FL) in Q2 by auto. lra.
    - destruct H as [H1 H2]. cbn in H1, H2. pose proof (Bltb_num _ _ H1) as [N _].
      rewrite Bltb_ext in H1 by auto. rewrite Bleb_ext in H2 by auto.
      destruct (Rlt_bool_spec (ext p') (ext p)) as [Q1|]; [|discriminate].
      destruct (Rle_bool_spec (ext (follow_limit c v)) (ext p')) as [Q2|]; [|discriminate].
      assert (F' : is_finite (p' : f32) = true) by (apply ext_bounds_finite; auto; lra).
      split; auto. rewrite (ext_finite p), (ext_finite p') in Q1 by auto. rewrite (ext_finite p'), (ext_finite _ FL) in Q2 by auto. lra.
  Qed.

  Lemma chain_range (c : @stop_config I) vs : mild_stop c -> Forall near_price vs -> forall v0 (p0 : @flt I) ps,
    stop_range p0 -> chain c (state_after v0 p0) vs ps -> Forall stop_range ps.
  Proof.
    intros C. induction vs as [|v vs IH]; intros HV v0 p0 [|p ps] G H; cbn in H; try (destruct H; fail); [constructor|].
    destruct H as (_ & Hn & Hc). apply Forall_cons_iff in HV as [V1 V2].
    assert (stop_range p).
    { destruct (restart (state_after v0 p0) v) eqn:R.
      - unfold next_stop in Hn. rewrite R in Hn. injection Hn as <-. apply start_range; auto.
      - apply (follows_range c v p0 p); auto. apply (follows_step (ieee_order lm as_) c v0 p0 v p Hn).
        intros H. apply (restart_after v0 p0 v) in H. congruence. }
    constructor; auto. eapply IH; eauto.
  Qed.

  Lemma closing_ok (v : @view I) p : ok_portfolio (v_price v) (v_base v) (v_quote v) -> stop_range p -> @ok_order lm as_ (closing_order v p).
  Proof.
    intros W (FP & HP). destruct (product_num lm as_ v (portfolio_view v W)) as (N & P & Z). destruct W as [_ (FB & HB) (FQ & HQ) S].
    assert (OP : ok_price p).
    { split; [exact FP|]. pose proof (bpow_le radix2 (-26) (-20) ltac:(lia)). pose proof (bpow_le radix2 20 26 ltac:(lia)). lra. }
    unfold closing_order, is_long. cbn [fleb fmul ieee]. change (@flt I) with f32 in *.
    rewrite Bleb_ext by (try exact N; apply finite_num; exact FQ).
    rewrite (ext_finite _ FQ). destruct (Rle_bool_spec (B2R (v_quote v)) (ext (Bmult mode_NE (v_base v) (v_price v)))) as [L|L].
    - eapply (OkOrder _ STOP SELL p); [reflexivity|reflexivity|reflexivity| |right; split; [reflexivity|exact OP]].
      split; [split; [exact FB|]|].
      + pose proof (bpow_le radix2 40 60 ltac:(lia)). lra.
      + destruct (Rle_lt_or_eq_dec _ _ (proj1 HB)) as [L'|L']; [exact L'|]. exfalso. symmetry in L'. specialize (Z L').
        pose proof (bpow_gt_0 radix2 (-60)). rewrite L' in S. lra.
    - eapply (OkOrder _ STOP BUY p); [reflexivity|reflexivity|reflexivity| |right; split; [reflexivity|exact OP]].
      split; [split; [exact FQ|exact HQ]|lra].
  Qed.

  Theorem stop_copes_float (c : @stop_config I) : mild_stop c -> copes_float (stop_emitter c).
  Proof.
    intros C vs Hi HV. destruct (chain_exists c vs stop_init) as (ps & Hc).
    { intros _. split; [exact Hi|]. eapply Forall_impl; [|exact HV]. intros v W. apply (view_demands lm as_), portfolio_view, W. }
    assert (HN : Forall near_price vs).
    { eapply Forall_impl; [|exact HV]. intros v W. apply (ok_p_price _ _ _ W). }
    assert (G : Forall stop_range ps).
    { destruct vs as [|v vs], ps as [|p ps]; cbn in Hc; try (destruct Hc; fail); [constructor|].
      destruct Hc as (_ & Hn & Hc). apply Forall_cons_iff in HN as [V1 V2].
      unfold next_stop in Hn. rewrite restart_first in Hn. injection Hn as <-.
      pose proof (start_range c v C V1) as G. constructor; auto. eapply chain_range; eauto. }
    eexists. split; [apply orders_chain; eauto|]. pose proof (chain_length _ _ _ _ Hc) as Hl. clear Hi Hc HN.
    revert vs HV Hl. induction G as [|p ps G1 G2 IH]; intros [|v vs] HV Hl; try discriminate; cbn [combine map]; constructor.
    - apply Forall_cons_iff in HV as [V1 _]. constructor; [|constructor]. apply closing_ok; auto.
    - apply Forall_cons_iff in HV as [_ V2]. apply IH; auto.
  Qed.

  (** ** The rebalancing trader *)
  Theorem rebalancing_copes_float (c : @rebalancing_config I) : ok_rebalancing c -> B2R (epsilon c : f32) <= bpow radix2 (-1) ->
    copes_float (rebalancing_emitter c).
  Proof.
    intros C Hh vs Hi HV. eexists. split.
    { unfold orders_emitted. apply rebalancing_run. intros _. split; [exact Hi|].
      eapply Forall_impl; [|exact HV]. intros v W. apply (f_demands lm as_ _ _ _ W v); reflexivity. }
    clear Hi. induction HV as [|v vs W HV IH]; cbn [map]; constructor; [|exact IH].
    apply (f_orders_ok lm as_ c _ _ _ C W Hh).
  Qed.
End IEEE.
