(** The rebalancing trader in single precision. *)
From Coq Require Import Reals ZArith Bool List Lia Lra.
From Flocq Require Import Core BinarySingleNaN.
From Verif.Model Require Import Outcome Machine Types MachineIEEE Traders.
From Verif.Spec Require Import TraderSpec RebalanceSpec.
From Verif.Proofs Require Import Base FloatLemmas TraderProofs RebalanceProofs RebalanceErr.
From Verif.Proofs Require RebalanceFloat.
From Verif.Properties Require Import TraderProps EvalProps.
Import ListNotations.
Local Open Scope R_scope.

Section Rebalance.
  Context (lm : libm) (as_ : bool).
  Local Notation I := (ieee lm as_).

  (** On every update of every run of the trader. *)
  Lemma every_update (c : @rebalancing_config I) vs oss (Q : view -> list order -> Prop) :
    orders_emitted (rebalancing_emitter c) vs = Done oss ->
    (forall v, Q v (rebalancing_orders c (v_price v) (v_base v) (v_quote v))) -> Forall2 Q vs oss.
  Proof.
    intros H HQ. apply rebalancing_run_inv in H. subst oss. induction vs as [|v vs IH]; cbn [map]; constructor; [apply HQ|exact IH].
  Qed.

  (** ** C96 *)
  Theorem C96_market (c : @rebalancing_config I) vs oss : ok_rebalancing c ->
    orders_emitted (rebalancing_emitter c) vs = Done oss ->
    Forall2 (fun (v : @view I) (os : list (@order I)) => ok_portfolio (v_price v) (v_base v) (v_quote v) ->
      rebalances_at_market (B2R (alpha c : f32)) (B2R (epsilon c : f32))
        (B2R (v_base v : f32)) (B2R (v_quote v : f32)) (B2R (v_price v : f32)) os) vs oss.
  Proof.
    intros C H. eapply every_update; [exact H|]. intros v W. split; [|split; [|split]].
    - exact (market_sell_forced lm as_ c _ _ _ C W).
    - exact (market_buy_forced lm as_ c _ _ _ C W).
    - exact (market_sell lm as_ c _ _ _ C W).
    - exact (market_buy lm as_ c _ _ _ C W).
  Qed.

  (** ** C97 *)
  Theorem C97_limits (c : @rebalancing_config I) vs oss : ok_rebalancing c ->
    orders_emitted (rebalancing_emitter c) vs = Done oss ->
    Forall2 (fun (v : @view I) (os : list (@order I)) => ok_portfolio (v_price v) (v_base v) (v_quote v) ->
      limits_near (B2R (alpha c : f32)) (B2R (epsilon c : f32)) (B2R (v_base v : f32)) (B2R (v_quote v : f32)) os) vs oss.
  Proof.
    intros C H. eapply every_update; [exact H|]. intros v W sd x y Hin.
    pose proof (limit_near lm as_ c _ _ _ C W sd x y Hin) as K. cbv zeta in *.
    assert (U : 4 * RebalanceFloat.u = / 2 ^ 22 /\ 8 * RebalanceFloat.u = / 2 ^ 21 /\ bpow radix2 (-16) = / 2 ^ 16).
    { unfold RebalanceFloat.u. change (bpow radix2 (-24)) with (/ 16777216). change (bpow radix2 (-16)) with (/ 65536). lra. }
    destruct U as (U1 & U2 & U3). rewrite U1, U2, U3 in K. exact K.
  Qed.
End Rebalance.

(** A run with a market sell (share 2/3), a limit sell (share 1/2) and a market buy (share 1/4),
    target 1/2, band 1/8: the hypotheses hold of every update. *)
Lemma C96_ex (lm : libm) (as_ : bool) :
  exists vs oss, ok_rebalancing (rb_usual lm as_) /\ orders_emitted (rebalancing_emitter (rb_usual lm as_)) vs = Done oss /\
    map (map (fun o => (o_type o, o_side o))) oss =
      [[(Some MARKET, Some SELL)]; [(Some LIMIT, Some SELL)]; [(Some MARKET, Some BUY)]] /\
    Forall (fun v : @view (ieee lm as_) => ok_portfolio (v_price v) (v_base v) (v_quote v)) vs.
Proof.
  set (vs := [at_ lm as_ 300 10 10 50; at_ lm as_ 600 10 10 100; at_ lm as_ 900 10 10 300]).
  assert (H : omap (map (map (fun o => (o_type o, o_side o)))) (orders_emitted (rebalancing_emitter (rb_usual lm as_)) vs) =
    Done [[(Some MARKET, Some SELL)]; [(Some LIMIT, Some SELL)]; [(Some MARKET, Some BUY)]]) by (subst vs; destruct as_; vm_compute; reflexivity).
  unfold omap in H. apply bind_done in H as (oss & H & E). apply Done_eq in E.
  exists vs, oss. split; [apply rb_usual_ok|]. split; [exact H|]. split; [exact E|].
  assert (K : forall z, (50 <= z <= 300)%Z -> ok_portfolio (f32_of_Z 10) (f32_of_Z 10) (f32_of_Z z)).
    { intros z Hz. destruct (ofZ_finite 10 ltac:(lia)) as [F1 V1]. destruct (ofZ_finite z ltac:(lia)) as [F2 V2].
      assert (Z1 : 50 <= IZR z <= 300) by (split; apply IZR_le; lia).
      assert (L1 : bpow radix2 (-19) <= 1) by (change 1 with (bpow radix2 0); apply bpow_le; lia).
      assert (L2 : bpow radix2 (-60) <= 1) by (change 1 with (bpow radix2 0); apply bpow_le; lia).
      assert (L3 : 512 <= bpow radix2 19) by (change 512 with (bpow radix2 9); apply bpow_le; lia).
      assert (L4 : 512 <= bpow radix2 40) by (change 512 with (bpow radix2 9); apply bpow_le; lia).
      split; unfold number_in; rewrite ?V1, ?V2; repeat split; auto; try lra. }
  subst vs. clear H E. apply Forall_cons; [apply (K 50%Z); lia|]. apply Forall_cons; [apply (K 100%Z); lia|]. apply Forall_cons; [apply (K 300%Z); lia|constructor].
Qed.
