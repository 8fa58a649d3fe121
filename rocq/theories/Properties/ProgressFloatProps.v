(** C80: in single precision every run of a factory trader returns. *)
From Coq Require Import Reals ZArith List Lra Lia Bool String Classical.
From Coq Require Import List.
From Flocq Require Import Core BinarySingleNaN.
From Verif.Model Require Import Outcome Machine Types Account SideInput MachineR MachineIEEE Eval Traders.
From Verif.Spec Require Import AccountSpec AccountIEEESpec OrderSpec RunSpec TraderSpec ProgressSpec.
From Verif.Proofs Require Import Base FloatLemmas RunProofs TraderProofs ProgressProofs SteadyFloat.
Import ListNotations.
Local Open Scope R_scope.

Lemma lit_bounds (x : f32) m e d : B2SF x = SpecFloat.S754_finite false m (Zneg e) -> Z.pow_pos 2 e = d ->
  is_finite x = true /\ B2R x = IZR (Zpos m) / IZR d.
Proof.
  intros H <-. rewrite <- SF2R_B2SF, <- is_finite_SF_B2SF, H. split; reflexivity.
Qed.

Ltac lit_fact x :=
  let s := eval vm_compute in (B2SF (x : f32)) in
  match s with SpecFloat.S754_finite false ?m (Zneg ?e) =>
    let d := eval vm_compute in (Z.pow_pos 2 e) in
    let F := fresh "F" in let V := fresh "V" in
    assert (F : is_finite (x : f32) = true /\ B2R (x : f32) = IZR (Zpos m) / IZR d)
      by (apply (lit_bounds x m e d); vm_compute; reflexivity);
    destruct F as [F V]
  end.

Section IEEE.
  Context (lm : libm) (as_ : bool).
  Local Notation I := (ieee lm as_).

  (** ** C80 *)
  Theorem C80_returns (cfg : @account_config I) hist side te lg hl fast ticks l :
    open_for_business cfg -> copes_float te -> side_matches hist side -> strictly_ordered ticks -> Forall quoted ticks ->
    (exists res l', ExecuteTrader cfg side fast te lg hl ticks l = Done (res, l')) \/
    (exists a, reached cfg hist te ticks a /\ ~ not_exceeded a).
  Proof.
    intros Hc Hte Hs Ho Ht. destruct (classic (exists a, reached cfg hist te ticks a /\ ~ not_exceeded a)) as [H|H]; [right; exact H|left].
    apply (copes_float_returns lm as_ cfg hist side); auto. intros a Ha. apply NNPP. intros N. apply H. exists a. auto.
  Qed.

  Theorem C80_stop (c : @stop_config I) :
    in_range 0 (1 / 2) (stop_order_margin c) -> in_range 0 (bpow radix2 20) (stop_order_move_margin c) ->
    copes_float (stop_emitter c).
  Proof.
    intros [F1 H1] [F2 H2]. apply stop_copes_float. split; split; auto. change (bpow radix2 (-1)) with (/ 2). lra.
  Qed.

  Theorem C80_rebalancing (c : @rebalancing_config I) : ok_rebalancing c -> B2R (epsilon c : f32) <= 1 / 2 ->
    copes_float (rebalancing_emitter c).
  Proof. intros C H. apply rebalancing_copes_float; auto. change (bpow radix2 (-1)) with (/ 2). lra. Qed.

  Lemma rebalancing_lit (a e : f32) : in_range (1 / 16) (15 / 16) a -> in_range (1 / 256) (1 / 4) e ->
    copes_float (rebalancing_emitter (@RebalancingConfig I a e)).
  Proof.
    intros [F1 H1] [F2 H2]. apply C80_rebalancing; [split|]; cbn [alpha epsilon]; change (@flt I) with f32 in *; try lra; try (split; [assumption|lra]).
    apply Rle_trans with (bpow radix2 (-12)); [apply bpow_le; lia|]. change (bpow radix2 (-12)) with (/ 4096). nra.
  Qed.
  Lemma stop_lit (m mv i d : f32) : in_range 0 (1 / 2) m -> in_range 0 1 mv ->
    copes_float (stop_emitter (@StopConfig I m mv i d)).
  Proof.
    intros H1 [F2 H2]. apply C80_stop; cbn; auto. split; [exact F2|]. pose proof (bpow_le radix2 0 20 ltac:(lia)) as K. cbn [bpow] in K |- *. lra.
  Qed.

  Ltac lit_range := match goal with |- in_range _ _ ?x => lit_fact x; split; [assumption|match goal with V : B2R _ = _ |- _ => rewrite V end; lra] end.

  (** Every trader the programs can create. *)
  Theorem C80_factory name : (forall te, @GetTrader I name = Done te -> copes_float te) /\
    (forall tes, @GetBatchOfTraders I name = Done tes -> Forall copes_float tes).
  Proof.
    assert (inj : forall A (a b : A), Done a = Done b -> a = b) by (intros A a b H; injection H; auto).
    unfold GetTrader, GetBatchOfTraders. destruct (String.eqb name "rebalancing").
    - split; intros te H; apply inj in H; subst te.
      + apply rebalancing_lit; lit_range.
      + apply Forall_forall. intros te H. apply in_map_iff in H as (c & <- & H). unfold batch_of_rebalancing, rebalancing_batch in H.
        apply in_flat_map in H as (a & Ha & H). apply in_map_iff in H as (e & <- & He).
        apply rebalancing_lit; [clear He; rename Ha into K|clear Ha; rename He into K];
          repeat (destruct K as [<-|K]; [lit_range|]); destruct K.
    - split; intros te H; apply bind_done in H as (u & _ & H); apply inj in H; subst te.
      + apply stop_lit; lit_range.
      + apply Forall_forall. intros te H. apply in_map_iff in H as (c & <- & H). unfold batch_of_stop, stop_batch in H.
        apply in_flat_map in H as (a & Ha & H). apply in_flat_map in H as (b & Hb & H). apply in_flat_map in H as (i & _ & H).
        apply in_map_iff in H as (d & <- & _).
        apply stop_lit; [clear Hb; rename Ha into K|clear Ha; rename Hb into K];
          repeat (destruct K as [<-|K]; [lit_range|]); destruct K.
  Qed.

  Theorem C80_programs name te (cfg : @account_config I) hist side lg hl fast ticks l :
    (@GetTrader I name = Done te \/ exists tes, @GetBatchOfTraders I name = Done tes /\ In te tes) ->
    open_for_business cfg -> side_matches hist side -> strictly_ordered ticks -> Forall quoted ticks ->
    (exists res l', ExecuteTrader cfg side fast te lg hl ticks l = Done (res, l')) \/
    (exists a, reached cfg hist te ticks a /\ ~ not_exceeded a).
  Proof.
    intros H Hs Hm Ho Ht. apply C80_returns; auto. destruct (C80_factory name) as [F1 F2].
    destruct H as [H|(tes & H & Hin)]; [auto|]. specialize (F2 tes H). rewrite Forall_forall in F2. auto.
  Qed.
End IEEE.

(** A concrete exchange and market: the hypotheses are met, and the run of the rebalancing
    trader executes orders. *)
Section Example.
  Context (lm : libm) (as_ : bool).
  Local Notation I := (ieee lm as_).
  Local Notation n := f32_of_Z.
  Definition pf_fee : @fee_config I := @FeeConfig I (@flit I 1 100) (n 0) (n 0).
  Definition pf_config : @account_config I := @AccountConfig I (n 1) (n 100) (@flit I 1 1000) (@flit I 1 100) pf_fee pf_fee pf_fee (@flit I 1 2) (@flit I 1 2).
  Definition pf_tick (t o h l c v : Z) : @ohlc_tick I := @OhlcTick I t (n o) (n h) (n l) (n c) (n v).
  Definition pf_ticks : list (@ohlc_tick I) :=
    [pf_tick 60 100 110 90 105 10; pf_tick 120 105 106 50 60 8; pf_tick 180 60 60 60 60 0; pf_tick 240 61 120 61 110 5; pf_tick 300 110 111 50 50 50].

  Lemma n_range k lo hi : (Z.abs k <= 2 ^ 24)%Z -> lo <= IZR k <= hi -> in_range lo hi (n k).
  Proof. intros H L. destruct (ofZ_finite k H) as [F V]. split; [exact F|]. rewrite V. exact L. Qed.

  Lemma big_enough : 128 <= bpow radix2 19 /\ 128 <= bpow radix2 20 /\ 128 <= bpow radix2 26 /\ 128 <= bpow radix2 40 /\
    bpow radix2 (-19) <= 1 / 4096 /\ bpow radix2 (-26) <= 1 / 4096 /\ bpow radix2 (-30) <= 1 / 4096.
  Proof.
    repeat split; try (change 128 with (bpow radix2 7); apply bpow_le; lia);
      (apply Rle_trans with (bpow radix2 (-12)); [apply bpow_le; lia|change (bpow radix2 (-12)) with (/ 4096); lra]).
  Qed.

  Ltac lit_range := match goal with |- in_range _ _ ?x => lit_fact x; split; [assumption|match goal with V : B2R _ = _ |- _ => rewrite V end; lra] end.

  Lemma pf_open : open_for_business pf_config.
  Proof.
    destruct big_enough as (B1 & B2 & B3 & B4 & B5 & B6 & B7).
    assert (F : ok_fees pf_fee).
    { constructor; cbn [pf_fee relative_fee fixed_fee minimum_fee]; [lit_range|apply n_range; [lia|lra]|apply n_range; [lia|lra]]. }
    assert (U1 : in_range (1 / 4096) 1 (@flit I 1 1000)) by lit_range.
    assert (U2 : in_range (1 / 4096) 1 (@flit I 1 100)) by lit_range.
    assert (W : forall k, (0 <= k <= 128)%Z -> balance_ok (n k)).
    { intros k Hk. destruct (ofZ_finite k ltac:(lia)) as [Fk Vk]. split; [exact Fk|]. rewrite Vk. apply IZR_le. lia. }
    assert (R0 : forall u : f32, in_range (1 / 4096) 1 u -> ok_unit u).
    { intros x [Fx Hx]. split; [exact Fx|]. right. lra. }
    constructor.
    - constructor; exact F.
    - constructor; cbn [opening_account pf_config base_unit quote_unit market_liquidity max_volume_ratio cfg_base_unit cfg_quote_unit cfg_market_liquidity cfg_max_volume_ratio]; auto; lit_range.
    - split; [|split]; apply W; lia.
    - destruct U1 as [_ U1]. cbn [pf_config cfg_base_unit]. change (@flt I) with f32 in *. lra.
    - destruct U2 as [_ U2]. cbn [pf_config cfg_quote_unit]. change (@flt I) with f32 in *. lra.
    - left. cbn [pf_config start_base_balance]. destruct (ofZ_finite 1 ltac:(lia)) as [_ V1]. rewrite V1. lra.
  Qed.

  Lemma pf_market : strictly_ordered pf_ticks /\ Forall quoted pf_ticks.
  Proof.
    destruct big_enough as (B1 & B2 & B3 & B4 & B5 & B6 & B7). split.
    - split.
      + intros t Ht. cbn in Ht. repeat (destruct Ht as [<-|Ht]; [cbn; lia|]). destruct Ht.
      + intros i j t t' H1 H2 L. destruct i as [|[|[|[|[|i]]]]], j as [|[|[|[|[|j]]]]]; cbn in H1, H2; try lia; try discriminate; try (destruct i; discriminate); try (destruct j; discriminate);
          injection H1 as <-; injection H2 as <-; cbn; lia.
    - assert (K : forall t o h l c v, (1 <= l <= 128)%Z -> (l <= o <= h)%Z -> (h <= 128)%Z -> (1 <= c <= 128)%Z -> (0 <= v <= 128)%Z -> quoted (pf_tick t o h l c v)).
      { intros t o h l c v H1 H2 H3 H4 H5.
        assert (P : forall k, (1 <= k <= 128)%Z -> in_range (bpow radix2 (-19)) (bpow radix2 19) (n k) /\ in_range (bpow radix2 (-26)) (bpow radix2 26) (n k)).
        { intros k Hk. assert (1 <= IZR k <= 128) by (split; apply IZR_le; lia). split; apply n_range; try lia; lra. }
        assert (Q : forall k, (0 <= k <= 128)%Z -> B2R (n k) = IZR k) by (intros k Hk; apply ofZ_finite; lia).
        split; [|apply P; lia]. constructor; try (apply P; lia).
        - apply n_range; [cbn; lia|]. assert (0 <= IZR v <= 128) by (split; apply IZR_le; lia). cbn. lra.
        - cbn [pf_tick low open]. rewrite !Q by lia. apply IZR_le. lia.
        - cbn [pf_tick high open]. rewrite !Q by lia. apply IZR_le. lia. }
      unfold pf_ticks. repeat (apply Forall_cons; [apply K; lia|]). apply Forall_nil.
  Qed.

End Example.

Lemma pf_runs (lm : libm) (as_ : bool) : exists te res, @GetTrader (ieee lm as_) "rebalancing" = Done te /\
  @ExecuteTrader (ieee lm as_) (pf_config lm as_) None true te null_logger false (pf_ticks lm as_) tt = Done (res, tt) /\
  r_total_executed_orders res = 4%Z.
Proof.
  exists (rebalancing_emitter default_rebalancing).
  assert (H : bind (@ExecuteTrader (ieee lm as_) (pf_config lm as_) None true (rebalancing_emitter default_rebalancing) null_logger false (pf_ticks lm as_) tt)
                   (fun x => Done (r_total_executed_orders (fst x))) = Done 4%Z).
  { destruct as_; vm_compute; reflexivity. }
  apply bind_done in H as ([res []] & H1 & H2). exists res. split; [reflexivity|]. split; [exact H1|]. injection H2. auto.
Qed.
