(** C59, C73: the traders and the account the trader program sets up. *)
From Coq Require Import Reals ZArith Lra Lia Bool String.
From Coq Require Import List.
From Flocq Require Import Core BinarySingleNaN.
From Verif.Model Require Import Outcome Machine Types MachineR MachineIEEE Eval Traders Files Programs.
From Verif.Spec Require Import ReturnSpec SetupSpec.
From Verif.Proofs Require Import Base FloatLemmas FloatErr.
Import ListNotations.
Local Open Scope R_scope.

(** ** C59 The default traders and the batches, as exact numbers *)
Theorem C59_defaults (sh : R -> string) (as_ : bool) :
  let E := exact sh as_ in
  @GetTrader E "rebalancing" = Done (rebalancing_emitter (@RebalancingConfig E (7 / 10) (5 / 100))) /\
  @GetTrader E "stop" = Done (stop_emitter (@StopConfig E (1 / 10) (1 / 10) (1 / 100) (1 / 10))) /\
  @GetBatchOfTraders E "rebalancing"
    = Done (map (fun '(a, e) => rebalancing_emitter (@RebalancingConfig E a e))
                (list_prod [1 / 10; 3 / 10; 5 / 10; 7 / 10; 9 / 10] [1 / 100; 5 / 100; 1 / 10; 2 / 10])) /\
  @GetBatchOfTraders E "stop"
    = Done (map (fun '(a, b, i, d) => stop_emitter (@StopConfig E a b i d))
                (list_prod (list_prod (list_prod [5 / 100; 1 / 10; 15 / 100; 2 / 10] [5 / 100; 1 / 10; 15 / 100; 2 / 10])
                                      [1 / 100; 5 / 100; 1 / 10]) [1 / 100; 5 / 100; 1 / 10])).
Proof.
  cbv zeta. unfold GetTrader, GetBatchOfTraders. change (String.eqb "rebalancing" "rebalancing") with true.
  change (String.eqb "stop" "rebalancing") with false. change (String.eqb "stop" "stop") with true. rewrite !assert_true.
  cbn [bind]. repeat split; reflexivity.
Qed.

(** In single precision the names show the parameters. *)
Theorem C59_names (lm : libm) (as_ : bool) :
  let I := ieee lm as_ in
  omap te_name (@GetTrader I "rebalancing") = Done "rebalancing-trader[0.700|0.050]"%string /\
  omap te_name (@GetTrader I "stop") = Done "stop-trader[0.100|0.100|0.010|0.100]"%string.
Proof. cbv zeta. split; destruct as_; vm_compute; reflexivity. Qed.

(** ** C73 The account of the trader program *)
Lemma fexp_FLT : forall e, SpecFloat.fexp 24 128 e = FLT_exp (-149) 24 e.
Proof. intros e. unfold SpecFloat.fexp, SpecFloat.emin, FLT_exp. lia. Qed.
Lemma rnd_FLT x : rnd x = round radix2 (FLT_exp (-149) 24) ZnearestE x.
Proof. apply (round_ext radix2). intros. reflexivity. Qed.

Lemma nearest_div (lm : libm) (as_ : bool) n d : (0 <= n <= 2 ^ 24)%Z -> (1 <= d <= 2 ^ 24)%Z ->
  nearest_float (IZR n / IZR d) (@flit (ieee lm as_) n d).
Proof.
  intros Hn Hd. destruct (ofZ_finite n ltac:(lia)) as [Fn Vn]. destruct (ofZ_finite d ltac:(lia)) as [Fd Vd].
  assert (Pd : 1 <= IZR d) by (apply IZR_le; lia). assert (Pn : 0 <= IZR n <= IZR (2 ^ 24)) by (split; apply IZR_le; lia).
  unfold flit. cbn [fdiv fofZ ieee].
  pose proof (Bdiv_correct 24 128 _ _ mode_NE (f32_of_Z n) (f32_of_Z d)) as H. cbn [round_mode] in H. rewrite Vn, Vd in H.
  specialize (H ltac:(lra)). rewrite (no_overflow _ 24) in H; [|lia|].
  - destruct H as (HR & HF & _). split; [rewrite <- Fn; exact HF|]. rewrite <- rnd_FLT. exact HR.
  - assert (0 <= IZR n / IZR d) by (apply Rmult_le_pos; [lra|apply Rlt_le, Rinv_0_lt_compat; lra]).
    rewrite Rabs_pos_eq by assumption. change (bpow radix2 24) with (IZR (2 ^ 24)).
    apply Rle_trans with (IZR n / 1); [|lra]. apply Rmult_le_compat_l; [lra|]. apply Rinv_le; lra.
Qed.

Lemma nearest_narrow (x : f64) : is_finite x = true -> Rabs (B2R x) <= bpow radix2 100 -> nearest_float (B2R x) (f64_to_f32 x).
Proof.
  intros F H. destruct x as [s|s| |s m e Hx]; try discriminate.
  - split; [reflexivity|]. cbn [f64_to_f32 B2R]. symmetry. apply round_0. exact _.
  - cbn [f64_to_f32]. pose proof (binary_normalize_correct 24 128 (eq_refl _) (eq_refl _) mode_NE (cond_Zopp s (Zpos m)) e s) as K. cbn [round_mode] in K.
    cbn [B2R] in H. cbn [B2R]. set (v := F2R (Float radix2 (cond_Zopp s (Zpos m)) e)) in *.
    rewrite (no_overflow v 100) in K; [|lia|exact H]. destruct K as (V & Fin & _). split; [exact Fin|]. rewrite <- rnd_FLT. exact V.
Qed.

Section Account.
  Context (lm : libm) (as_ : bool).
  Local Notation I := (ieee lm as_).

  (** The account starts with the balances of the flags; base amounts are multiples of
      0.00001, quote amounts of 0.01; every order costs 0.5 %, whatever its kind; liquidity
      and volume ratio are those of the flags (all as the nearest floats). *)
  Theorem C73_account f :
    (forall x, In x [tf_start_base_balance f; tf_start_quote_balance f; tf_market_liquidity f; tf_max_volume_ratio f] ->
       is_finite x = true /\ Rabs (B2R x) <= bpow radix2 100) ->
    let c := @GetAccountConfig lm as_ f in
    nearest_float (B2R (tf_start_base_balance f)) (start_base_balance c) /\
    nearest_float (B2R (tf_start_quote_balance f)) (start_quote_balance c) /\
    nearest_float (1 / 100000) (cfg_base_unit c) /\ nearest_float (1 / 100) (cfg_quote_unit c) /\
    (forall fee : @fee_config I, In fee [market_order_fee_config c; stop_order_fee_config c; limit_order_fee_config c] ->
       nearest_float (5 / 1000) (relative_fee fee) /\ nearest_float 0 (fixed_fee fee) /\ nearest_float 0 (minimum_fee fee)) /\
    nearest_float (B2R (tf_market_liquidity f)) (cfg_market_liquidity c) /\
    nearest_float (B2R (tf_max_volume_ratio f)) (cfg_max_volume_ratio c).
  Proof.
    intros H c.
    assert (N : forall x, In x [tf_start_base_balance f; tf_start_quote_balance f; tf_market_liquidity f; tf_max_volume_ratio f] ->
      nearest_float (B2R x) (f64_to_f32 x)) by (intros x Hx; apply nearest_narrow; apply H; exact Hx).
    assert (N0 : nearest_float 0 (f32_of_Z 0)).
    { split; [reflexivity|]. cbn. symmetry. apply round_0. exact _. }
    split; [apply N; cbn; tauto|]. split; [apply N; cbn; tauto|].
    split; [apply (nearest_div lm as_ 1 100000); lia|]. split; [apply (nearest_div lm as_ 1 100); lia|].
    split; [|split; apply N; cbn; tauto].
    intros fee Hfee. assert (fee = @FeeConfig I (flit (M := I) 5 1000) (f32_of_Z 0) (f32_of_Z 0)) as ->.
    { unfold c, GetAccountConfig in Hfee. cbn [market_order_fee_config stop_order_fee_config limit_order_fee_config] in Hfee.
      destruct Hfee as [<-|[<-|[<-|[]]]]; reflexivity. }
    cbn [relative_fee fixed_fee minimum_fee]. split; [apply (nearest_div lm as_ 5 1000); lia|]. split; exact N0.
  Qed.
End Account.

Lemma C73_account_ex : is_finite (f64_of_Z 1) = true /\ Rabs (B2R (f64_of_Z 1)) <= bpow radix2 100.
Proof.
  split; [vm_compute; reflexivity|]. rewrite <- SF2R_B2SF.
  replace (B2SF (f64_of_Z 1)) with (SpecFloat.S754_finite false 4503599627370496 (-52)) by (vm_compute; reflexivity).
  unfold SF2R, F2R. cbn [Fnum Fexp SpecFloat.cond_Zopp]. change (IZR 4503599627370496) with (bpow radix2 52). rewrite <- bpow_plus.
  rewrite Rabs_pos_eq by apply bpow_ge_0. apply bpow_le. lia.
Qed.
