(** The stop trader on IEEE floats: every emitted order is valid. *)
From Coq Require Import Reals ZArith Bool List Lia Lra.
From Flocq Require Import Core BinarySingleNaN.
From Verif.Model Require Import Outcome Machine Types Account Eval Traders MachineR MachineIEEE.
From Verif.Spec Require Import OrderSpec AccountIEEESpec TraderSpec.
From Verif.Proofs Require Import Base FloatLemmas OrderLaws FloatErr TraderProofs.
Import ListNotations.
Local Open Scope R_scope.

Section IEEE.
  Context (lm : libm) (as_ : bool).
  Local Notation I := (ieee lm as_).

  Definition good_price (p : f32) : Prop := is_finite p = true /\ 0 < B2R p.

  Lemma pos_num (x : f32) : is_finite x = true -> 0 < B2R x -> @positive I x.
  Proof.
    intros F H. unfold positive. cbn [fltb fofZ ieee]. destruct (ofZ_finite 0 ltac:(lia)) as [F0 V0].
    rewrite Bltb_ext by (apply finite_num; auto). rewrite (ext_finite x F), (ext_finite _ F0), V0. apply Rlt_bool_true. exact H.
  Qed.

  Lemma one_plus (x : f32) : number_in 0 (bpow radix2 20) x ->
    nneg 21 (Bplus mode_NE (f32_of_Z 1) x) /\ 1 <= B2R (Bplus mode_NE (f32_of_Z 1) x).
  Proof.
    intros (F & H). destruct (ofZ_finite 1 ltac:(lia)) as [F1 V1].
    destruct (Bplus_nneg 20 (f32_of_Z 1) x) as (H1 & H2); try lia.
    - split; auto. rewrite V1. split; [lra|]. change 1 with (bpow radix2 0). apply bpow_le. lia.
    - split; auto.
    - split; [exact H1|]. rewrite H2, V1. apply rnd_1_le. lra.
  Qed.

  Lemma price_nneg v : ok_view v -> nneg 100 (@v_price I v) /\ bpow radix2 (-100) <= B2R (@v_price I v).
  Proof.
    intros [(F & H) _ _ _]. split; [split; auto|]; [|lra].
    split; [|lra]. pose proof (bpow_gt_0 radix2 (-100)). lra.
  Qed.

  Lemma start_good (c : @stop_config I) v : ok_stop c -> ok_view v -> good_price (start_price c v).
  Proof.
    intros C V. destruct (price_nneg v V) as (HP & LP). unfold start_price. destruct (is_long v); cbn.
    - destruct C as [(F & H) Hlt _]. destruct (one_minus _ F (conj (proj1 H) Hlt)) as (F1 & H1 & _).
      destruct (Bmult_ge (-24) (-100) 0 100 (Bminus mode_NE (f32_of_Z 1) (stop_order_margin c)) (v_price v))
        as (G1 & G2 & _); auto; try lia; try lra.
      + split; auto. pose proof (bpow_gt_0 radix2 (-24)). cbn [bpow]. lra.
      + split; [exact (proj1 G1)|]. eapply Rlt_le_trans; [|exact G2]. apply bpow_gt_0.
    - destruct C as [(F & H) Hlt _]. destruct (one_plus (stop_order_margin c)) as (H1 & H2).
      { split; auto. split; [lra|]. eapply Rle_trans; [apply H|]. change 1 with (bpow radix2 0). apply bpow_le. lia. }
      destruct (Bmult_ge 0 (-100) 21 100 (Bplus mode_NE (f32_of_Z 1) (stop_order_margin c)) (v_price v))
        as (G1 & G2 & _); auto; try lia.
      split; [exact (proj1 G1)|]. eapply Rlt_le_trans; [|exact G2]. apply bpow_gt_0.
  Qed.

  Lemma limit_good (c : @stop_config I) v : ok_stop c -> ok_view v ->
    is_finite (follow_limit c v : f32) = true /\ (is_long v = false -> 0 < B2R (follow_limit c v : f32)).
  Proof.
    intros C V. destruct (price_nneg v V) as (HP & LP). unfold follow_limit. destruct (is_long v); cbn.
    - split; [|discriminate]. destruct C as [_ _ (F & H)]. destruct (ofZ_finite 1 ltac:(lia)) as [F1 V1].
      destruct (Bminus_bnd 20 (f32_of_Z 1) (stop_order_move_margin c)) as (H1 & _); try lia.
      + split; auto. rewrite V1, Rabs_R1. change 1 with (bpow radix2 0). apply bpow_le. lia.
      + apply nneg_bnd. split; auto.
      + destruct (Bmult_bnd 21 100 (Bminus mode_NE (f32_of_Z 1) (stop_order_move_margin c)) (v_price v)) as (H2 & _);
          auto; try lia. { apply nneg_bnd; auto. } exact (proj1 H2).
    - destruct C as [_ _ Hm]. destruct (one_plus _ Hm) as (H1 & H2).
      destruct (Bmult_ge 0 (-100) 21 100 (Bplus mode_NE (f32_of_Z 1) (stop_order_move_margin c)) (v_price v))
        as (G1 & G2 & _); auto; try lia.
      split; [exact (proj1 G1)|]. intros _. eapply Rlt_le_trans; [|exact G2]. apply bpow_gt_0.
  Qed.

  Lemma ext_bounds_finite (x : f32) : fnum x = true -> - big < ext x < big -> is_finite x = true.
  Proof.
    intros N H. destruct (finite_cases x N) as [F|[->| ->]]; auto; cbn in H; lra.
  Qed.

  Lemma follows_good (c : @stop_config I) v p p' : ok_stop c -> ok_view v -> good_price p ->
    follows c v p p' -> good_price p'.
  Proof.
    intros C V (F & P) [->|H]; [split; auto|]. destruct (limit_good c v C V) as (FL & PL).
    pose proof (finite_num _ FL) as NL. pose proof (finite_num _ F) as NP.
    pose proof (ext_lt_big _ FL) as BL. pose proof (ext_lt_big _ F) as BP.
    destruct (is_long v).
    - destruct H as [H1 H2]. cbn in H1, H2. pose proof (Bltb_num _ _ H1) as [_ N].
      rewrite Bltb_ext in H1 by auto. rewrite Bleb_ext in H2 by auto.
      destruct (Rlt_bool_spec (ext p) (ext p')) as [Q1|]; [|discriminate].
      destruct (Rle_bool_spec (ext p') (ext (follow_limit c v))) as [Q2|]; [|discriminate].
      assert (F' : is_finite (p' : f32) = true).
      { apply ext_bounds_finite; auto. change (@flt I) with f32 in *. lra. }
      split; auto. rewrite !ext_finite in Q1 by auto. change (@flt I) with f32 in *. lra.
    - specialize (PL eq_refl). destruct H as [H1 H2]. cbn in H1, H2. pose proof (Bltb_num _ _ H1) as [N _].
      rewrite Bltb_ext in H1 by auto. rewrite Bleb_ext in H2 by auto.
      destruct (Rlt_bool_spec (ext p') (ext p)) as [Q1|]; [|discriminate].
      destruct (Rle_bool_spec (ext (follow_limit c v)) (ext p')) as [Q2|]; [|discriminate].
      assert (F' : is_finite (p' : f32) = true).
      { apply ext_bounds_finite; auto. change (@flt I) with f32 in *. lra. }
      split; auto. rewrite !ext_finite in Q2 by auto. change (@flt I) with f32 in *. lra.
  Qed.

  Lemma product_num v : ok_view v -> fnum (Bmult mode_NE (@v_base I v) (@v_price I v)) = true /\
    0 <= ext (Bmult mode_NE (@v_base I v) (@v_price I v)) /\
    (B2R (@v_base I v) = 0 -> ext (Bmult mode_NE (@v_base I v) (@v_price I v)) = 0).
  Proof.
    intros [(FP & HP) (FB & HB) _ _]. pose proof (bpow_gt_0 radix2 (-100)) as G.
    change (@flt I) with f32 in *.
    set (b := v_base v) in *. set (q := v_price v) in *. clearbody b q.
    pose proof (Bmult_correct 24 128 _ _ mode_NE b q) as H. cbn [round_mode] in H.
    destruct (Rlt_bool_spec (Rabs (rnd (B2R b * B2R q))) (bpow radix2 128)) as [L|L].
    - destruct H as (HR & HF & _). rewrite FB, FP in HF. cbn in HF. split; [apply finite_num; exact HF|].
      rewrite ext_finite, HR by exact HF. split; [apply rnd_nonneg; nra|].
      intros ->. rewrite Rmult_0_l. apply rnd_0.
    - assert (S : Bsign b = false \/ B2R b = 0).
      { destruct b as [[|]|[|]| |[|] m e Hb]; try discriminate; auto.
        exfalso. cbn in HB. pose proof (F2R_lt_0 radix2 (Float radix2 (Z.neg m) e) ltac:(reflexivity)). cbn [cond_Zopp Z.opp] in HB. lra. }
      destruct S as [S|S].
      + assert (S' : Bsign q = false).
        { destruct q as [[|]|[|]| |[|] m e Hb]; try discriminate; auto; exfalso; cbn in HP; try lra.
          pose proof (F2R_lt_0 radix2 (Float radix2 (Z.neg m) e) ltac:(reflexivity)). cbn [cond_Zopp Z.opp] in HP. lra. }
        rewrite S, S' in H. cbn in H. destruct (Bmult mode_NE b q); cbn in H; try discriminate.
        injection H as ->. cbn. pose proof big_pos. split; auto. split; [lra|].
        intros E. exfalso. rewrite E, Rmult_0_l, rnd_0, Rabs_R0 in L. pose proof (bpow_gt_0 radix2 128). lra.
      + exfalso. rewrite S, Rmult_0_l, rnd_0, Rabs_R0 in L. pose proof (bpow_gt_0 radix2 128). lra.
  Qed.

  Lemma amount_good v p : ok_view v -> good_price p -> @well_formed_order I (closing_order v p).
  Proof.
    intros V (FP & HP). destruct (product_num v V) as (N & P & Z). destruct V as [_ (FB & HB) (FQ & HQ) S].
    unfold closing_order, is_long. cbn [fleb fmul ieee]. change (@flt I) with f32 in *.
    rewrite Bleb_ext by (try exact N; apply finite_num; exact FQ).
    rewrite (ext_finite _ FQ). destruct (Rle_bool_spec (B2R (v_quote v)) (ext (Bmult mode_NE (v_base v) (v_price v)))) as [L|L].
    - exists STOP, SELL, (@BaseAmount I (v_base v)), p. apply order_is_priced; cbn; auto; try discriminate.
      + apply pos_num; auto. destruct (Req_dec (B2R (v_base v)) 0) as [E0|]; [|lra].
        specialize (Z E0). lra.
      + apply pos_num; auto.
    - exists STOP, BUY, (@QuoteAmount I (v_quote v)), p. apply order_is_priced; cbn; auto; try discriminate.
      + apply pos_num; auto. lra.
      + apply pos_num; auto.
  Qed.

  Lemma view_demands v : @ok_view lm as_ v -> demands v.
  Proof.
    intros V. destruct (price_nneg v V) as ((FP & _) & LP). destruct V as [_ (FB & HB) (FQ & HQ) S].
    split; [apply pos_num; auto; pose proof (bpow_gt_0 radix2 (-100)); lra|].
    destruct S; [left|right]; apply pos_num; auto.
  Qed.

  Lemma chain_good (c : @stop_config I) vs : ok_stop c -> Forall ok_view vs -> forall v0 (p0 : @flt I) ps,
    good_price p0 -> chain c (state_after v0 p0) vs ps -> Forall good_price ps.
  Proof.
    intros C. induction vs as [|v vs IH]; intros HV v0 p0 [|p ps] G H; cbn in H; try (destruct H; fail); [constructor|].
    destruct H as (_ & Hn & Hc). inversion HV as [|? ? V1 V2]; subst.
    assert (good_price p).
    { destruct (restart (state_after v0 p0) v) eqn:R.
      - unfold next_stop in Hn. rewrite R in Hn. injection Hn as <-. apply start_good; auto.
      - apply (follows_good c v p0 p); auto. apply (follows_step (ieee_order lm as_) c v0 p0 v p Hn).
        intros H. apply (restart_after v0 p0 v) in H. congruence. }
    constructor; auto. eapply IH; eauto.
  Qed.

  Lemma chain_good_init (c : @stop_config I) vs ps : ok_stop c -> Forall ok_view vs ->
    chain c stop_init vs ps -> Forall good_price ps.
  Proof.
    intros C HV H. destruct vs as [|v vs], ps as [|p ps]; cbn in H; try (destruct H; fail); [constructor|].
    destruct H as (_ & Hn & Hc). inversion HV as [|? ? V1 V2]; subst.
    unfold next_stop in Hn. rewrite restart_first in Hn. injection Hn as <-.
    pose proof (start_good c v C V1) as G. constructor; auto. eapply chain_good; eauto.
  Qed.
End IEEE.
