(** A balance which cannot be spent: with the settings of trader.cc and 10.07 units of quote
    currency, the fee is computed so that an order for the whole balance always costs a hair
    more than the balance in single precision. *)
From Coq Require Import Reals ZArith Bool List Lra Lia.
From Flocq Require Import Core BinarySingleNaN.
From Verif.Model Require Import Outcome Machine Types Account MachineIEEE.
From Verif.Spec Require Import AccountSpec AccountIEEESpec OrderSpec SetupSpec FloatTradeSpec ClearSpec.
From Verif.Proofs Require Import Base FloatLemmas FloatErr AccountAny AccountIEEE AccountErr AccountBook AccountTrade ClearFloat.
From Verif.Properties Require Import ProgressFloatProps.
Import ListNotations.
Local Open Scope R_scope.

Section Stuck.
  Context {lm : libm} {as_ : bool}.
  Local Notation I := (ieee lm as_).
  Local Notation qu := (@flit I 1 100).
  Local Notation bu := (@flit I 1 100000).
  Local Notation Q := (@flit I 1007 100).
  Local Notation fee := (@FeeConfig I (@flit I 5 1000) (f32_of_Z 0) (f32_of_Z 0)).

  Lemma ceil_mono k (x y u : f32) : (20 <= k <= 97)%Z -> nneg k x -> nneg k y -> is_finite u = true -> bpow radix2 (-30) <= B2R u <= bpow radix2 20 ->
    B2R x <= B2R y -> B2R (@Ceil I x u : f32) <= B2R (@Ceil I y u : f32).
  Proof.
    intros Hk Hx Hy Fu Hu L. unfold Ceil. cbn [fltb fofZ fmul fdiv fceil ieee]. destruct zero_finite as [F0 R0].
    pose proof (bpow_gt_0 radix2 (-30)) as H30.
    rewrite (fltb_intro (f32_of_Z 0) u) by (auto; lra).
    destruct (unit_round_nneg mode_UP k x u Hk Hx Fu Hu) as [_ Ex]. destruct (unit_round_nneg mode_UP k y u Hk Hy Fu Hu) as [_ Ey].
    eapply Rle_trans; [apply Req_le; exact Ex|]. eapply Rle_trans; [|apply Req_le; symmetry; exact Ey].
    apply round_le; try exact _. apply Rmult_le_compat_l; [lra|]. apply IZR_le.
    cbn [round_mode]. apply Zceil_le. apply round_le; try exact _. apply Rmult_le_compat_r; [|exact L]. left. apply Rinv_0_lt_compat. lra.
  Qed.

  Lemma fee_mono k (a : @account I) fc (x y : f32) : (22 <= k <= 96)%Z -> ok_fees fc -> is_finite (quote_unit a : f32) = true ->
    bpow radix2 (-30) <= B2R (quote_unit a : f32) <= bpow radix2 20 -> nneg k x -> nneg k y -> B2R x <= B2R y ->
    B2R (@GetFee I a fc x : f32) <= B2R (@GetFee I a fc y : f32).
  Proof.
    intros Hk [Hr Hf Hm] Fu Hu Hx Hy L. unfold GetFee. cbn [fadd fmul ieee].
    assert (N : forall z : f32, nneg k z -> nneg (k + 1) (Bplus mode_NE (fixed_fee fc) (Bmult mode_NE z (relative_fee fc))) /\
              B2R (Bplus mode_NE (fixed_fee fc : f32) (Bmult mode_NE z (relative_fee fc))) = rnd (B2R (fixed_fee fc : f32) + rnd (B2R z * B2R (relative_fee fc : f32)))).
    { intros z Hz. destruct (Bmult_nneg k 0 z (relative_fee fc) ltac:(lia) Hz) as [Hp Ep].
      { apply range_nneg. exact Hr. }
      replace (k + 0)%Z with k in Hp by ring.
      destruct (Bplus_nneg k (fixed_fee fc) (Bmult mode_NE z (relative_fee fc)) ltac:(lia)) as [Hs Es]; [apply (nneg_weaken 20); [lia|]; apply range_nneg; exact Hf|exact Hp|].
      split; [exact Hs|]. rewrite Es, Ep. reflexivity. }
    destruct (N x Hx) as [Nx Ex]. destruct (N y Hy) as [Ny Ey]. change (@flt I) with f32 in *.
    assert (Nm : nneg (k + 1) (minimum_fee fc)) by (apply (nneg_weaken 20); [lia|]; apply range_nneg; exact Hm).
    apply (ceil_mono (k + 1)); [lia| | |exact Fu|exact Hu|]; try (apply fmax_nneg; assumption).
    rewrite (fmax_val (minimum_fee fc) _ (proj1 Nm) (proj1 Nx)), (fmax_val (minimum_fee fc) _ (proj1 Nm) (proj1 Ny)). change (@flt I) with f32 in *.
    rewrite Ex, Ey. apply Rle_max_compat_l. apply round_le; try exact _. apply Rplus_le_compat_l. apply round_le; try exact _.
    apply Rmult_le_compat_r; [|exact L]. apply Hr.
  Qed.

  Lemma at_value (x : f32) v lo hi : B2R x = v -> lo <= v <= hi -> lo <= B2R x <= hi.
  Proof. intros ->. auto. Qed.
  (** The fee at the rate and unit of trader.cc. *)
  Definition the_fee (q : f32) : f32 :=
    @Ceil I (@fmax I (f32_of_Z 0) (Bplus mode_NE (f32_of_Z 0) (Bmult mode_NE q (@flit I 5 1000)))) qu.
  Lemma the_fee_is (a : @account I) q : quote_unit a = qu -> @GetFee I a fee q = the_fee q.
  Proof. intros E. unfold GetFee. rewrite E. reflexivity. Qed.

  Lemma fee_ok : ok_fees fee.
  Proof.
    lit_fact (@flit I 5 1000). destruct (@zero_finite) as [F0' R0'].
    constructor; cbn [relative_fee fixed_fee minimum_fee].
    - split; [assumption|]. rewrite V. lra.
    - split; [exact F0'|]. rewrite R0'. pose proof (bpow_ge_0 radix2 20). lra.
    - split; [exact F0'|]. rewrite R0'. pose proof (bpow_ge_0 radix2 20). lra.
  Qed.

  (** At every price up to 500, an order for all of 10.07 is turned down. *)
  Lemma stuck_buy (a : @account I) (P m : f32) :
    ok_settings a -> bounded40 a -> quote_unit a = qu -> base_unit a = bu -> quote_balance a = Q ->
    exec_price P -> B2R P <= 500 -> balance_ok m -> bpow radix2 100 <= B2R m ->
    @BuyAtQuote I fee Q P m a = Done (false, a).
  Proof.
    intros Hs Hb Eq Eb EQ HP LP Hm Lm. pose proof fee_ok as Hfee.
    lit_fact (@flit I 1 100). rename F into FU, V into VU.
    lit_fact (@flit I 1 100000). rename F into FB, V into VB.
    lit_fact (@flit I 1007 100). rename F into FQ, V into VQ.
    assert (NQ : nneg 40 Q) by (split; [assumption|]; rewrite VQ; change (bpow radix2 40) with 1099511627776; lra).
    destruct (BuyAtQuote_good fee Q P m a Hs Hb Hfee HP NQ Hm) as (ok & a' & E & _ & Hrej & _).
    destruct ok; [exfalso|rewrite (Hrej eq_refl) in E; exact E].
    pose proof (buy_at_quote fee Q P m a a' Hs Hb Hfee HP NQ Hm E) as K. cbv zeta in K.
    rewrite Eb, Eq, (the_fee_is _ _ Eq) in K. destruct K as (K1 & K2 & K3).
    assert (HBU : ok_unit bu) by (rewrite <- Eb; apply Hs). assert (HQU : ok_unit qu) by (rewrite <- Eq; apply Hs).
    set (q0 := @Round I Q qu) in *.
    assert (Ed : exists d : f32, d = Bminus mode_NE q0 (the_fee q0)) by eauto. destruct Ed as [d Ed].
    assert (Vd : is_finite d = true /\ B2R d = 10496245 / 1048576).
    { rewrite Ed. unfold q0. lit_fact (Bminus mode_NE (@Round I (@flit I 1007 100) (@flit I 1 100) : f32) (the_fee (@Round I (@flit I 1007 100) (@flit I 1 100)))). split; [exact F|]. eapply eq_trans; [exact V|]. lra. }
    change (@flt I) with f32 in *. rewrite <- Ed in *. destruct Vd as [Fd Vd].
    assert (Nd : nneg 40 d) by (split; [exact Fd|]; rewrite Vd; change (bpow radix2 40) with 1099511627776; lra).
    assert (Rd : B2R d = rnd (B2R d)) by (symmetry; apply round_generic; try exact _; apply generic_format_B2R).
    destruct (quote_amount_base (lm := lm) (as_ := as_) (B2R d) (B2R m) d P m bu 40 ltac:(lia) HP ltac:(apply Nd) Nd Rd Hm eq_refl HBU ltac:(lia)) as (_ & _ & K4 & _).
    change (@flt I) with f32 in *. destruct (K4 K1) as [_ K5]. clear K4.
    set (y := @Floor I (@fmin I (Bdiv mode_NE d P) m) bu) in *.
    destruct (price_nonneg P HP) as [PP _].
    assert (HT : Rmin (B2R d / B2R P) (B2R m) = B2R d / B2R P).
    { apply Rmin_left. eapply Rle_trans; [|exact Lm]. apply Rle_trans with (bpow radix2 40 * bpow radix2 27); [|rewrite <- bpow_plus; apply bpow_le; lia].
      apply Rmult_le_compat; [apply Nd|left; apply Rinv_0_lt_compat; exact PP|apply Nd|].
      change 27%Z with (- (-27))%Z. rewrite bpow_opp. apply Rinv_le; [apply bpow_gt_0|apply HP]. }
    rewrite HT in K5. destruct K3 as (Ny & L87 & HB).
    destruct (BuyBase_parts fee y P a a' Hs Hb Hfee HP Ny L87 HB) as (q & f & tot & Eq1 & Ef & Nb & Nm & Vm & Nq & Nf & Vt & Lt & _).
    rewrite Eb in *. rewrite Eq in *. change (@flt I) with f32 in *. set (b := @Round I y bu) in *.
    (* what the purchase costs *)
    assert (Cost : 10002 / 1000 <= B2R b * B2R P).
    { destruct K5 as [K5 _]. rewrite VB, Vd in K5. apply (Rmult_le_compat_r (B2R P)) in K5; [|lra].
      set (b' := B2R b) in *. set (p' := B2R P) in *. 
      assert (Hx : 10496245 / 1048576 / p' * p' = 10496245 / 1048576) by (field; lra). unfold tol in K5.
      change (bpow radix2 (-20)) with (/ 1048576) in K5. set (e := bpow radix2 (-100)) in *.
      assert (He : 0 <= e <= / 1048576) by (split; [apply bpow_ge_0|change (/ 1048576) with (bpow radix2 (-20)); apply bpow_le; lia]).
      set (D := 10496245 / 1048576 / p') in *.
      assert (He2 : e * p' <= / 1048576 * 500) by (apply Rmult_le_compat; lra).
      match type of K5 with ?l <= _ => assert (El : l = D * p' * (1 - / 1048576) - p' * (10995116 / 1099511627776 * (1 + / 1048576)) - e * p') by field end.
      rewrite El, Hx in K5. nra. }
    assert (RU : bpow radix2 (-30) <= B2R (qu : f32) <= bpow radix2 20).
    { apply (at_value _ _ _ _ VU). change (bpow radix2 (-30)) with (/ 1073741824). change (bpow radix2 20) with 1048576. lra. }
    assert (Small : forall (x : f32) v k, (20 <= k)%Z -> is_finite x = true -> B2R x = v -> 0 <= v <= 1048576 -> nneg k x).
    { intros x v k Hk F V Hv. split; [exact F|]. apply (at_value _ _ _ _ V). split; [lra|].
      apply Rle_trans with (bpow radix2 20); [change (bpow radix2 20) with 1048576; lra|apply bpow_le; lia]. }
    lit_fact (@flit I 10001 1000). rename F into F10, V into V10.
    assert (N10 : nneg 90 (@flit I 10001 1000 : f32)) by (apply (Small _ _ 90%Z ltac:(lia) F10 V10); lra).
    assert (Lq : B2R (@Ceil I (@flit I 10001 1000) qu : f32) <= B2R q).
    { rewrite Eq1. apply (ceil_mono 90); [lia|exact N10|exact Nm|exact FU|exact RU|].
      eapply Rle_trans; [|apply Req_le; symmetry; exact Vm]. apply round_ge_generic; try exact _; [apply generic_format_B2R|].
      eapply Rle_trans; [apply Req_le; exact V10|]. lra. }
    lit_fact (@Ceil I (@flit I 10001 1000) (@flit I 1 100)). rename F into F1001, V into V1001.
    assert (N1001 : nneg 93 (@Ceil I (@flit I 10001 1000) qu : f32)) by (apply (Small _ _ 93%Z ltac:(lia) F1001 V1001); lra).
    lit_fact (the_fee (@Ceil I (@flit I 10001 1000) (@flit I 1 100))). rename F into F6, V into V6.
    assert (N6 : nneg 97 (the_fee (@Ceil I (@flit I 10001 1000) qu) : f32)) by (apply (Small _ _ 97%Z ltac:(lia) F6 V6); lra).
    assert (Lf : B2R (the_fee (@Ceil I (@flit I 10001 1000) qu)) <= B2R f).
    { rewrite Ef. rewrite <- (the_fee_is a _ Eq). apply (fee_mono 93); [lia|exact Hfee|rewrite Eq; exact FU|rewrite Eq; exact RU|exact N1001|exact Nq|exact Lq]. }
    assert (Lt2 : B2R (Bplus mode_NE (@Ceil I (@flit I 10001 1000) qu : f32) (the_fee (@Ceil I (@flit I 10001 1000) qu))) <= B2R tot).
    { destruct (Bplus_nneg 97 (@Ceil I (@flit I 10001 1000) qu : f32) (the_fee (@Ceil I (@flit I 10001 1000) qu)) ltac:(lia)) as [_ Es]; [apply (nneg_weaken 93); [lia|exact N1001]|exact N6|].
      eapply Rle_trans; [apply Req_le; exact Es|]. rewrite Vt. apply round_le; try exact _. apply Rplus_le_compat; [exact Lq|exact Lf]. }
    lit_fact (Bplus mode_NE (@Ceil I (@flit I 10001 1000) (@flit I 1 100) : f32) (the_fee (@Ceil I (@flit I 10001 1000) (@flit I 1 100)))). rename F into FT, V into VT.
    assert (LL : B2R tot <= B2R (Q : f32)) by (rewrite <- EQ; apply Lt).
    apply (Rlt_irrefl (B2R (Q : f32))). eapply Rlt_le_trans; [|exact LL]. eapply Rlt_le_trans; [|exact Lt2].
    eapply Rle_lt_trans; [apply Req_le; exact VQ|]. eapply Rlt_le_trans; [|apply Req_le; symmetry; exact VT]. lra.
  Qed.
End Stuck.
