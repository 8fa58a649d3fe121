(** The rebalancing trader on IEEE floats: every emitted order is valid. *)
From Coq Require Import Reals ZArith Bool List Lia Lra Psatz.
From Flocq Require Import Core BinarySingleNaN.
From Verif.Model Require Import Outcome Machine Types Account Eval Traders MachineR MachineIEEE.
From Verif.Spec Require Import OrderSpec AccountIEEESpec TraderSpec.
From Verif.Proofs Require Import Base FloatLemmas OrderLaws FloatErr TraderProofs StopFloat.
Import ListNotations.
Local Open Scope R_scope.

Definition u := bpow radix2 (-24).

Lemma rnd_err_abs z : Rabs (rnd z - z) <= Rabs z * u + bpow radix2 (-150).
Proof.
  destruct (rnd_err z) as (d & e & H & Hd & He). rewrite H.
  replace (z * (1 + d) + e - z) with (z * d + e) by ring.
  eapply Rle_trans; [apply Rabs_triang|]. rewrite Rabs_mult.
  apply Rplus_le_compat; auto. apply Rmult_le_compat_l; auto. apply Rabs_pos.
Qed.

Lemma rnd_err_le k z : 0 <= z <= k -> Rabs (rnd z - z) <= k * u + bpow radix2 (-150).
Proof.
  intros H. eapply Rle_trans; [apply rnd_err_abs|]. rewrite Rabs_pos_eq by lra.
  apply Rplus_le_compat_r, Rmult_le_compat_r; [|lra]. apply bpow_ge_0.
Qed.

(** The core inequality on real numbers. *)
Section Core.
  Variables (al ep b p q : R).
  Let x := rnd (b * p).
  Let pv := rnd (x + q).
  Let o1 := rnd (1 - al).
  Let sp := rnd (1 + ep).
  Let sm := rnd (1 - ep).
  Let au := rnd (al * sp).
  Let ad := rnd (al * sm).
  Let be := rnd (x / pv).
  Let m := rnd (o1 * pv).

  Hypotheses (Hal : 0 < al < 1) (Hep : 0 < ep < 1) (Hband : bpow radix2 (-19) <= al * ep)
    (Hb : 0 <= b) (Hp : 0 < p) (Hq : 0 <= q) (Fq : generic_format radix2 fexp32 q)
    (Hw : bpow radix2 (-60) <= b * p + q).

  Let tiny := bpow radix2 (-150).
  Lemma tiny_u : tiny <= u / 1024 /\ 0 < tiny /\ 0 < u /\ u <= / 16777216.
  Proof.
    unfold tiny, u. split; [|split; [apply bpow_gt_0|split; [apply bpow_gt_0|]]].
    - apply Rle_trans with (bpow radix2 (-24 + -10)); [apply bpow_le; lia|]. rewrite bpow_plus.
      change (bpow radix2 (-10)) with (/ 1024). lra.
    - cbn. lra.
  Qed.

  Lemma band_u : 32 * u <= al * ep.
  Proof.
    eapply Rle_trans; [|exact Hband]. unfold u. replace (-24)%Z with (-5 + -19)%Z by lia. rewrite bpow_plus.
    change (bpow radix2 (-5)) with (/ 32). pose proof (bpow_gt_0 radix2 (-19)). lra.
  Qed.

  Lemma core_x : 0 <= x.
  Proof. apply rnd_nonneg. nra. Qed.

  Lemma core_pv : bpow radix2 (-61) <= pv /\ x <= pv.
  Proof.
    pose proof core_x. split.
    - destruct (Rle_dec (bpow radix2 (-61)) q).
      + unfold pv. apply rnd_ge_bpow; [lia|]. lra.
      + assert (bpow radix2 (-61) <= b * p).
        { replace (-60)%Z with (-61 + 1)%Z in Hw by lia. rewrite bpow_plus in Hw.
          change (bpow radix2 1) with 2 in Hw. lra. }
        assert (bpow radix2 (-61) <= x) by (apply rnd_ge_bpow; [lia|auto]).
        unfold pv. apply rnd_ge_bpow; [lia|]. lra.
    - unfold pv. apply round_ge_generic; try exact _; [|lra]. apply generic_format_round; exact _.
  Qed.

  Let X := x / pv.
  Let Q := q / pv.

  Lemma core_pos : 0 < pv.
  Proof. pose proof core_pv. pose proof (bpow_gt_0 radix2 (-61)). lra. Qed.

  Lemma tiny_pv : tiny <= pv * (u / 1024).
  Proof.
    apply Rle_trans with (bpow radix2 (-61) * (u / 1024)).
    - unfold u. change (/ 1024) with (bpow radix2 (-10)). unfold Rdiv.
      change (/ 1024) with (bpow radix2 (-10)). rewrite <- !bpow_plus. apply bpow_le. lia.
    - apply Rmult_le_compat_r; [|apply core_pv]. unfold u. pose proof (bpow_gt_0 radix2 (-24)). lra.
  Qed.

  Lemma core_X : 0 <= X <= 1.
  Proof.
    pose proof core_pos. pose proof core_x. destruct core_pv as [_ L]. unfold X. split.
    - apply Rmult_le_pos; auto. left. apply Rinv_0_lt_compat; auto.
    - apply Rmult_le_reg_r with pv; auto. unfold Rdiv. rewrite Rmult_assoc, Rinv_l by lra. lra.
  Qed.

  (** 1 - 2u <= X + Q <= 1 + 2u. *)
  Lemma core_sum : 1 - 2 * u <= X + Q <= 1 + 2 * u.
  Proof.
    pose proof core_pos as P. pose proof core_x as Hx. pose proof tiny_pv as T. destruct tiny_u as (T1 & T2 & T3 & T4).
    assert (H : Rabs (pv - (x + q)) <= (x + q) * u + tiny) by (apply rnd_err_le; lra).
    apply Rabs_le_inv in H.
    assert (E : (X + Q) * pv = x + q) by (unfold X, Q; field; lra).
    assert (HXQ : 0 <= X + Q).
    { apply Rmult_le_reg_r with pv; auto. rewrite E. lra. }
    rewrite <- E in H.
    assert (L : 1 <= (X + Q) * (1 + u) + u / 1024).
    { apply Rmult_le_reg_r with pv; auto. nra. }
    assert (R' : (X + Q) * (1 - u) <= 1 + u / 1024).
    { apply Rmult_le_reg_r with pv; auto. nra. }
    split.
    - nra.
    - nra.
  Qed.

  Lemma core_be : Rabs (be - X) <= 2 * u.
  Proof.
    pose proof core_X. destruct tiny_u as (T1 & T2 & T3 & T4).
    eapply Rle_trans; [apply (rnd_err_le 1 X); lra|]. fold tiny. lra.
  Qed.

  Lemma core_o1 : Rabs (o1 - (1 - al)) <= 2 * u.
  Proof.
    destruct tiny_u as (T1 & T2 & T3 & T4).
    eapply Rle_trans; [apply (rnd_err_le 1); lra|]. fold tiny. lra.
  Qed.

  Lemma core_m : Rabs (m - (1 - al) * pv) <= 4 * u * pv.
  Proof.
    pose proof core_pos as P. pose proof core_o1 as H1. destruct tiny_u as (T1 & T2 & T3 & T4). pose proof tiny_pv as T.
    assert (O : 0 <= o1 <= 1) by (split; [apply rnd_nonneg; lra|apply rnd_le_1; lra]).
    assert (H2 : Rabs (m - o1 * pv) <= 1 * pv * u + tiny).
    { apply rnd_err_le. nra. }
    apply Rabs_le_inv in H1, H2. apply Rabs_le. nra.
  Qed.

  Lemma core_au : al * (1 + ep) - 6 * u <= au.
  Proof.
    destruct tiny_u as (T1 & T2 & T3 & T4).
    assert (H1 : Rabs (sp - (1 + ep)) <= 2 * u + tiny) by (apply rnd_err_le; lra).
    apply Rabs_le_inv in H1.
    assert (S : 0 <= al * sp <= 3) by nra.
    assert (H2 : Rabs (au - al * sp) <= 3 * u + tiny) by (apply rnd_err_le; lra).
    apply Rabs_le_inv in H2. nra.
  Qed.

  Lemma core_ad : ad <= al * (1 - ep) + 6 * u.
  Proof.
    destruct tiny_u as (T1 & T2 & T3 & T4).
    assert (H1 : Rabs (sm - (1 - ep)) <= 1 * u + tiny) by (apply rnd_err_le; lra).
    assert (0 <= sm <= 1) by (split; [apply rnd_nonneg; lra|apply rnd_le_1; lra]).
    apply Rabs_le_inv in H1.
    assert (H2 : Rabs (ad - al * sm) <= 1 * u + tiny) by (apply rnd_err_le; nra).
    apply Rabs_le_inv in H2. nra.
  Qed.

  Lemma Q_pv : q = Q * pv.
  Proof. unfold Q. field. pose proof core_pos. lra. Qed.

  Lemma bpow_81 : bpow radix2 (-81) <= 16 * u * pv.
  Proof.
    unfold u. change 16 with (bpow radix2 4). rewrite <- bpow_plus. replace (-81)%Z with ((4 + -24) + -61)%Z by lia.
    rewrite (bpow_plus radix2 (4 + -24) (-61)). apply Rmult_le_compat_l; [apply bpow_ge_0|apply core_pv].
  Qed.

  Lemma core_sell : au < be -> bpow radix2 (-81) <= m - q.
  Proof.
    intros H. pose proof core_pos as P. pose proof core_sum as S. pose proof core_be as B. pose proof core_m as HM.
    pose proof core_au as A. pose proof band_u as W. destruct tiny_u as (T1 & T2 & T3 & T4).
    apply Rabs_le_inv in B, HM. rewrite Q_pv. eapply Rle_trans; [apply bpow_81|].
    assert (HQ : Q <= 1 + 10 * u - al * (1 + ep)) by lra.
    nra.
  Qed.

  Lemma core_buy : be < ad -> bpow radix2 (-81) <= q - m.
  Proof.
    intros H. pose proof core_pos as P. pose proof core_sum as S. pose proof core_be as B. pose proof core_m as HM.
    pose proof core_ad as A. pose proof band_u as W. destruct tiny_u as (T1 & T2 & T3 & T4).
    apply Rabs_le_inv in B, HM. rewrite Q_pv. eapply Rle_trans; [apply bpow_81|].
    assert (HQ : 1 - 10 * u - al * (1 - ep) <= Q) by lra.
    nra.
  Qed.
End Core.

Section IEEE.
  Context (lm : libm) (as_ : bool).
  Local Notation I := (ieee lm as_).

  Variables (c : @rebalancing_config I) (price base quote : f32).
  Hypotheses (C : ok_rebalancing c) (W : ok_portfolio price base quote).

  Let al := B2R (alpha c : f32).
  Let ep := B2R (epsilon c : f32).

  Let fx : f32 := Bmult mode_NE base price.
  Let fpv : f32 := Bplus mode_NE fx quote.
  Let fo1 : f32 := Bminus mode_NE (f32_of_Z 1) (alpha c).
  Let fsp : f32 := Bplus mode_NE (f32_of_Z 1) (epsilon c).
  Let fsm : f32 := Bminus mode_NE (f32_of_Z 1) (epsilon c).
  Let fau : f32 := Bmult mode_NE (alpha c) fsp.
  Let fad : f32 := Bmult mode_NE (alpha c) fsm.
  Let fbe : f32 := Bdiv mode_NE fx fpv.
  Let fm : f32 := Bmult mode_NE fo1 fpv.

  Let b := B2R base.
  Let p := B2R price.
  Let q := B2R quote.

  Let HP : 0 < p.
  Proof. destruct W as [(_ & H) _ _ _]. pose proof (bpow_gt_0 radix2 (-19)). unfold p. lra. Qed.

  Lemma f_price : nneg 19 price /\ bpow radix2 (-19) <= p.
  Proof. destruct W as [(F & H) _ _ _]. split; [split; auto|apply H]. pose proof (bpow_gt_0 radix2 (-19)). lra. Qed.

  Lemma f_x : nneg 59 fx /\ B2R fx = rnd (b * p).
  Proof. apply (Bmult_nneg 40 19); [lia|apply W|apply f_price]. Qed.

  Lemma f_pv : nneg 60 fpv /\ B2R fpv = rnd (rnd (b * p) + q).
  Proof.
    destruct f_x as (Hx & Ex). rewrite <- Ex. apply (Bplus_nneg 59); [lia|exact Hx|].
    apply (nneg_weaken 40); [lia|apply W].
  Qed.

  Lemma f_o1 : nneg 0 fo1 /\ B2R fo1 = rnd (1 - al).
  Proof.
    destruct C as [(F & H) _ _]. destruct (one_minus _ F (conj (Rlt_le _ _ (proj1 H)) (proj2 H))) as (F1 & H1 & E).
    split; [|exact E]. split; auto. pose proof (bpow_gt_0 radix2 (-24)). split; [unfold fo1; lra|]. apply H1.
  Qed.

  Lemma f_sm : nneg 0 fsm /\ B2R fsm = rnd (1 - ep) /\ bpow radix2 (-24) <= B2R fsm.
  Proof.
    destruct C as [_ (F & H) _]. destruct (one_minus _ F (conj (Rlt_le _ _ (proj1 H)) (proj2 H))) as (F1 & H1 & E).
    split; [|split; [exact E|apply H1]]. split; auto. pose proof (bpow_gt_0 radix2 (-24)). split; [unfold fsm; lra|]. apply H1.
  Qed.

  Lemma f_sp : nneg 1 fsp /\ B2R fsp = rnd (1 + ep) /\ 1 <= B2R fsp.
  Proof.
    destruct C as [_ (F & H) _]. destruct (ofZ_finite 1 ltac:(lia)) as [F1 V1].
    destruct (Bplus_nneg 0 (f32_of_Z 1) (epsilon c)) as (H1 & H2); try lia.
    - split; auto. rewrite V1. cbn [bpow]. lra.
    - split; auto. cbn [bpow]. lra.
    - rewrite V1 in H2. split; [exact H1|]. split; [exact H2|]. unfold fsp. rewrite H2. apply rnd_1_le. lra.
  Qed.

  Lemma f_al : nneg 0 (alpha c).
  Proof. destruct C as [(F & H) _ _]. split; auto. cbn [bpow]. lra. Qed.

  Lemma f_au : nneg 1 fau /\ B2R fau = rnd (al * rnd (1 + ep)).
  Proof. destruct f_sp as (H & E & _). rewrite <- E. apply (Bmult_nneg 0 1); [lia|apply f_al|exact H]. Qed.

  Lemma f_ad : nneg 0 fad /\ B2R fad = rnd (al * rnd (1 - ep)).
  Proof. destruct f_sm as (H & E & _). rewrite <- E. apply (Bmult_nneg 0 0); [lia|apply f_al|exact H]. Qed.

  Let HB : 0 <= b.
  Proof. apply (ok_p_base _ _ _ W). Qed.
  Let HQ : 0 <= q.
  Proof. apply (ok_p_quote _ _ _ W). Qed.
  Let HAl : 0 < al < 1.
  Proof. apply (ok_alpha _ C). Qed.
  Let HEp : 0 < ep < 1.
  Proof. apply (ok_epsilon _ C). Qed.
  Let HFq : generic_format radix2 fexp32 q.
  Proof. apply generic_format_B2R. Qed.
  Let HBand := ok_band _ C.
  Let HWorth := ok_p_worth _ _ _ W.

  Lemma f_pv_ge : bpow radix2 (-61) <= B2R fpv.
  Proof. destruct f_pv as (_ & E). rewrite E. apply (core_pv b p q HB HP HQ HWorth). Qed.

  Lemma f_be : nneg 120 fbe /\ B2R fbe = rnd (rnd (b * p) / rnd (rnd (b * p) + q)).
  Proof.
    destruct f_pv as (Hpv & Epv). destruct f_x as (Hx & Ex). rewrite <- Epv, <- Ex.
    apply (Bdiv_nneg 61 59); [lia|exact Hx|apply Hpv|apply f_pv_ge].
  Qed.

  Lemma f_m : nneg 60 fm /\ B2R fm = rnd (rnd (1 - al) * rnd (rnd (b * p) + q)).
  Proof.
    destruct f_pv as (Hpv & Epv). destruct f_o1 as (Ho & Eo). rewrite <- Epv, <- Eo.
    apply (Bmult_nneg 0 60); [lia|exact Ho|exact Hpv].
  Qed.

  Lemma lt_B2R (x y : f32) j k : nneg j x -> nneg k y -> Bltb x y = true -> B2R x < B2R y.
  Proof.
    intros Hx Hy. rewrite Bltb_ext by (eapply nneg_num; eauto). rewrite (nneg_ext j x Hx), (nneg_ext k y Hy).
    destruct (Rlt_bool_spec (B2R x) (B2R y)); auto; discriminate.
  Qed.

  (** A difference of at least 2^-81 divided by the price is positive. *)
  Lemma f_amount (x y : f32) : nneg 60 x -> nneg 60 y -> bpow radix2 (-81) <= B2R x - B2R y ->
    good_price (Bdiv mode_NE (Bminus mode_NE x y) price).
  Proof.
    intros Hx Hy H. destruct f_price as (Hp & Lp). pose proof (bpow_gt_0 radix2 (-81)).
    destruct (Bminus_nneg 60 x y) as (H1 & E1); auto; [lia|lra|].
    destruct (Bdiv_nneg 19 60 (Bminus mode_NE x y) price) as (H2 & E2); auto; [lia|apply Hp|].
    split; [apply H2|]. rewrite E2, E1.
    assert (G : bpow radix2 (-81) <= rnd (B2R x - B2R y)) by (apply rnd_ge_bpow; [lia|exact H]).
    apply Rlt_le_trans with (bpow radix2 (-100)); [apply bpow_gt_0|]. apply rnd_ge_bpow; [lia|].
    apply Rmult_le_reg_r with (B2R price); [exact HP|]. unfold Rdiv.
    rewrite Rmult_assoc, Rinv_l, Rmult_1_r by (unfold p in HP; lra).
    eapply Rle_trans; [|exact G]. replace (-81)%Z with (-100 + 19)%Z by lia. rewrite bpow_plus.
    apply Rmult_le_compat_l; [apply bpow_ge_0|]. apply Hp.
  Qed.

  Lemma f_market o x sd : good_price x -> o = @market_order I sd x -> @well_formed_order I o.
  Proof.
    intros (F & H) ->. exists MARKET, sd, (@BaseAmount I x), (@fofZ I 0). apply order_is_market; auto.
    cbn. apply pos_num; auto.
  Qed.

  Lemma gt_num (x y : f32) : Bltb x y = true -> is_finite x = true -> 0 <= B2R x -> @positive I y.
  Proof.
    intros H F P. unfold positive. cbn [fltb fofZ ieee]. destruct (ofZ_finite 0 ltac:(lia)) as [F0 V0].
    pose proof (Bltb_num _ _ H) as [_ N]. rewrite Bltb_ext in * by (auto; apply finite_num; auto).
    rewrite (ext_finite _ F0), V0. rewrite (ext_finite _ F) in H.
    destruct (Rlt_bool_spec (B2R x) (ext y)); [|discriminate]. apply Rlt_bool_true. lra.
  Qed.

  Lemma f_limit o x y sd : good_price x -> @positive I y -> o = @limit_order I sd x y -> @well_formed_order I o.
  Proof.
    intros (F & H) Hy ->. exists LIMIT, sd, (@BaseAmount I x), y. apply order_is_priced; auto; try discriminate.
    cbn. apply pos_num; auto.
  Qed.

  Lemma lit_ge : nneg 0 (@flit I 1 1000000) /\ bpow radix2 (-20) <= B2R (@flit I 1 1000000).
  Proof.
    unfold flit. cbn [fdiv fofZ ieee]. destruct (ofZ_finite 1 ltac:(lia)) as [F1 V1].
    destruct (ofZ_finite 1000000 ltac:(lia)) as [F2 V2].
    destruct (Bdiv_nneg 0 0 (f32_of_Z 1) (f32_of_Z 1000000)) as (H1 & H2); try lia; auto.
    - split; auto. rewrite V1. cbn [bpow]. lra.
    - rewrite V2. cbn [bpow Z.opp]. lra.
    - split; [exact H1|]. rewrite H2, V1, V2. apply rnd_ge_bpow; [lia|]. cbn [bpow]. cbn. lra.
  Qed.

  Lemma f_limit_amount (d : f32) j : (0 <= j <= 24)%Z -> nneg 1 d -> bpow radix2 (- j) <= B2R d ->
    Bltb (@flit I 1 1000000) base = true ->
    good_price (Bdiv mode_NE (Bmult mode_NE base (epsilon c)) d).
  Proof.
    intros Hj Hd Ld Hb. destruct lit_ge as (HL & LL).
    pose proof (lt_B2R _ base 0 40 HL (ok_p_base _ _ _ W) Hb) as Lb.
    assert (He : bpow radix2 (-19) <= B2R (epsilon c : f32)).
    { eapply Rle_trans; [exact HBand|]. fold al ep. nra. }
    destruct (Bmult_ge (-20) (-19) 40 0 base (epsilon c)) as (H1 & G1 & E1); try lia; auto.
    - apply (ok_p_base _ _ _ W).
    - destruct (ok_epsilon _ C) as (F & H). split; auto. cbn [bpow]. lra.
    - lra.
    - destruct (Bdiv_nneg j 40 (Bmult mode_NE base (epsilon c)) d) as (H2 & E2); auto; [lia|apply Hd|].
      split; [apply H2|]. rewrite E2. apply Rlt_le_trans with (bpow radix2 (-40)); [apply bpow_gt_0|].
      apply rnd_ge_bpow; [lia|]. pose proof (bpow_gt_0 radix2 (- j)).
      apply Rmult_le_reg_r with (B2R d); [lra|]. unfold Rdiv. rewrite Rmult_assoc, Rinv_l, Rmult_1_r by lra.
      eapply Rle_trans; [|exact G1]. replace (-20 + -19)%Z with (-40 + 1)%Z by lia. rewrite bpow_plus.
      apply Rmult_le_compat_l; [apply bpow_ge_0|]. apply Hd.
  Qed.

  Lemma f_orders : Forall (@well_formed_order I) (rebalancing_orders c price base quote).
  Proof.
    unfold rebalancing_orders. cbn [fadd fsub fmul fdiv fltb fofZ ieee].
    fold fx fsp fsm fo1. fold fpv fau fad fbe. fold fm fbe. change (@flt I) with f32 in *.
    destruct (Bltb fau fbe) eqn:Q1; [|destruct (Bltb fbe fad) eqn:Q2].
    - constructor; [|constructor]. eapply f_market; [|reflexivity]. apply f_amount; [apply f_m| |].
      + apply (nneg_weaken 40); [lia|apply W].
      + destruct f_au as (N1 & E1), f_be as (N2 & E2), f_m as (N3 & E3). rewrite E3.
        apply (core_sell al ep b p q); auto. rewrite <- E1, <- E2. eapply lt_B2R; eauto.
    - constructor; [|constructor]. eapply f_market; [|reflexivity]. apply f_amount; [ |apply f_m|].
      + apply (nneg_weaken 40); [lia|apply W].
      + destruct f_ad as (N1 & E1), f_be as (N2 & E2), f_m as (N3 & E3). rewrite E3.
        apply (core_buy al ep b p q); auto. rewrite <- E1, <- E2. eapply lt_B2R; eauto.
    - destruct (Bltb _ base) eqn:Q3; cbn [andb]; [|constructor].
      destruct (Bltb _ quote) eqn:Q4; [|constructor]. destruct f_price as (Np & Lp).
      apply Forall_app. split.
      + destruct (Bltb fau (f32_of_Z 1)); [|constructor].
        destruct (Bltb price _) eqn:Q5; cbn [andb]; [|constructor].
        destruct (Bltb _ (Bmult mode_NE (f32_of_Z 100) price)); [|constructor]. constructor; [|constructor].
        eapply f_limit; [| |reflexivity].
        * destruct f_sp as (N & _ & G). apply (f_limit_amount fsp 0); auto. lia.
        * eapply gt_num; [exact Q5|apply Np|apply Np].
      + destruct (Bltb _ price) eqn:Q5; cbn [andb]; [|constructor].
        destruct (Bltb (Bdiv mode_NE price (f32_of_Z 100)) _) eqn:Q6; [|constructor]. constructor; [|constructor].
        eapply f_limit; [| |reflexivity].
        * destruct f_sm as (N & _ & G). apply (f_limit_amount fsm 24); auto; [lia|].
          apply (nneg_weaken 0); [lia|exact N].
        * destruct (ofZ_finite 100 ltac:(lia)) as [F1 V1].
          destruct (Bdiv_nneg 0 19 price (f32_of_Z 100)) as (H1 & _); auto; [lia|rewrite V1; cbn [bpow Z.opp]; lra|].
          eapply gt_num; [exact Q6|apply H1|apply H1].
  Qed.

  (** ** Sizes: the orders are ones the exchange can execute. *)
  Lemma f_sell_amount : q <= B2R fm -> nneg 60 (Bdiv mode_NE (Bminus mode_NE fm quote) price).
  Proof.
    intros L. destruct f_price as (Hp & Lp). destruct f_m as (Hm & Em). destruct f_o1 as (Ho & Eo). destruct f_pv as (Hpv & Epv).
    destruct f_x as (Hx & Ex).
    assert (Hq60 : nneg 60 quote) by (apply (nneg_weaken 40); [lia|apply W]).
    destruct (Bminus_nneg 60 fm quote ltac:(lia) Hm Hq60 L) as (H1 & E1).
    destruct (Bdiv_nneg 19 60 (Bminus mode_NE fm quote) price ltac:(lia) H1 (proj1 Hp) Lp) as (H2 & E2).
    split; [apply H2|]. split; [apply H2|].
    destruct tiny_u as (T1 & T2 & T3 & T4). set (tiny := bpow radix2 (-150)) in *.
    assert (B1 : B2R fm <= B2R fpv).
    { rewrite Em, <- Epv, <- Eo. apply round_le_generic; try exact _; [apply generic_format_B2R|].
      destruct Ho as [_ Ho]. destruct Hpv as [_ Hpv]. cbn [bpow] in Ho. nra. }
    assert (X0 : 0 <= B2R fx) by apply Hx.
    assert (B2 : B2R fpv <= B2R fx + q + ((B2R fx + q) * u + tiny)).
    { rewrite Epv, <- Ex. assert (K := rnd_err_le (B2R fx + q) (B2R fx + q) ltac:(lra)). apply Rabs_le_inv in K. fold tiny in K. lra. }
    assert (B3 : B2R fx <= 2 * (b * p) + tiny).
    { rewrite Ex. assert (0 <= b * p) by nra. assert (K := rnd_err_le (b * p) (b * p) ltac:(lra)). apply Rabs_le_inv in K. fold tiny in K. nra. }
    assert (Q40 : q <= bpow radix2 40) by apply (ok_p_quote _ _ _ W).
    assert (Qu : q * u <= bpow radix2 16).
    { apply Rle_trans with (bpow radix2 40 * u); [apply Rmult_le_compat_r; lra|]. unfold u. rewrite <- bpow_plus. apply bpow_le. lia. }
    change (bpow radix2 16) with 65536 in Qu.
    assert (B4 : B2R fm - q <= 2 * B2R fx + 65537) by nra.
    assert (B5 : B2R (Bminus mode_NE fm quote) <= 8 * (b * p) + 524288).
    { rewrite E1. assert (0 <= B2R fm - q) by lra. assert (K := rnd_err_le (B2R fm - q) (B2R fm - q) ltac:(lra)). apply Rabs_le_inv in K. fold tiny in K.
      fold q. nra. }
    rewrite E2. apply rnd_le_bpow; [lia|]. apply Rmult_le_reg_r with (B2R price); [exact HP|]. unfold Rdiv.
    rewrite Rmult_assoc, Rinv_l, Rmult_1_r by (unfold p in HP; lra). fold p.
    assert (B40 : b <= bpow radix2 40) by apply (ok_p_base _ _ _ W).
    assert (P19 : 524288 <= p * bpow radix2 38).
    { change 524288 with (bpow radix2 19). replace 19%Z with (-19 + 38)%Z by lia. rewrite bpow_plus. apply Rmult_le_compat_r; [apply bpow_ge_0|exact Lp]. }
    assert (L38 : bpow radix2 38 <= bpow radix2 40) by (apply bpow_le; lia).
    assert (L60 : 16 * bpow radix2 40 <= bpow radix2 60).
    { change 16 with (bpow radix2 4). rewrite <- bpow_plus. apply bpow_le. lia. }
    eapply Rle_trans; [exact B5|]. assert (b * p <= bpow radix2 40 * p) by nra. assert (p * bpow radix2 38 <= p * bpow radix2 40) by nra. nra.
  Qed.

  Lemma f_buy_amount : B2R fm <= q -> nneg 60 (Bdiv mode_NE (Bminus mode_NE quote fm) price).
  Proof.
    intros L. destruct f_price as (Hp & Lp). destruct f_m as (Hm & Em).
    assert (Hq : nneg 40 quote) by apply W.
    assert (Hm' : nneg 40 fm) by (destruct Hm as [F Hm]; destruct Hq as [_ Hq]; split; auto; fold q in Hq; lra).
    destruct (Bminus_nneg 40 quote fm ltac:(lia) Hq Hm' L) as (H1 & E1).
    destruct (Bdiv_nneg 19 40 (Bminus mode_NE quote fm) price ltac:(lia) H1 (proj1 Hp) Lp) as (H2 & E2).
    apply (nneg_weaken (19 + 40)); [lia|exact H2].
  Qed.

  Lemma f_limit_small (d : f32) : nneg 1 d -> bpow radix2 (-1) <= B2R d ->
    nneg 60 (Bdiv mode_NE (Bmult mode_NE base (epsilon c)) d).
  Proof.
    intros Hd Ld. destruct (Bmult_nneg 40 0 base (epsilon c)) as (H1 & _); [lia|apply W| |].
    - destruct (ok_epsilon _ C) as (F & H). split; auto. cbn [bpow]. lra.
    - destruct (Bdiv_nneg 1 40 (Bmult mode_NE base (epsilon c)) d) as (H2 & _); auto; [lia|apply Hd|].
      apply (nneg_weaken (1 + 40)); [lia|exact H2].
  Qed.

  (** Between two numbers. *)
  Lemma between (x y z : f32) : is_finite x = true -> is_finite z = true -> Bltb x y = true -> Bltb y z = true ->
    is_finite y = true /\ B2R x < B2R y < B2R z.
  Proof.
    intros Fx Fz H1 H2. pose proof (Bltb_num _ _ H1) as [_ N]. pose proof (finite_num _ Fx) as Nx. pose proof (finite_num _ Fz) as Nz.
    rewrite Bltb_ext in H1, H2 by auto.
    destruct (Rlt_bool_spec (ext x) (ext y)) as [Q1|]; [|discriminate]. destruct (Rlt_bool_spec (ext y) (ext z)) as [Q2|]; [|discriminate].
    pose proof (ext_lt_big _ Fx). pose proof (ext_lt_big _ Fz).
    assert (Fy : is_finite y = true) by (apply ext_bounds_finite; auto; lra).
    split; [exact Fy|]. rewrite (ext_finite x), (ext_finite y) in Q1 by auto. rewrite (ext_finite y), (ext_finite z) in Q2 by auto. lra.
  Qed.

  Lemma f_hundred_up : nneg 26 (Bmult mode_NE (f32_of_Z 100) price).
  Proof.
    destruct f_price as (Hp & Lp). destruct (ofZ_finite 100 ltac:(lia)) as [F1 V1].
    apply (Bmult_nneg 7 19); [lia| |exact Hp]. split; auto. rewrite V1. change (bpow radix2 7) with 128. lra.
  Qed.

  Lemma f_hundred_down : is_finite (Bdiv mode_NE price (f32_of_Z 100)) = true /\ bpow radix2 (-26) <= B2R (Bdiv mode_NE price (f32_of_Z 100)).
  Proof.
    destruct f_price as (Hp & Lp). destruct (ofZ_finite 100 ltac:(lia)) as [F1 V1].
    destruct (Bdiv_nneg 0 19 price (f32_of_Z 100)) as (H1 & E1); auto; [lia|rewrite V1; cbn [bpow Z.opp]; lra|].
    split; [apply H1|]. rewrite E1, V1. apply rnd_ge_bpow; [lia|].
    apply Rle_trans with (bpow radix2 (-19) / 100); [|apply Rmult_le_compat_r; [lra|exact Lp]].
    replace (-26)%Z with (-19 + -7)%Z by lia. rewrite bpow_plus. unfold Rdiv. apply Rmult_le_compat_l; [apply bpow_ge_0|].
    change (bpow radix2 (-7)) with (/ 128). lra.
  Qed.

  Lemma amount_ok (x : f32) : nneg 60 x -> good_price x -> @ok_order_amount lm as_ (@BaseAmount I x).
  Proof. intros [F H] [_ P]. split; [split; auto|exact P]. Qed.

  Lemma f_orders_ok : ep <= bpow radix2 (-1) -> Forall (@ok_order lm as_) (rebalancing_orders c price base quote).
  Proof.
    intros Hhalf. unfold rebalancing_orders. cbn [fadd fsub fmul fdiv fltb fofZ ieee].
    fold fx fsp fsm fo1. fold fpv fau fad fbe. fold fm fbe. change (@flt I) with f32 in *.
    assert (Hq60 : nneg 60 quote) by (apply (nneg_weaken 40); [lia|apply W]).
    assert (Psm : bpow radix2 (-1) <= B2R fsm).
    { destruct f_sm as (_ & E & _). rewrite E. apply rnd_ge_bpow; [lia|]. change (bpow radix2 (-1)) with (/ 2) in *. lra. }
    destruct (Bltb fau fbe) eqn:Q1; [|destruct (Bltb fbe fad) eqn:Q2].
    - constructor; [|constructor].
      assert (K : bpow radix2 (-81) <= B2R fm - q).
      { destruct f_au as (N1 & E1), f_be as (N2 & E2), f_m as (N3 & E3). rewrite E3.
        apply (core_sell al ep b p q); auto. rewrite <- E1, <- E2. eapply lt_B2R; eauto. }
      pose proof (bpow_gt_0 radix2 (-81)).
      eapply (OkOrder _ MARKET SELL price); [reflexivity|reflexivity|reflexivity| |left; reflexivity].
      apply amount_ok; [apply f_sell_amount; lra|apply f_amount; [apply f_m|exact Hq60|exact K]].
    - constructor; [|constructor].
      assert (K : bpow radix2 (-81) <= q - B2R fm).
      { destruct f_ad as (N1 & E1), f_be as (N2 & E2), f_m as (N3 & E3). rewrite E3.
        apply (core_buy al ep b p q); auto. rewrite <- E1, <- E2. eapply lt_B2R; eauto. }
      pose proof (bpow_gt_0 radix2 (-81)).
      eapply (OkOrder _ MARKET BUY price); [reflexivity|reflexivity|reflexivity| |left; reflexivity].
      apply amount_ok; [apply f_buy_amount; lra|apply f_amount; [exact Hq60|apply f_m|exact K]].
    - destruct (Bltb _ base) eqn:Q3; cbn [andb]; [|constructor].
      destruct (Bltb _ quote) eqn:Q4; [|constructor]. destruct f_price as (Np & Lp).
      destruct f_hundred_up as [Fu Hu]. destruct f_hundred_down as [Fd Hd].
      assert (L26 : bpow radix2 (-26) <= bpow radix2 (-19)) by (apply bpow_le; lia).
      assert (U26 : bpow radix2 19 <= bpow radix2 26) by (apply bpow_le; lia).
      destruct Np as [Fp Np]. fold p in Np.
      apply Forall_app. split.
      + destruct (Bltb fau (f32_of_Z 1)); [|constructor].
        destruct (Bltb price _) eqn:Q5; cbn [andb]; [|constructor].
        destruct (Bltb _ (Bmult mode_NE (f32_of_Z 100) price)) eqn:Q6; [|constructor]. constructor; [|constructor].
        destruct (between _ _ _ Fp Fu Q5 Q6) as [Fy By]. fold p in By.
        eapply (OkOrder _ LIMIT SELL); [reflexivity|reflexivity|reflexivity| |right; split; [reflexivity|split; [exact Fy|lra]]].
        destruct f_sp as (N & _ & G). apply amount_ok.
        * apply (f_limit_small fsp); [exact N|]. change (bpow radix2 (-1)) with (/ 2). lra.
        * apply (f_limit_amount fsp 0); auto. lia.
      + destruct (Bltb _ price) eqn:Q5; cbn [andb]; [|constructor].
        destruct (Bltb (Bdiv mode_NE price (f32_of_Z 100)) _) eqn:Q6; [|constructor]. constructor; [|constructor].
        destruct (between _ _ _ Fd Fp Q6 Q5) as [Fy By]. fold p in By.
        eapply (OkOrder _ LIMIT BUY); [reflexivity|reflexivity|reflexivity| |right; split; [reflexivity|split; [exact Fy|lra]]].
        destruct f_sm as (N & _ & G). assert (N1 : nneg 1 fsm) by (apply (nneg_weaken 0); [lia|exact N]).
        apply amount_ok; [apply (f_limit_small fsm); auto|apply (f_limit_amount fsm 24); auto; lia].
  Qed.

  Lemma f_demands (v : @view I) : (v_price v : f32) = price -> (v_base v : f32) = base -> (v_quote v : f32) = quote -> @demands I v.
  Proof.
    intros E1 E2 E3. unfold demands. change (@flt I) with f32 in *. rewrite E1, E2, E3. destruct f_price as ((F & _) & _).
    split; [apply pos_num; auto|]. destruct (ok_p_base _ _ _ W) as (Fb & _). destruct (ok_p_quote _ _ _ W) as (Fq & _).
    pose proof (bpow_gt_0 radix2 (-60)). fold b p q in HWorth.
    destruct (Req_dec b 0) as [B0|].
    - right. apply pos_num; auto. rewrite B0 in HWorth. fold q. lra.
    - left. apply pos_num; auto. fold b. lra.
  Qed.
End IEEE.
