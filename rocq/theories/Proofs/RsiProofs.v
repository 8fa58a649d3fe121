(** The RSI stays in [0, 100] (IEEE arithmetic). *)
From Coq Require Import Reals ZArith Bool List Lia Lra.
From Flocq Require Import Core BinarySingleNaN Relative.
From Verif.Model Require Import Outcome Machine Types Indicators MachineIEEE.
From Verif.Spec Require Import SeriesSpec IndicatorSpec.
From Verif.Proofs Require Import Base FloatLemmas SeriesProofs StochProofs.
Import ListNotations.
Local Open Scope R_scope.

Lemma rnd_err01 x : 0 <= x <= 1 -> rnd x <= x + bpow radix2 (-25).
Proof.
  intros [H0 H1]. pose proof (bpow_gt_0 radix2 (-25)) as Hb25.
  destruct (Req_dec x 0) as [->|N0]; [rewrite rnd_0; lra|].
  destruct (Req_dec x 1) as [->|N1].
  { rewrite round_generic; try exact _; [lra|]. change 1 with (bpow radix2 0). apply format_bpow. lia. }
  assert (H := error_le_half_ulp radix2 fexp32 (fun z => negb (Z.even z)) x).
  rewrite ulp_neq_0 in H by exact N0. apply Rabs_le_inv in H.
  assert (Hm : (mag radix2 x <= 0)%Z) by (apply mag_le_bpow; [exact N0|rewrite Rabs_pos_eq by lra; cbn; lra]).
  assert (Hb : bpow radix2 (cexp radix2 fexp32 x) <= bpow radix2 (-24)).
  { apply bpow_le. unfold cexp, SpecFloat.fexp, SpecFloat.emin. lia. }
  replace (bpow radix2 (-24)) with (2 * bpow radix2 (-25)) in Hb
    by (change 2 with (bpow radix2 1); rewrite <- bpow_plus; reflexivity).
  unfold ZnearestE in *. lra.
Qed.

Lemma rnd_le_pow_eps k s : (0 <= k <= 127)%Z -> s <= bpow radix2 k * (1 + bpow radix2 (-25)) -> rnd s <= bpow radix2 k.
Proof.
  intros Hk H. apply round_N_le_midp; [exact _|apply format_bpow; lia|].
  rewrite succ_eq_pos by apply bpow_ge_0. rewrite ulp_bpow.
  assert (E : SpecFloat.fexp 24 128 (k + 1) = (k - 23)%Z) by (unfold SpecFloat.fexp, SpecFloat.emin; lia).
  rewrite E. pose proof (bpow_gt_0 radix2 (k - 23)).
  assert (Eb : bpow radix2 k * bpow radix2 (-25) = / 4 * bpow radix2 (k - 23)).
  { replace (/ 4) with (bpow radix2 (-2)) by (cbn; lra). rewrite <- !bpow_plus. f_equal. lia. }
  lra.
Qed.

Lemma format_scale k (w : f32) : (0 <= k)%Z -> generic_format radix2 fexp32 (B2R w * bpow radix2 k).
Proof.
  intros Hk. pose proof (generic_format_B2R 24 128 w) as G.
  assert (G' : generic_format radix2 (FLT_exp (-149) 24) (B2R w)) by exact G.
  apply FLT_format_generic in G'; [|exact _]. destruct G' as [f E1 E2 E3].
  assert (F : FLT_format radix2 (-149) 24 (B2R w * bpow radix2 k)).
  { apply (FLT_spec radix2 (-149) 24 _ (Float radix2 (Defs.Fnum f) (Defs.Fexp f + k))).
    - rewrite E1. unfold F2R. cbn [Defs.Fnum Defs.Fexp]. rewrite bpow_plus. ring.
    - exact E2.
    - cbn [Defs.Fexp]. lia. }
  apply generic_format_FLT in F. exact F.
Qed.

(** One step of the average: a rounded convex combination stays below a power of two. *)
Lemma mma_step k (w v e : f32) : (0 <= k <= 127)%Z -> nneg 0 w -> nneg k v -> nneg k e ->
  nneg k (Bplus mode_NE (Bmult mode_NE w v) (Bmult mode_NE (Bminus mode_NE (f32_of_Z 1) w) e)).
Proof.
  intros Hk Hw Hv He.
  destruct (ofZ_finite 1 ltac:(lia)) as [F1 R1].
  assert (N1 : nneg 0 (f32_of_Z 1)) by (split; [exact F1|rewrite R1; cbn; lra]).
  assert (W1 : 0 <= B2R w <= 1) by (destruct Hw as [_ Hw]; exact Hw).
  destruct (Bminus_nneg 0 (f32_of_Z 1) w ltac:(lia) N1 Hw ltac:(rewrite R1; lra)) as [A1 A2].
  set (w' := Bminus mode_NE (f32_of_Z 1) w) in *. rewrite R1 in A2.
  destruct (Bmult_nneg 0 k w v ltac:(lia) Hw Hv) as [B1 B2].
  destruct (Bmult_nneg 0 k w' e ltac:(lia) A1 He) as [C1 C2].
  rewrite Z.add_0_l in B1, C1.
  set (x := Bmult mode_NE w v) in *. set (y := Bmult mode_NE w' e) in *.
  assert (Hx : B2R x <= B2R w * bpow radix2 k).
  { rewrite B2. apply round_le_generic; try exact _; [apply format_scale; lia|].
    apply Rmult_le_compat_l; [lra|apply Hv]. }
  assert (Hy : B2R y <= B2R w' * bpow radix2 k).
  { rewrite C2. apply round_le_generic; try exact _; [apply format_scale; lia|].
    apply Rmult_le_compat_l; [apply A1|apply He]. }
  assert (Hw' : B2R w' <= 1 - B2R w + bpow radix2 (-25)) by (rewrite A2; apply rnd_err01; lra).
  assert (Hsum : 0 <= B2R x + B2R y <= bpow radix2 k * (1 + bpow radix2 (-25))).
  { destruct B1 as [_ B1], C1 as [_ C1]. split; [lra|].
    pose proof (bpow_gt_0 radix2 k). nra. }
  assert (Hr : 0 <= rnd (B2R x + B2R y) <= bpow radix2 k).
  { split; [apply rnd_nonneg; lra|apply rnd_le_pow_eps; [lia|lra]]. }
  pose proof (Bplus_correct 24 128 _ _ mode_NE x y (proj1 B1) (proj1 C1)) as H. cbn [round_mode] in H.
  rewrite Rlt_bool_true in H.
  - destruct H as (HR & HF & _). split; [exact HF|]. rewrite HR. exact Hr.
  - rewrite Rabs_pos_eq by lra. eapply Rle_lt_trans; [apply Hr|]. apply bpow_lt. lia.
Qed.

Lemma ofZ_ge1 z : (1 <= z < 2 ^ 31)%Z -> is_finite (f32_of_Z z) = true /\ 1 <= B2R (f32_of_Z z).
Proof.
  intros Hz. unfold f32_of_Z.
  pose proof (binary_normalize_correct 24 128 _ _ mode_NE z 0 false) as H. cbv zeta in H.
  assert (HF : F2R (Float radix2 z 0) = IZR z) by (unfold F2R; cbn; ring).
  rewrite HF in H. cbn [round_mode] in H.
  assert (H1 : 1 <= IZR z) by (apply IZR_le; lia).
  assert (H2 : IZR z <= bpow radix2 31) by (change (bpow radix2 31) with (IZR (2 ^ 31)); apply IZR_le; lia).
  assert (G1 : rnd 1 = 1) by (apply round_generic; [exact _|]; change 1 with (bpow radix2 0); apply format_bpow; lia).
  assert (Hr : 1 <= rnd (IZR z) <= bpow radix2 31).
  { split; [rewrite <- G1; apply rnd_mono; exact H1|apply rnd_le_bpow; [lia|exact H2]]. }
  rewrite Rlt_bool_true in H.
  - destruct H as (HR & HFi & _). split; [exact HFi|]. rewrite HR. apply Hr.
  - rewrite Rabs_pos_eq by lra. eapply Rle_lt_trans; [apply Hr|]. apply bpow_lt. lia.
Qed.

Section RSI.
  Context (lm : libm) (as_ : bool).
  Notation I := (ieee lm as_).

  Lemma weight_ok z : (1 <= z < 2 ^ 31)%Z -> nneg 0 (Bdiv mode_NE (f32_of_Z 1) (f32_of_Z z)).
  Proof.
    intros Hz. destruct (ofZ_finite 1 ltac:(lia)) as [F1 R1].
    assert (N1 : nneg 0 (f32_of_Z 1)) by (split; [exact F1|rewrite R1; cbn; lra]).
    destruct (ofZ_ge1 z Hz) as [Fz Rz].
    apply (Bdiv_nneg 0 0); auto; lia.
  Qed.

  Lemma mma_bounded np k vs : (1 <= np < 2 ^ 31)%Z -> (0 <= k <= 127)%Z ->
    (forall v, In v vs -> nneg k v) -> nneg k (@mma_of I np vs).
  Proof.
    intros Hnp Hk Hvs. destruct vs as [|v vs].
    - cbn. split; [reflexivity|]. cbn. split; [lra|apply bpow_ge_0].
    - cbn [mma_of]. assert (Hv := Hvs v (or_introl eq_refl)).
      assert (Hr : forall x, In x vs -> nneg k x) by (intros; apply Hvs; right; assumption).
      assert (Hj : (1 <= 2)%nat) by lia. clear Hvs. revert v Hv Hj. generalize 2%nat.
      induction vs as [|x vs IH]; intros j e He Hj; [exact He|].
      cbn [length seq combine fold_left fst snd]. apply IH; [intros; apply Hr; right; assumption| |lia].
      cbn [fadd fmul fsub fdiv fofZ ieee]. apply mma_step; auto.
      + apply weight_ok. lia.
      + apply Hr. left. reflexivity.
  Qed.

  Lemma rsi_range (u d : f32) : nneg 127 u -> nneg 127 d ->
    is_finite (@rsi_of I u d) = true /\ 0 <= B2R (@rsi_of I u d) <= 100.
  Proof.
    intros Hu Hd. unfold rsi_of. cbn [fltb fsub fmul fdiv fadd fofZ ieee].
    destruct (eps_bound lm as_) as [P1 P2]. set (eps := @flit I 1 1000000) in *.
    destruct (ofZ_finite 100 ltac:(lia)) as [F100 R100].
    destruct (ofZ_finite 50 ltac:(lia)) as [F50 R50].
    destruct (ofZ_finite 1 ltac:(lia)) as [F1 R1].
    assert (Nu := nneg_num _ _ Hu). assert (Nd := nneg_num _ _ Hd).
    assert (Pe : B2R eps <= 1).
    { unfold eps, flit. cbn [fdiv fofZ ieee]. apply (Bdiv_nneg 0 0 (f32_of_Z 1) (f32_of_Z 1000000)); try lia.
      - split; [exact F1|rewrite R1; cbn; lra].
      - apply (ofZ_ge1 1000000). lia.
      - apply (ofZ_ge1 1000000). lia. }
    assert (Hb20 := bpow_gt_0 radix2 (-20)).
    assert (Ne : nneg 0 eps) by (split; [exact P2|cbn [bpow]; lra]).
    destruct (Bmult_nneg 127 0 u eps ltac:(lia) Hu Ne) as [M1 M2]. rewrite Z.add_0_r in M1.
    rewrite !Bltb_ext by (auto; eapply nneg_num; eauto).
    rewrite !ext_finite by (try apply Hu; try apply Hd; try apply M1; auto).
    destruct (Rlt_bool_spec (B2R u) (B2R eps)) as [Cu|Cu];
      [destruct (Rlt_bool_spec (B2R d) (B2R eps)) as [Cd|Cd]|]; cbn [andb].
    1: split; [exact F50|rewrite R50; lra].
    all: destruct (Rlt_bool_spec (B2R d) (B2R (Bmult mode_NE u eps))) as [Cm|Cm];
      [split; [exact F100|rewrite R100; lra]|].
    all: assert (Hq : 0 < B2R d /\ 0 <= B2R u / B2R d <= bpow radix2 21).
    1:{ assert (0 < B2R d) by lra. split; [assumption|]. destruct Hu as [_ Hu].
        split; [apply Rle_mult_inv_pos; lra|]. apply Rle_trans with 1; [|cbn; lra].
        apply (Rmult_le_reg_r (B2R d)); [lra|]. unfold Rdiv. rewrite Rmult_assoc, Rinv_l by lra. lra. }
    2:{ assert (Hue : bpow radix2 (-20) * bpow radix2 (-20) <= B2R u * B2R eps).
        { apply Rmult_le_compat; lra. }
        rewrite <- bpow_plus in Hue. change (-20 + -20)%Z with (-40)%Z in Hue.
        assert (Hlow : B2R u * bpow radix2 (-21) <= B2R (Bmult mode_NE u eps)).
        { rewrite M2.
          pose proof (relative_error_N_FLT radix2 (-149) 24 ltac:(lia) (fun x => negb (Z.even x)) (B2R u * B2R eps)) as H.
          change (round radix2 (FLT_exp (-149) 24) (Znearest (fun x => negb (Z.even x))) (B2R u * B2R eps)) with (rnd (B2R u * B2R eps)) in H.
          assert (H0 : 0 < B2R u * B2R eps) by (pose proof (bpow_gt_0 radix2 (-40)); lra).
          rewrite (Rabs_pos_eq (B2R u * B2R eps)) in H by lra.
          specialize (H ltac:(apply Rle_trans with (bpow radix2 (-40)); [apply bpow_le; lia|exact Hue])).
          apply Rabs_le_inv in H.
          replace (/ 2 * bpow radix2 (- (24) + 1)) with (bpow radix2 (-24)) in H by (cbn; lra).
          assert (bpow radix2 (-24) <= / 2) by (cbn; lra).
          assert (bpow radix2 (-20) = 2 * bpow radix2 (-21)) by (cbn; lra).
          assert (0 <= B2R u) by (destruct Hu as [_ Hu]; lra).
          assert (B2R u * bpow radix2 (-20) <= B2R u * B2R eps) by (apply Rmult_le_compat_l; lra). nra. }
        assert (Hu0 : 0 < B2R u) by lra. pose proof (bpow_gt_0 radix2 (-21)).
        assert (Hd0 : 0 < B2R d) by nra. split; [exact Hd0|]. split; [apply Rle_mult_inv_pos; lra|].
        apply (Rmult_le_reg_r (B2R d * bpow radix2 (-21))); [nra|].
        unfold Rdiv. replace (B2R u * / B2R d * (B2R d * bpow radix2 (-21))) with (B2R u * bpow radix2 (-21) * (/ B2R d * B2R d)) by ring.
        rewrite Rinv_l, Rmult_1_r by lra.
        replace (bpow radix2 21 * (B2R d * bpow radix2 (-21))) with (B2R d * (bpow radix2 21 * bpow radix2 (-21))) by ring.
        rewrite <- bpow_plus. change (bpow radix2 (21 + -21)) with 1. rewrite Rmult_1_r. eapply Rle_trans; [exact Hlow|exact Cm]. }
    all: destruct Hq as [Hd0 Hq].
    all: pose proof (Bdiv_correct 24 128 _ _ mode_NE u d ltac:(lra)) as H; cbn [round_mode] in H;
      rewrite (no_overflow _ 21) in H by (try lia; rewrite Rabs_pos_eq; lra);
      destruct H as (HR & HF & _).
    all: assert (Nq : nneg 21 (Bdiv mode_NE u d))
        by (split; [rewrite HF; apply Hu|rewrite HR; split; [apply rnd_nonneg; lra|apply rnd_le_bpow; [lia|lra]]]).
    all: set (q := Bdiv mode_NE u d) in *.
    all: assert (N1 : nneg 21 (f32_of_Z 1)) by (split; [exact F1|rewrite R1; cbn; lra]).
    all: destruct (Bplus_nneg 21 (f32_of_Z 1) q ltac:(lia) N1 Nq) as [Y1 Y2]; rewrite R1 in Y2.
    all: set (y := Bplus mode_NE (f32_of_Z 1) q) in *.
    all: assert (Gy : 1 <= B2R y)
        by (rewrite Y2; assert (G1 : rnd 1 = 1) by (apply round_generic; [exact _|]; change 1 with (bpow radix2 0); apply format_bpow; lia);
            rewrite <- G1 at 1; apply rnd_mono; destruct Nq as [_ Nq]; lra).
    all: assert (N100 : nneg 7 (f32_of_Z 100)) by (split; [exact F100|rewrite R100; cbn; lra]).
    all: destruct (Bdiv_nneg 0 7 (f32_of_Z 100) y ltac:(lia) N100 (proj1 Y1) ltac:(cbn [Z.opp bpow]; lra)) as [Z1 Z2].
    all: cbn [Z.add] in Z1; set (z := Bdiv mode_NE (f32_of_Z 100) y) in *.
    all: assert (G100 : generic_format radix2 fexp32 100) by (rewrite <- R100; apply generic_format_B2R).
    all: assert (Gz : 0 <= B2R z <= 100)
        by (split; [apply Z1|]; rewrite Z2, R100; apply round_le_generic; try exact _; [exact G100|];
            apply (Rmult_le_reg_r (B2R y)); [lra|]; unfold Rdiv; rewrite Rmult_assoc, Rinv_l by lra; lra).
    all: destruct (Bminus_nneg 7 (f32_of_Z 100) z ltac:(lia) N100 Z1 ltac:(rewrite R100; lra)) as [X1 X2].
    all: split; [apply X1|]; split; [apply X1|]; rewrite X2, R100; apply round_le_generic; try exact _; [exact G100|lra].
  Qed.

  (** Prices of the periodic ticks are prices of the updates (or 0). *)
  Lemma period_prices (Q : f32 -> Prop) p us b : Q (f32_of_Z 0) ->
    (forall u : @ohlc_tick I, In u us -> Q (open u) /\ Q (close u)) ->
    Q (@open I (period_tick p us b)) /\ Q (@close I (period_tick p us b)).
  Proof.
    intros H0 H. unfold period_tick. destruct (in_period p us b) as [|u rest] eqn:E.
    - cbn. destruct (rev (before_period p us b)) as [|x l] eqn:Eb; [auto|].
      assert (Hx : In x us).
      { assert (Hx : In x (rev (before_period p us b))) by (rewrite Eb; left; reflexivity).
        apply in_rev in Hx. apply filter_In in Hx. apply Hx. }
      split; apply H; exact Hx.
    - assert (Hin : forall y, In y (u :: rest) -> In y us)
        by (intros y Hy; rewrite <- E in Hy; apply filter_In in Hy; apply Hy).
      cbn. split; [apply H; apply Hin; left; reflexivity|]. apply H. apply Hin.
      destruct (list_snoc rest) as [->|(l & x & ->)]; [left; reflexivity|]. rewrite last_snoc.
      right. apply in_or_app. right. left. reflexivity.
  Qed.

  Lemma changes_bounded k p us : (0 <= k <= 127)%Z ->
    (forall u : @ohlc_tick I, In u us -> nneg k (open u) /\ nneg k (close u)) ->
    (forall v, In v (@upward_changes I (series p us)) -> nneg k v) /\
    (forall v, In v (@downward_changes I (series p us)) -> nneg k v).
  Proof.
    intros Hk H.
    assert (H0 : nneg k (f32_of_Z 0)) by (split; [reflexivity|]; cbn; split; [lra|apply bpow_ge_0]).
    assert (Hser : forall t : @ohlc_tick I, In t (series p us) -> nneg k (open t) /\ nneg k (close t)).
    { intros t Ht. apply in_map_iff in Ht as (b & <- & _). apply period_prices; auto. }
    assert (Hpair : forall x, In x (combine (@reference_prices I (series p us)) (map close (series p us))) ->
                    nneg k (fst x) /\ nneg k (snd x)).
    { intros [a c] Hx. cbn [fst snd]. split.
      - apply in_combine_l in Hx. unfold reference_prices in Hx. destruct (series p us) as [|t ser] eqn:E; [destruct Hx|].
        destruct Hx as [<-|Hx]; [apply Hser; left; reflexivity|].
        apply in_map_iff in Hx as (y & <- & Hy). apply Hser.
        destruct (list_snoc (t :: ser)) as [E'|(l & z & E')]; [discriminate|]. rewrite E' in *. rewrite removelast_last in Hy.
        apply in_or_app. left. exact Hy.
      - apply in_combine_r in Hx. apply in_map_iff in Hx as (y & <- & Hy). apply Hser. exact Hy. }
    split; intros v Hv; apply in_map_iff in Hv as ([a c] & <- & Hx); apply Hpair in Hx as [Ha Hc]; cbn [fst snd] in *.
    - unfold upward. cbn [fleb fsub fofZ ieee]. rewrite Bleb_ext by (eapply nneg_num; eauto).
      rewrite !ext_finite by (apply Ha || apply Hc).
      destruct (Rle_bool_spec (B2R a) (B2R c)); [|exact H0]. apply Bminus_nneg; auto. lia.
    - unfold downward. cbn [fleb fsub fofZ ieee]. rewrite Bleb_ext by (eapply nneg_num; eauto).
      rewrite !ext_finite by (apply Ha || apply Hc).
      destruct (Rle_bool_spec (B2R a) (B2R c)); [exact H0|]. apply Bminus_nneg; auto; [lia|lra].
  Qed.
End RSI.
