(** How far float rounding takes the moving averages from the averages they stand for. *)
From Coq Require Import Reals ZArith Bool List Lia Lra.
From Flocq Require Import Core BinarySingleNaN.
From Verif.Model Require Import Outcome Machine Types Indicators MachineIEEE.
From Verif.Spec Require Import SeriesSpec IndicatorSpec DriftSpec.
From Verif.Proofs Require Import Base FloatLemmas FloatErr SeriesProofs LastNProofs IndicatorProofs MeanProofs DriftProofs EmaDrift.
From Verif.Properties Require Import IndicatorProps.
Import ListNotations.
Local Open Scope R_scope.

(** x is a finite float and |x| <= 2^k. *)
Definition within (k : Z) (x : f32) : Prop := is_finite x = true /\ Rabs (B2R x) <= bpow radix2 k.

Section Drift.
  Context (lm : libm) (as_ : bool).
  Local Notation I := (ieee lm as_).

  (** ** C92 The float simple moving average is within 2^-20 of the price bound, per update and per
      period seen so far, of the mean of the last n closes. *)
  Theorem C92_sma n p k (us : list (@ohlc_tick I)) :
    (0 < n <= 2 ^ 20)%Z -> (0 < p)%Z -> (-100 <= k <= 100)%Z -> ordered timestamp_sec us ->
    Forall (fun t : @ohlc_tick I => within k (close t)) us ->
    (Z.of_nat (length us + length (series p us)) <= 2 ^ 23)%Z ->
    exists s0 s, @NewSma I n p = Done s0 /\ foldM (@sma_Update I n p) s0 us = Done s /\
      is_finite (@sma_Get I s : f32) = true /\
      Rabs (B2R (@sma_Get I s : f32)
            - mean (map (fun t : @ohlc_tick I => B2R (close t : f32)) (lastn (Z.to_nat n) (series p us))))
      <= INR (length us + length (series p us)) * / 2 ^ 20 * bpow radix2 k.
  Proof.
    intros Hn Hp Hk Ho HQ Hc. eexists. unfold NewSma. rewrite LastN_check_ok by lia. cbn [bind].
    destruct (@run_updates_count I f32 (@sma_handler I) n ltac:(lia) p Hp (drift lm as_ n k) (within k)
                (drift_mono lm as_ n k) (drift_add lm as_ n Hn k Hk)
                (drift_upd lm as_ n Hn k Hk) (f32_of_Z 0) us) as (s & E1 & H1); auto.
    { intros _ _. destruct (ofZ_finite 0 ltac:(lia)) as [F0 R0]. split; [exact F0|].
      unfold exact_sum, lastn. rewrite skipn_nil. cbn [map Rsum fold_right]. unfold Rsum. cbn [fold_right].
      rewrite R0, Rminus_diag_eq by reflexivity. rewrite Rabs_R0. cbn [length Nat.add INR].
      rewrite !Rmult_0_l. lra. }
    exists (window n (series p us), s). split; [reflexivity|]. split; [exact E1|].
    specialize (H1 (@series_closes I p Hp (within k) us Ho HQ) Hc). destruct H1 as (F & E).
    pose proof (lastn_within lm as_ n k _ (@series_closes I p Hp (within k) us Ho HQ)) as HS.
    unfold sma_Get, sma_GetNumOhlcTicks. cbn [fst snd]. unfold window. rewrite rev_length, lastn_length.
    destruct (Z.eqb_spec (Z.of_nat (Nat.min (Z.to_nat n) (length (series p us)))) 0) as [H0|H0].
    - assert (E0 : series p us = []) by (apply length_zero_iff_nil; lia). rewrite E0.
      destruct (ofZ_finite 0 ltac:(lia)) as [F0 R0]. split; [exact F0|].
      unfold lastn. rewrite skipn_nil. cbn [map mean]. change (@fofZ I 0) with (f32_of_Z 0). rewrite R0.
      rewrite Rminus_diag_eq by reflexivity. rewrite Rabs_R0. pose proof (bpow_gt_0 radix2 k).
      apply Rmult_le_pos; [|lra]. apply Rmult_le_pos; [apply pos_INR|]. apply Rlt_le, Rinv_0_lt_compat. apply pow_lt. lra.
    - set (m := Nat.min (Z.to_nat n) (length (series p us))) in *.
      assert (Hus : us <> []) by (intros ->; cbn in *; lia).
      assert (Hl : (1 <= length us)%nat) by (destruct us; [congruence|cbn; lia]).
      destruct (avg_err n Hn k Hk (length us + length (series p us)) m s (exact_sum lm as_ n (series p us)))
        as (F1 & E2); auto; try lia.
      split; [exact F1|]. replace (2 ^ 20) with 1048576 by lra.
      assert (Em : mean (map (fun t : @ohlc_tick I => B2R (close t : f32)) (lastn (Z.to_nat n) (series p us)))
                   = exact_sum lm as_ n (series p us) / INR m).
      { unfold exact_sum. rewrite mean_eq by (intros E0; apply (f_equal (@length _)) in E0; rewrite map_length, lastn_length in E0; cbn in E0; lia). rewrite map_length, lastn_length. reflexivity. }
      rewrite Em. exact E2.
  Qed.

  (** ** C93 The float exponential moving average is within 2^-20 of the price bound, divided by the
      weight, of the exact one, however long it runs. *)
  Theorem C93_ema (smoothing : f32) (ema_length p k : Z) (us : list (@ohlc_tick I)) :
    let W := B2R smoothing / (1 + IZR ema_length) in
    is_finite smoothing = true -> (0 <= ema_length < 2 ^ 24)%Z -> / 2 ^ 19 <= W <= 1 ->
    (0 < p)%Z -> (-100 <= k <= 100)%Z -> ordered timestamp_sec us ->
    Forall (fun t : @ohlc_tick I => within k (close t)) us ->
    exists s0 s, @NewEma I p = Done s0 /\
      foldM (@ema_Update I (@ema_weight I smoothing ema_length) p) s0 us = Done s /\
      is_finite (@ema_Get I s : f32) = true /\
      Rabs (B2R (@ema_Get I s : f32) - Rema W (map (fun t : @ohlc_tick I => B2R (close t : f32)) (series p us)))
      <= / 2 ^ 20 * bpow radix2 k / W.
  Proof.
    intros W Fs Hl HW Hp Hk Ho HQ.
    destruct (@C45_ema I smoothing ema_length p us Hp Ho) as (s0 & s & E0 & E1 & E2 & _).
    exists s0, s. split; [exact E0|]. split; [exact E1|].
    assert (HF : Forall (bnd k) (map close (series p us))).
    { apply Forall_map. exact (@series_closes I p Hp (within k) us Ho HQ). }
    replace (2 ^ 19) with 524288 in HW by lra. replace (2 ^ 20) with 1048576 by lra.
    destruct (ema_weighted lm as_ k smoothing ema_length (map close (series p us)) Hk Fs Hl HW HF) as (Fe & Ee).
    change (@ema_Get I s = @ema_of I (@fdiv I smoothing (@fadd I (@fofZ I 1) (@fofZ I ema_length))) (map close (series p us))) in E2.
    rewrite E2. split; [exact Fe|].
    replace (map (fun t : @ohlc_tick I => B2R (close t : f32)) (series p us))
      with (map B2R (map close (series p us) : list f32)) by apply map_map.
    exact Ee.
  Qed.

  (** MACD: all five values. *)
  Theorem C93_macd (nf ns ng p k : Z) (us : list (@ohlc_tick I)) :
    (1 <= nf < 2 ^ 20)%Z -> (1 <= ns < 2 ^ 20)%Z -> (1 <= ng < 2 ^ 20)%Z ->
    (0 < p)%Z -> (-98 <= k <= 97)%Z -> ordered timestamp_sec us ->
    Forall (fun t : @ohlc_tick I => within k (close t)) us ->
    let closes := map (fun t : @ohlc_tick I => B2R (close t : f32)) (series p us) in
    let W n := 2 / (1 + IZR n) in
    let fast := Rema (W nf) closes in
    let slow := Rema (W ns) closes in
    let signal := Rema (W ng) (Rmacd (W nf) (W ns) closes) in
    let unit := / 2 ^ 21 * bpow radix2 k in
    exists s0 s, @NewMacd I p = Done s0 /\ foldM (@macd_Update I nf ns ng p) s0 us = Done s /\
      Rabs (B2R (@macd_GetFast I s : f32) - fast) <= unit * (1 + IZR nf) /\
      Rabs (B2R (@macd_GetSlow I s : f32) - slow) <= unit * (1 + IZR ns) /\
      Rabs (B2R (@macd_GetSeries I s : f32) - (fast - slow)) <= unit * (IZR nf + IZR ns + 3) /\
      Rabs (B2R (@macd_GetSignal I s : f32) - signal) <= unit * (IZR nf + IZR ns + 4 * IZR ng + 7) /\
      Rabs (B2R (@macd_GetDivergence I s : f32) - ((fast - slow) - signal))
        <= unit * (2 * IZR nf + 2 * IZR ns + 4 * IZR ng + 12).
  Proof.
    intros Hf Hs Hg Hp Hk Ho HQ closes W fast slow signal unit.
    destruct (@C46_macd I nf ns ng p us Hp Ho) as (s0 & s & E0 & E1 & E2 & E3 & E4 & E5 & E6 & _).
    exists s0, s. split; [exact E0|]. split; [exact E1|].
    set (vs := map close (series p us) : list f32) in *.
    assert (HF : Forall (bnd k) vs).
    { apply Forall_map. exact (@series_closes I p Hp (within k) us Ho HQ). }
    assert (Ec : closes = map B2R vs) by (unfold vs; symmetry; apply map_map).
    assert (Eu : unit = / 2097152 * bpow radix2 k) by (unfold unit; replace (2 ^ 21) with 2097152 by lra; reflexivity).
    unfold fast, slow, signal, W. rewrite Ec, Eu.
    change (@flt I) with f32 in *. rewrite E2, E3, E4, E5, E6.
    repeat split.
    - apply (ema_two lm as_ k nf vs ltac:(lia) Hf HF).
    - apply (ema_two lm as_ k ns vs ltac:(lia) Hs HF).
    - apply (series_err lm as_ k Hk nf ns vs Hf Hs HF).
    - apply (signal_err lm as_ k Hk nf ns ng vs Hf Hs Hg HF).
    - apply (divergence_err lm as_ k Hk nf ns ng vs Hf Hs Hg HF).
  Qed.
End Drift.

(** Three minutes of closes 100, 102 and 101. *)
Section Examples.
  Context (lm : libm).
  Local Notation I := (ieee lm true).
  Local Definition three : list (@ohlc_tick I) :=
    [flat_tick_at lm true 0 (zf 100); flat_tick_at lm true 60 (zf 102); flat_tick_at lm true 120 (zf 101)].

  Lemma three_ok : ordered timestamp_sec three /\ Forall (fun t : @ohlc_tick I => within 7 (close t)) three.
  Proof.
    split.
    - intros i j x y Hi Hj Hij.
      destruct i as [|[|[|i]]]; [| | |destruct i; discriminate]; injection Hi as <-;
        (destruct j as [|[|[|j]]]; [lia| | |destruct j; discriminate]); injection Hj as <-; cbn; lia.
    - unfold three. repeat apply Forall_cons; try apply Forall_nil; cbn [close flat_tick_at].
      all: unfold within, zf; match goal with |- context [f32_of_Z ?z] => destruct (ofZ_finite z ltac:(lia)) as (F & E) end;
        rewrite E; (split; [exact F|]); rewrite Rabs_pos_eq by lra; change (bpow radix2 7) with 128; lra.
  Qed.

  Example C92_example : exists s0 s, @NewSma I 2 60 = Done s0 /\ foldM (@sma_Update I 2 60) s0 three = Done s /\
    Rabs (B2R (@sma_Get I s : f32) - 203 / 2) <= / 1000.
  Proof.
    destruct three_ok as (Ho & Hw).
    destruct (C92_sma lm true 2 60 7 three ltac:(lia) ltac:(lia) ltac:(lia) Ho Hw) as (s0 & s & E0 & E1 & _ & E2).
    { assert (length (series 60 three) = 3%nat) as -> by reflexivity. cbn. lia. }
    exists s0, s. split; [exact E0|]. split; [exact E1|].
    assert (L : map (fun t : @ohlc_tick I => B2R (close t : f32)) (lastn (Z.to_nat 2) (series 60 three))
                = [B2R (zf 102); B2R (zf 101)]) by reflexivity.
    rewrite L in E2. unfold zf in E2.
    rewrite (proj2 (ofZ_finite 102 ltac:(lia))), (proj2 (ofZ_finite 101 ltac:(lia))) in E2.
    assert (N : (length three + length (series 60 three))%nat = 6%nat) by reflexivity. rewrite N in E2.
    unfold mean, Rsum in E2. cbn [fold_right length INR] in E2. change (bpow radix2 7) with 128 in E2.
    replace (203 / 2) with ((102 + (101 + 0)) / (1 + 1)) by lra. lra.
  Qed.

  (** Smoothing 2 and length 9: weight 0.2. *)
  Example C93_example : exists s0 s, @NewEma I 60 = Done s0 /\
    foldM (@ema_Update I (@ema_weight I (zf 2) 9) 60) s0 three = Done s /\
    Rabs (B2R (@ema_Get I s : f32) - 100.52) <= / 1000.
  Proof.
    destruct three_ok as (Ho & Hw). destruct (ofZ_finite 2 ltac:(lia)) as (F2 & R2).
    assert (EW : B2R (zf 2) / (1 + IZR 9) = / 5) by (unfold zf; rewrite R2; lra).
    destruct (C93_ema lm true (zf 2) 9 60 7 three F2 ltac:(lia)) as (s0 & s & E0 & E1 & _ & E2); auto; try lia.
    { rewrite EW. lra. }
    exists s0, s. split; [exact E0|]. split; [exact E1|]. rewrite EW in E2.
    assert (L : map (fun t : @ohlc_tick I => B2R (close t : f32)) (series 60 three)
                = [B2R (zf 100); B2R (zf 102); B2R (zf 101)]) by reflexivity.
    rewrite L in E2. unfold zf in E2.
    rewrite (proj2 (ofZ_finite 100 ltac:(lia))), (proj2 (ofZ_finite 102 ltac:(lia))), (proj2 (ofZ_finite 101 ltac:(lia))) in E2.
    cbn [Rema fold_left] in E2. change (bpow radix2 7) with 128 in E2.
    replace 100.52 with (/ 5 * 101 + (1 - / 5) * (/ 5 * 102 + (1 - / 5) * 100)) by lra. lra.
  Qed.
End Examples.

Print Assumptions C92_sma.
Print Assumptions C93_ema.
Print Assumptions C93_macd.
