(** How far float rounding takes the sliding mean, variance and standard deviation, and the
    volatility built on them, from the exact ones. *)
From Coq Require Import Reals ZArith Bool List Lia Lra.
From Flocq Require Import Core BinarySingleNaN Relative.
From Verif.Model Require Import Outcome Machine Types Indicators MachineR MachineIEEE.
From Verif.Spec Require Import SeriesSpec IndicatorSpec VolSpec.
From Verif.Proofs Require Import Base FloatLemmas FloatErr SeriesProofs HelperProofs MeanProofs EvalFloat ScoreFloat VarFloat VolProofs VolFloat.
From Verif.Properties Require Import IndicatorProps DriftProps.
Import ListNotations.
Local Open Scope R_scope.

Section Variance.
  Context (lm : libm) (as_ : bool).
  Local Notation I := (ieee lm as_).

  (** ** C106 The float mean and variance of the sliding-window helper: with values of magnitude at
      most 2^k, after N values the mean is within N * 2^-19 * 2^k and the variance within
      N * 2^-17 * 2^2k of the exact mean and variance of the values in the window. *)
  Theorem C106_mean_variance n k (ops : list (window_op f32)) :
    (0 <= n)%Z -> (-50 <= k <= 50)%Z -> legal ops ->
    Forall (within k) (op_values ops) -> (Z.of_nat (length (op_values ops)) <= 2 ^ 19)%Z ->
    let N := INR (length (op_values ops)) in
    let values := map (fun x : f32 => B2R x) (last_or_all n (op_values ops)) in
    exists s, foldM (apply_op (fun s v => Done (@mv_AddNewValue I s v)) (@mv_UpdateCurrentValue I)) (@NewMeanVar I n) ops = Done s /\
      is_finite (@mv_GetMean I s : f32) = true /\
      Rabs (B2R (@mv_GetMean I s : f32) - mean values) <= N * / 2 ^ 19 * bpow radix2 k /\
      is_finite (@mv_GetVariance I s : f32) = true /\
      Rabs (B2R (@mv_GetVariance I s : f32) - variance values) <= N * / 2 ^ 17 * bpow radix2 (2 * k).
  Proof.
    intros Hn Hk HL HF HN N values. rewrite (@C52_mean_variance_helper I n ops HL).
    exists (@mv_of I n (op_values ops)). split; [reflexivity|].
    destruct (mean_err lm as_ k Hk n _ Hn HF HN) as (A1 & A2). destruct (var_err lm as_ k Hk n _ Hn HF HN) as (B1 & B2).
    replace (2 ^ 19) with 524288 by lra. replace (2 ^ 17) with 131072 by lra. auto.
  Qed.

  (** The standard deviation: a number or NaN, NaN only if the exact variance is within the
      error of the variance; a number is within sqrt(N) * 2^-8 * 2^k of the exact standard
      deviation, and within 2 * error / deviation of it. *)
  Theorem C106_standard_deviation n k (ops : list (window_op f32)) :
    (0 <= n)%Z -> (-50 <= k <= 50)%Z -> legal ops ->
    Forall (within k) (op_values ops) -> (Z.of_nat (length (op_values ops)) <= 2 ^ 19)%Z ->
    let N := INR (length (op_values ops)) in
    let values := map (fun x : f32 => B2R x) (last_or_all n (op_values ops)) in
    let v := variance values in
    let e := N * / 2 ^ 17 * bpow radix2 (2 * k) in
    exists s, foldM (apply_op (fun s v => Done (@mv_AddNewValue I s v)) (@mv_UpdateCurrentValue I)) (@NewMeanVar I n) ops = Done s /\
      let f : f32 := @mv_GetStandardDeviation I s in
      (is_finite f = true \/ (is_nan f = true /\ v <= e)) /\
      (is_finite f = true -> 0 <= B2R f /\
         Rabs (B2R f - sqrt v) <= sqrt N * / 2 ^ 8 * bpow radix2 k /\
         (0 < v -> Rabs (B2R f - sqrt v) <= 2 * e / sqrt v)).
  Proof.
    intros Hn Hk HL HF HN N values v e. rewrite (@C52_mean_variance_helper I n ops HL).
    exists (@mv_of I n (op_values ops)). split; [reflexivity|].
    pose proof (sd_err lm as_ k Hk n _ Hn HF HN) as A. cbv zeta in A.
    unfold e, v, N, values. replace (2 ^ 17) with 131072 by lra. replace (2 ^ 8) with 256 by lra. exact A.
  Qed.

  (** ** C107 The float volatility: compared with the exact volatility of the same balances and
      prices (C51), it is off by at most sqrt(N) * 2^-7 times the largest logarithmic return,
      plus 2^-20, where N is the number of periods; it is NaN only if the exact volatility is
      itself that small. *)
  Theorem C107_volatility sh as' W p k (xs : list (@balance_update I)) :
    log_accurate lm -> (0 <= W)%Z -> (0 < p)%Z -> xs <> [] -> ordered timestamp_sec (map bu_tick xs) ->
    Forall (sound_update lm as_) xs -> (-18 <= k <= 6)%Z ->
    let E := exact sh as' in
    let exact_xs := map (real_update lm as_ sh as') xs in
    (forall v, In v (@initial_value E exact_xs :: @period_values E p exact_xs) -> bpow radix2 (-60) <= v <= bpow radix2 60) ->
    (forall step, In step (@value_steps E p exact_xs) -> Rabs (ln (snd step / fst step)) <= bpow radix2 k) ->
    (Z.of_nat (length (series p (map bu_tick xs))) <= 2 ^ 19)%Z ->
    let N := INR (length (series p (map bu_tick xs))) in
    let tol := sqrt N * / 2 ^ 7 * bpow radix2 k + / 2 ^ 20 * (1 + bpow radix2 k) in
    exists s0 s e0 e,
      @NewVolatility I W p = Done s0 /\
      foldM (fun s x => @vol_Update I p s (bu_tick x) (bu_base x) (bu_quote x)) s0 xs = Done s /\
      @NewVolatility E W p = Done e0 /\
      foldM (fun s x => @vol_Update E p s (bu_tick x) (bu_base x) (bu_quote x)) e0 exact_xs = Done e /\
      @vol_Get E e = sqrt (variance (last_or_all W (map (fun step => ln (snd step / fst step)) (@value_steps E p exact_xs)))) /\
      let f : f32 := @vol_Get I s in
      (is_finite f = true \/ (is_nan f = true /\ @vol_Get E e <= tol)) /\
      (is_finite f = true -> 0 <= B2R f /\ Rabs (B2R f - @vol_Get E e) <= tol).
  Proof.
    intros HL HW Hp Hne Ho HF Hk E exact_xs Hw Hr HN N tol.
    destruct (@C51_volatility_values I W p xs Hp Ho) as (s0 & s & E0 & E1 & E2 & _).
    assert (Ho' : ordered timestamp_sec (map bu_tick exact_xs)).
    { unfold exact_xs. clear - Ho. unfold ordered in *. rewrite map_map. intros i j x y Hx Hy Hij.
      rewrite nth_error_map in Hx, Hy.
      destruct (nth_error xs i) as [a|] eqn:Ea; cbn [option_map] in Hx; [|discriminate].
      destruct (nth_error xs j) as [b|] eqn:Eb; cbn [option_map] in Hy; [|discriminate].
      apply (Ho i j (bu_tick a) (bu_tick b)) in Hij; [|rewrite nth_error_map, Ea; reflexivity|rewrite nth_error_map, Eb; reflexivity].
      assert (x = bu_tick (real_update lm as_ sh as' a)) as -> by congruence.
      assert (y = bu_tick (real_update lm as_ sh as' b)) as -> by congruence. exact Hij. }
    assert (Hpos : forall v, In v (@initial_value E exact_xs :: @period_values E p exact_xs) -> 0 < v).
    { intros v Hv. apply Hw in Hv. pose proof (bpow_gt_0 radix2 (-60)). lra. }
    destruct (C51_volatility sh as' W p exact_xs HW Hp Ho' Hpos) as (e0 & e & F0 & F1 & F2).
    exists s0, s, e0, e. split; [exact E0|]. split; [exact E1|]. split; [exact F0|]. split; [exact F1|]. split; [exact F2|].
    pose proof (returns_close lm as_ sh as' k p xs HL Hne HF Hw Hk Hr) as HC.
    set (lf := map (fun ab => @flog I (@fdiv I (fst ab) (snd ab))) (@value_steps I p xs)) in *.
    set (lr := map (fun ab => ln (fst ab / snd ab)) (@value_steps E p (map (real_update lm as_ sh as') xs))) in *.
    assert (Llf : @length f32 lf = length (series p (map bu_tick xs))).
    { unfold lf, value_steps, series, period_values. rewrite map_length, combine_length. cbn [length]. rewrite !map_length. lia. }
    pose proof (bpow_gt_0 radix2 k) as HB.
    destruct (vol_sd lm as_ W (k + 1) (/ 1048576 * (1 + bpow radix2 k)) lf lr HW ltac:(lia) ltac:(apply Rmult_le_pos; lra) HC ltac:(rewrite Llf; exact HN)) as (V1 & V2).
    assert (Ef : (@vol_Get I s : f32) = @mv_GetStandardDeviation I (@mv_of I W lf)) by exact E2.
    assert (Ev : @vol_Get E e = sqrt (variance (last_or_all W lr))).
    { etransitivity; [exact F2|]. f_equal.
      assert (Hneg : lr = map Ropp (map (fun ab => ln (snd ab / fst ab)) (@value_steps E p exact_xs))).
      { apply rets_exact. intros a b Hab. unfold value_steps in Hab. split.
        - apply Hpos. apply in_combine_l in Hab. exact Hab.
        - apply Hpos. right. apply in_combine_r in Hab. exact Hab. }
      rewrite Hneg. rewrite (last_or_all_map Ropp). symmetry. apply variance_opp. }
    assert (Et : sqrt (INR (@length f32 lf)) * / 256 * bpow radix2 (k + 1) + / 1048576 * (1 + bpow radix2 k) = tol).
    { unfold tol, N. rewrite Llf, bpow_plus. change (bpow radix2 1) with 2. change (@flt E) with R. field. }
    cbv zeta. rewrite Ev, Ef. rewrite Et in V1, V2. split; [exact V1|exact V2].
  Qed.
End Variance.

(** ** A library whose logf is as accurate as assumed: the correctly rounded one. *)
Definition rounded_log (x : f32) : f32 :=
  let v := rnd (ln (B2R x)) in
  binary_normalize 24 128 (eq_refl _) (eq_refl _) mode_NE (Ztrunc (scaled_mantissa radix2 fexp32 v)) (cexp radix2 fexp32 v) false.

Lemma C107_log_ex (lm : libm) : log_accurate (Libm (libm_expf lm) rounded_log (libm_pow lm)).
Proof.
  intros x Fx H. cbn [libm_logf]. unfold rounded_log. set (w := ln (B2R x)) in *. set (v := rnd w).
  pose proof (binary_normalize_correct 24 128 (eq_refl _) (eq_refl _) mode_NE (Ztrunc (scaled_mantissa radix2 fexp32 v)) (cexp radix2 fexp32 v) false) as K.
  cbn [round_mode] in K.
  assert (Gv : generic_format radix2 fexp32 v) by (apply generic_format_round; exact _).
  assert (Ev : F2R (Float radix2 (Ztrunc (scaled_mantissa radix2 fexp32 v)) (cexp radix2 fexp32 v)) = v) by (symmetry; exact Gv).
  rewrite Ev in K. rewrite round_generic in K; [|exact _|exact Gv].
  assert (Hw : Rabs w <= bpow radix2 7).
  { eapply Rle_trans; [apply (ln_range (B2R x) 125 ltac:(lia) H)|]. change (bpow radix2 7) with 128. lra. }
  assert (N := no_overflow w 7 ltac:(lia) Hw). fold v in N. rewrite N in K.
  destruct K as (KR & KF & _). split; [exact KF|].
  rewrite KR. unfold v. destruct (rnd_err w) as (d & e & Er & Hd & He). rewrite Er.
  change (bpow radix2 (-24)) with (/ 16777216) in Hd.
  replace (w * (1 + d) + e - w) with (d * w + e) by ring. eapply Rle_trans; [apply Rabs_triang|].
  assert (bpow radix2 (-150) <= bpow radix2 (-140)) by (apply bpow_le; lia).
  rewrite Rabs_mult. replace (/ 2 ^ 22) with (/ 4194304) by (f_equal; lra).
  assert (Rabs d * Rabs w <= / 4194304 * Rabs w) by (apply Rmult_le_compat_r; [apply Rabs_pos|lra]). lra.
Qed.

(** ** The hypotheses can be met. *)
Section Examples.
  Context (lm0 : libm) (as_ : bool) (sh : R -> String.string) (as' : bool).
  Let lm := Libm (libm_expf lm0) rounded_log (libm_pow lm0).
  Local Notation I := (ieee lm as_).
  Local Notation E := (exact sh as').
  Local Notation zf := f32_of_Z.

  (** Three values, the second one updated. *)
  Lemma C106_ex : let ops := [Add (zf 1); Add (zf 2); Replace (zf 3); Add (zf (-4))] in
    legal ops /\ Forall (within 2) (op_values ops) /\ op_values ops = [zf 1; zf 3; zf (-4)].
  Proof.
    assert (W : forall z, (Z.abs z <= 4)%Z -> within 2 (zf z)).
    { intros z Hz. destruct (ofZ_finite z ltac:(lia)) as (F & R). split; [exact F|]. rewrite R, <- abs_IZR.
      change (bpow radix2 2) with (IZR 4). apply IZR_le. exact Hz. }
    cbv zeta. split; [|split; [|reflexivity]].
    - exact Logic.I.
    - change (Forall (within 2) [zf 1; zf 3; zf (-4)]). repeat (constructor; [apply W; lia|]). constructor.
  Qed.

  (** Two periods: one unit of each currency, at the prices 1, 2 and 3. *)
  Definition two_periods : list (@balance_update I) :=
    [@BalanceUpdate I (@OhlcTick I 0 (zf 1) (zf 2) (zf 1) (zf 2) (zf 1)) (zf 1) (zf 1);
     @BalanceUpdate I (@OhlcTick I 60 (zf 2) (zf 3) (zf 2) (zf 3) (zf 1)) (zf 1) (zf 1)].

  Lemma C107_ex :
    let exact_xs := map (real_update lm as_ sh as') two_periods in
    log_accurate lm /\ ordered timestamp_sec (map bu_tick two_periods) /\ Forall (sound_update lm as_) two_periods /\
    (forall v, In v (@initial_value E exact_xs :: @period_values E 60 exact_xs) -> bpow radix2 (-60) <= v <= bpow radix2 60) /\
    (forall step, In step (@value_steps E 60 exact_xs) -> Rabs (ln (snd step / fst step)) <= bpow radix2 0) /\
    length (series 60 (map bu_tick two_periods)) = 2%nat.
  Proof.
    assert (Z1 := ofZ_finite 1 ltac:(lia)). assert (Z2 := ofZ_finite 2 ltac:(lia)). assert (Z3 := ofZ_finite 3 ltac:(lia)).
    destruct Z1 as (F1 & R1), Z2 as (F2 & R2), Z3 as (F3 & R3). cbv zeta.
    set (xs := map (real_update lm as_ sh as') two_periods).
    assert (EI : @initial_value E xs = 2).
    { change (@initial_value E xs) with (B2R (zf 1) * B2R (zf 1) + B2R (zf 1)). rewrite R1. lra. }
    assert (EP : @period_values E 60 xs = [3; 4]).
    { change (@period_values E 60 xs) with [B2R (zf 1) * B2R (zf 2) + B2R (zf 1); B2R (zf 1) * B2R (zf 3) + B2R (zf 1)].
      rewrite R1, R2, R3. f_equal; [lra|f_equal; lra]. }
    assert (B1 : bpow radix2 (-60) <= 1) by (change 1 with (bpow radix2 0); apply bpow_le; lia).
    assert (B2 : 4 <= bpow radix2 60) by (change 4 with (bpow radix2 2); apply bpow_le; lia).
    split; [apply C107_log_ex|]. split; [|split; [|split; [|split]]].
    - intros i j x y Hx Hy Hij. destruct i as [|[|i]]; cbn in Hx; [| |destruct i; discriminate].
      + destruct j as [|[|j]]; cbn in Hy; [lia| |destruct j; discriminate].
        injection Hx as <-. injection Hy as <-. cbn. lia.
      + destruct j as [|[|j]]; cbn in Hy; try lia. destruct j; discriminate.
    - unfold two_periods. constructor; [|constructor; [|constructor]]; unfold sound_update; cbn [bu_tick bu_base bu_quote open close];
        rewrite ?R1, ?R2, ?R3; repeat split; try assumption; lra.
    - rewrite EI, EP. intros v [<-|[<-|[<-|[]]]]; lra.
    - unfold value_steps. rewrite EI, EP. cbn [combine]. change (bpow radix2 0) with 1.
      assert (L : forall x, 1 <= x <= 2 -> Rabs (ln x) <= 1).
      { intros x Hx. assert (0 <= ln x) by (rewrite <- ln_1; destruct (Req_dec x 1) as [->|Ne]; [lra|left; apply ln_increasing; lra]).
        rewrite Rabs_pos_eq by assumption. rewrite <- (ln_exp 1). left. apply ln_increasing; [lra|].
        pose proof (exp_ineq1 1 ltac:(lra)). destruct (Req_dec x 2); lra. }
      intros step [<-|[<-|[]]]; cbn [fst snd]; apply L; lra.
    - reflexivity.
  Qed.
End Examples.

Print Assumptions C106_mean_variance.
Print Assumptions C106_standard_deviation.
Print Assumptions C107_volatility.
