(** How far a float exponential moving average can be from the exact one. *)
From Coq Require Import Reals ZArith Bool List Lia Lra.
From Flocq Require Import Core BinarySingleNaN.
From Verif.Model Require Import Outcome Machine Types Indicators MachineIEEE.
From Verif.Spec Require Import SeriesSpec IndicatorSpec DriftSpec.
From Verif.Proofs Require Import Base FloatLemmas FloatErr DriftProofs.
Import ListNotations.
Local Open Scope R_scope.

Lemma rnd_abs_err x y : Rabs x <= y -> Rabs (rnd x - x) <= u24 * y + bpow radix2 (-150).
Proof.
  intros H. destruct (rnd_err x) as (d & e & Er & Hd & He). rewrite Er.
  replace (x * (1 + d) + e - x) with (d * x + e) by ring.
  eapply Rle_trans; [apply Rabs_triang|]. apply Rplus_le_compat; [|exact He].
  rewrite Rabs_mult. apply Rmult_le_compat; auto using Rabs_pos.
Qed.

Lemma Rabs_mult_le a b c d : Rabs a <= c -> Rabs b <= d -> Rabs (a * b) <= c * d.
Proof. intros. rewrite Rabs_mult. apply Rmult_le_compat; auto using Rabs_pos. Qed.

(** One step: from an average e within E <= 2^k of X to one within (1-w) E + 2^(k-21) of the exact step. *)
Lemma ema_step k (w v e : f32) (X E : R) :
  (-100 <= k <= 100)%Z -> is_finite w = true -> 0 <= B2R w <= 1 ->
  bnd k v -> is_finite e = true -> Rabs X <= bpow radix2 k -> 0 <= E <= bpow radix2 k ->
  Rabs (B2R e - X) <= E ->
  let e' := Bplus mode_NE (Bmult mode_NE w v) (Bmult mode_NE (Bminus mode_NE (f32_of_Z 1) w) e) in
  is_finite e' = true /\
  Rabs (B2R e' - (B2R w * B2R v + (1 - B2R w) * X)) <= (1 - B2R w) * E + 8 * u24 * bpow radix2 k.
Proof.
  intros Hk Fw Hw Hv Fe HX HE He. cbv zeta.
  pose proof (bpow_gt_0 radix2 k) as HB. pose proof (eta_small k ltac:(lia)) as Eta0.
  pose proof (eta_small 0 ltac:(lia)) as Eta1. change (bpow radix2 0) with 1 in Eta1.
  destruct (ofZ_finite 1 ltac:(lia)) as (F1 & R1).
  assert (Bw : bnd 0 w) by (split; [exact Fw|]; rewrite Rabs_pos_eq by lra; change (bpow radix2 0) with 1; lra).
  assert (He2 : Rabs (B2R e) <= 2 * bpow radix2 k).
  { replace (B2R e) with (X + (B2R e - X)) by ring. eapply Rle_trans; [apply Rabs_triang|]. lra. }
  assert (Be : bnd (k + 1) e) by (split; [exact Fe|]; rewrite bpow_plus_1; simpl (IZR radix2); lra).
  destruct (Bmult_bnd 0 k w v ltac:(lia) Bw Hv) as ((Ft1 & _) & Rt1).
  assert (B1 : bnd 0 (f32_of_Z 1)).
  { split; [exact F1|]. rewrite R1, Rabs_pos_eq by lra. change (bpow radix2 0) with 1. lra. }
  destruct (Bminus_bnd 0 _ w ltac:(lia) B1 Bw) as ((Fw' & _) & Rw').
  assert (Hw' : 0 <= B2R (Bminus mode_NE (f32_of_Z 1) w) <= 1).
  { rewrite Rw', R1. split; [apply rnd_nonneg; lra|apply rnd_le_1; lra]. }
  assert (Bw' : bnd 0 (Bminus mode_NE (f32_of_Z 1) w)).
  { split; [exact Fw'|]. rewrite Rabs_pos_eq by lra. change (bpow radix2 0) with 1. lra. }
  destruct (Bmult_bnd 0 (k + 1) _ e ltac:(lia) Bw' Be) as ((Ft2 & Bt2) & Rt2).
  assert (Bt1 : Rabs (B2R (Bmult mode_NE w v)) <= bpow radix2 (k + 1)).
  { destruct (Bmult_bnd 0 k w v ltac:(lia) Bw Hv) as ((_ & H) & _). eapply Rle_trans; [exact H|]. apply bpow_le. lia. }
  destruct (Bplus_bnd (k + 1) (Bmult mode_NE w v) (Bmult mode_NE (Bminus mode_NE (f32_of_Z 1) w) e) ltac:(lia))
    as ((Fs & _) & Rs).
  { split; assumption. }
  { split; [exact Ft2|]. eapply Rle_trans; [exact Bt2|]. apply bpow_le. lia. }
  split; [exact Fs|]. rewrite Rs.
  set (t1 := B2R (Bmult mode_NE w v)) in *. set (t2 := B2R (Bmult mode_NE (Bminus mode_NE (f32_of_Z 1) w) e)) in *.
  set (W' := B2R (Bminus mode_NE (f32_of_Z 1) w)) in *.
  assert (Rw'' : W' = rnd (1 - B2R w)) by (rewrite <- R1; exact Rw').
  change (round radix2 (SpecFloat.fexp 24 128) (round_mode mode_NE)) with rnd in *.
  set (W := B2R w) in *. set (B := bpow radix2 k) in *. set (eta := bpow radix2 (-150)) in *.
  destruct Hv as (Fv & Hv). set (V := B2R v) in *. fold B in Hv.
  assert (HWB : 0 <= W * B <= B).
  { split; [apply Rmult_le_pos; lra|]. rewrite <- (Rmult_1_l B) at 2. apply Rmult_le_compat_r; lra. }
  (* the four roundings *)
  assert (E1 : Rabs (t1 - W * V) <= u24 * (W * B) + eta).
  { rewrite Rt1. apply rnd_abs_err. rewrite Rabs_mult, (Rabs_pos_eq W) by lra. apply Rmult_le_compat_l; lra. }
  assert (E0 : Rabs (W' - (1 - W)) <= u24 * (1 - W) + eta).
  { rewrite Rw''. apply rnd_abs_err. rewrite Rabs_pos_eq; lra. }
  assert (E2 : Rabs (t2 - W' * B2R e) <= u24 * (W' * (2 * B)) + eta).
  { rewrite Rt2. apply rnd_abs_err. rewrite Rabs_mult, (Rabs_pos_eq W') by lra. apply Rmult_le_compat_l; lra. }
  assert (HW'B : W' * (2 * B) <= (1 - W + u24 * (1 - W) + eta) * (2 * B)).
  { apply Rmult_le_compat_r; [lra|]. apply Rabs_le_inv in E0. lra. }
  assert (E02 : Rabs ((W' - (1 - W)) * B2R e) <= (u24 * (1 - W) + eta) * (2 * B)) by (apply Rabs_mult_le; assumption).
  assert (EX : Rabs ((1 - W) * (B2R e - X)) <= (1 - W) * E).
  { rewrite Rabs_mult, (Rabs_pos_eq (1 - W)) by lra. apply Rmult_le_compat_l; lra. }
  assert (HWe : Rabs ((1 - W) * B2R e) <= (1 - W) * (2 * B)).
  { rewrite Rabs_mult, (Rabs_pos_eq (1 - W)) by lra. apply Rmult_le_compat_l; lra. }
  assert (HWV : Rabs (W * V) <= W * B).
  { rewrite Rabs_mult, (Rabs_pos_eq W) by lra. apply Rmult_le_compat_l; lra. }
  assert (HetaB : 0 <= eta * B <= u24 * B / 67108864).
  { assert (0 < eta) by apply bpow_gt_0. split; [apply Rmult_le_pos; lra|].
    replace (u24 * B / 67108864) with (u24 * 1 / 67108864 * B) by field. apply Rmult_le_compat_r; lra. }
  assert (Heta : 0 < eta) by apply bpow_gt_0.
  assert (E12 : Rabs (t1 + t2 - (W * V + (1 - W) * B2R e))
                <= u24 * (W * B) + eta + (u24 * (W' * (2 * B)) + eta) + (u24 * (1 - W) + eta) * (2 * B)).
  { replace (t1 + t2 - (W * V + (1 - W) * B2R e))
      with ((t1 - W * V) + (t2 - W' * B2R e) + (W' - (1 - W)) * B2R e) by ring.
    eapply Rle_trans; [apply Rabs_triang|]. eapply Rle_trans; [apply Rplus_le_compat_r, Rabs_triang|]. lra. }
  unfold u24 in *.
  assert (E12' : Rabs (t1 + t2 - (W * V + (1 - W) * B2R e)) <= 4 * / 16777216 * B + 32 * / 16777216 * / 16777216 * B).
  { eapply Rle_trans; [exact E12|].
    replace ((1 - W + / 16777216 * (1 - W) + eta) * (2 * B))
      with (2 * (B - W * B) + / 16777216 * 2 * (B - W * B) + 2 * (eta * B)) in HW'B by ring.
    replace ((/ 16777216 * (1 - W) + eta) * (2 * B)) with (/ 16777216 * 2 * (B - W * B) + 2 * (eta * B)) by ring.
    lra. }
  assert (Hsum : Rabs (t1 + t2) <= 3 * B).
  { replace (t1 + t2) with ((W * V) + (1 - W) * B2R e + (t1 + t2 - (W * V + (1 - W) * B2R e))) by ring.
    eapply Rle_trans; [apply Rabs_triang|]. eapply Rle_trans; [apply Rplus_le_compat_r, Rabs_triang|].
    replace ((1 - W) * (2 * B)) with (2 * (B - W * B)) in HWe by ring. lra. }
  pose proof (rnd_abs_err (t1 + t2) _ Hsum) as E3. unfold u24 in E3. fold eta in E3.
  replace (rnd (t1 + t2) - (W * V + (1 - W) * X))
    with ((rnd (t1 + t2) - (t1 + t2)) + (t1 + t2 - (W * V + (1 - W) * B2R e)) + (1 - W) * (B2R e - X)) by ring.
  eapply Rle_trans; [apply Rabs_triang|]. eapply Rle_trans; [apply Rplus_le_compat_r, Rabs_triang|]. lra.
Qed.

(** The exact average of values in [-B, B] is in [-B, B]. *)
Lemma Rema_fold_bound w B : 0 <= w <= 1 -> forall vs e, Rabs e <= B -> Forall (fun v => Rabs v <= B) vs ->
  Rabs (fold_left (fun e v => w * v + (1 - w) * e) vs e) <= B.
Proof.
  intros Hw. induction vs as [|v vs IH]; intros e He HF; [exact He|]. apply Forall_cons_iff in HF as (Hv & HF).
  cbn [fold_left]. apply IH; [|exact HF]. eapply Rle_trans; [apply Rabs_triang|].
  rewrite !Rabs_mult, (Rabs_pos_eq w), (Rabs_pos_eq (1 - w)) by lra.
  replace B with (w * B + (1 - w) * B) by ring. apply Rplus_le_compat; apply Rmult_le_compat_l; lra.
Qed.

Lemma Rema_bound w B vs : 0 <= B -> 0 <= w <= 1 -> Forall (fun v => Rabs v <= B) vs -> Rabs (Rema w vs) <= B.
Proof.
  intros HB Hw HF. destruct vs as [|v vs]; cbn [Rema]; [rewrite Rabs_R0; exact HB|].
  apply Forall_cons_iff in HF as (Hv & HF). apply Rema_fold_bound; assumption.
Qed.

(** Values moved by at most D move the average by at most D. *)
Lemma Rema_inputs w D : 0 <= w <= 1 -> forall xs ys, 0 <= D -> Forall2 (fun x y => Rabs (x - y) <= D) xs ys ->
  Rabs (Rema w xs - Rema w ys) <= D.
Proof.
  intros Hw xs ys HD H. destruct H as [|x y xs ys Hxy H]; cbn [Rema]; [rewrite Rminus_0_r, Rabs_R0; exact HD|].
  revert x y Hxy. induction H as [|x1 y1 xs ys H1 H IH]; intros x y Hxy; [exact Hxy|].
  cbn [fold_left]. apply IH.
  replace (w * x1 + (1 - w) * x - (w * y1 + (1 - w) * y)) with (w * (x1 - y1) + (1 - w) * (x - y)) by ring.
  eapply Rle_trans; [apply Rabs_triang|]. rewrite !Rabs_mult, (Rabs_pos_eq w), (Rabs_pos_eq (1 - w)) by lra.
  replace D with (w * D + (1 - w) * D) by ring. apply Rplus_le_compat; apply Rmult_le_compat_l; lra.
Qed.

(** A weight moved by a relative 2^-24 (at most by D) moves the average by at most 2 B D / w. *)
Lemma Rema_weight w w' B D vs : 0 < w <= 1 -> 0 <= w' <= 1 -> 0 <= B -> Rabs (w - w') <= D ->
  Forall (fun v => Rabs v <= B) vs -> Rabs (Rema w vs - Rema w' vs) <= 2 * B * D / w.
Proof.
  intros Hw Hw' HB HD HF.
  assert (HD0 : 0 <= D) by (eapply Rle_trans; [apply Rabs_pos|exact HD]).
  assert (Hq : 0 <= 2 * B * D / w).
  { apply Rle_mult_inv_pos; [|lra]. apply Rmult_le_pos; lra. }
  destruct vs as [|v vs]; cbn [Rema]; [rewrite Rminus_0_r, Rabs_R0; exact Hq|].
  apply Forall_cons_iff in HF as (Hv & HF).
  assert (G : forall vs e f, Forall (fun v => Rabs v <= B) vs -> Rabs f <= B -> Rabs (e - f) <= 2 * B * D / w ->
    Rabs (fold_left (fun e v => w * v + (1 - w) * e) vs e - fold_left (fun e v => w' * v + (1 - w') * e) vs f) <= 2 * B * D / w).
  { clear v vs Hv HF. induction vs as [|v vs IH]; intros e f HF Hf Hef; [exact Hef|].
    apply Forall_cons_iff in HF as (Hv & HF). cbn [fold_left]. apply IH; [exact HF| |].
    - apply (Rema_fold_bound w' B Hw' [v] f Hf). constructor; [exact Hv|constructor].
    - replace (w * v + (1 - w) * e - (w' * v + (1 - w') * f)) with ((1 - w) * (e - f) + (w - w') * (v - f)) by ring.
      eapply Rle_trans; [apply Rabs_triang|].
      assert (H1 : Rabs ((1 - w) * (e - f)) <= (1 - w) * (2 * B * D / w)).
      { rewrite Rabs_mult, (Rabs_pos_eq (1 - w)) by lra. apply Rmult_le_compat_l; lra. }
      assert (H2 : Rabs ((w - w') * (v - f)) <= D * (2 * B)).
      { apply Rabs_mult_le; [exact HD|]. unfold Rminus. eapply Rle_trans; [apply Rabs_triang|]. rewrite Rabs_Ropp. lra. }
      replace (D * (2 * B)) with (w * (2 * B * D / w)) in H2 by (field; lra). lra. }
  apply G; [exact HF|exact Hv|]. rewrite Rminus_diag_eq by reflexivity. rewrite Rabs_R0. exact Hq.
Qed.

Section Ema.
  Context (lm : libm) (as_ : bool).
  Local Notation I := (ieee lm as_).

  (** The float average against the exact one with the same weight. *)
  Lemma ema_float k (w : f32) (vs : list f32) :
    (-100 <= k <= 100)%Z -> is_finite w = true -> 8 * u24 <= B2R w <= 1 -> Forall (bnd k) vs ->
    is_finite (@ema_of I w vs : f32) = true /\
    Rabs (B2R (@ema_of I w vs : f32) - Rema (B2R w) (map B2R vs)) <= 8 * u24 * bpow radix2 k / B2R w.
  Proof.
    intros Hk Fw Hw HF. pose proof (bpow_gt_0 radix2 k) as HB. assert (Hu : 0 < u24) by (unfold u24; lra).
    set (E := 8 * u24 * bpow radix2 k / B2R w).
    assert (HE : 0 <= E <= bpow radix2 k).
    { unfold E. split; [apply Rle_mult_inv_pos; [apply Rmult_le_pos|]; lra|].
      apply Rmult_le_reg_r with (B2R w); [lra|]. unfold Rdiv. rewrite Rmult_assoc, Rinv_l, Rmult_1_r by lra.
      rewrite (Rmult_comm (bpow radix2 k)). apply Rmult_le_compat_r; lra. }
    destruct vs as [|v vs].
    { destruct (ofZ_finite 0 ltac:(lia)) as (F0 & R0). split; [exact F0|]. cbn [map Rema ema_of].
      change (@fofZ I 0) with (f32_of_Z 0). rewrite R0, Rminus_0_r, Rabs_R0. apply HE. }
    apply Forall_cons_iff in HF as (Hv & HF).
    cbn [map Rema ema_of].
    assert (G : forall vs (e : f32) X, Forall (bnd k) vs -> is_finite e = true -> Rabs X <= bpow radix2 k -> Rabs (B2R e - X) <= E ->
      is_finite (fold_left (fun (e v : f32) => @fadd I (@fmul I w v) (@fmul I (@fsub I (@fofZ I 1) w) e)) vs e) = true /\
      Rabs (B2R (fold_left (fun (e v : f32) => @fadd I (@fmul I w v) (@fmul I (@fsub I (@fofZ I 1) w) e)) vs e)
            - fold_left (fun e v => B2R w * v + (1 - B2R w) * e) (map B2R vs) X) <= E).
    { clear v vs Hv HF. induction vs as [|v vs IH]; intros e X HF Fe HX He; [split; assumption|].
      apply Forall_cons_iff in HF as (Hv & HF). cbn [fold_left map].
      destruct (ema_step k w v e X E Hk Fw ltac:(lra) Hv Fe HX HE He) as (Fe' & He'). apply IH; [exact HF|exact Fe'| |].
      - apply (Rema_fold_bound (B2R w) _ ltac:(lra) [B2R v] X HX). constructor; [apply Hv|constructor].
      - eapply Rle_trans; [exact He'|].
        replace (8 * u24 * bpow radix2 k) with (B2R w * E) by (unfold E; field; lra). lra. }
    apply (G vs v (B2R v) HF (proj1 Hv) (proj2 Hv)).
    rewrite Rminus_diag_eq by reflexivity. rewrite Rabs_R0. apply HE.
  Qed.

  (** The weight computed as a float against the exact quotient. *)
  Lemma weight_err (sm : f32) (n : Z) : is_finite sm = true -> (0 <= n < 2 ^ 24)%Z ->
    let W := B2R sm / (1 + IZR n) in
    / 524288 <= W <= 1 ->
    let w : f32 := @fdiv I sm (@fadd I (@fofZ I 1) (@fofZ I n)) in
    is_finite w = true /\ 8 * u24 <= B2R w <= 1 /\ Rabs (W - B2R w) <= u24 * W + bpow radix2 (-150).
  Proof.
    intros Fs Hn W HW w. destruct (ofZ_finite 1 ltac:(lia)) as (F1 & R1).
    destruct (ofZ_finite n ltac:(lia)) as (Fn & Rn). destruct (ofZ_finite (n + 1) ltac:(lia)) as (Fn1 & Rn1).
    assert (Hn0 : 0 <= IZR n) by (apply IZR_le; lia).
    assert (Hn1 : IZR (n + 1) = 1 + IZR n) by (rewrite plus_IZR; ring).
    assert (Rd : rnd (1 + IZR n) = 1 + IZR n).
    { rewrite <- Hn1, <- Rn1. apply round_generic; [exact _|]. apply generic_format_B2R. }
    assert (Hmax : 1 + IZR n <= bpow radix2 24).
    { rewrite <- Hn1. change (bpow radix2 24) with (IZR (2 ^ 24)). apply IZR_le. lia. }
    pose proof (Bplus_correct 24 128 _ _ mode_NE (f32_of_Z 1) (f32_of_Z n) F1 Fn) as H. cbn [round_mode] in H.
    rewrite R1, Rn in H. rewrite (no_overflow _ 24) in H; [|lia|rewrite Rabs_pos_eq by lra; exact Hmax].
    destruct H as (HR & HF & _).
    change (round radix2 (SpecFloat.fexp 24 128) (round_mode mode_NE)) with rnd in HR. rewrite Rd in HR.
    set (den := Bplus mode_NE (f32_of_Z 1) (f32_of_Z n)) in *.
    pose proof (Bdiv_correct 24 128 _ _ mode_NE sm den) as K. rewrite HR in K. specialize (K ltac:(lra)).
    cbn [round_mode] in K. fold W in K.
    rewrite (no_overflow _ 0) in K; [|lia|rewrite Rabs_pos_eq by lra; change (bpow radix2 0) with 1; lra].
    destruct K as (KR & KF & _). rewrite Fs in KF.
    change (round radix2 (SpecFloat.fexp 24 128) (round_mode mode_NE)) with rnd in KR.
    change w with (Bdiv mode_NE sm den). split; [exact KF|]. rewrite KR.
    pose proof (rnd_abs_err W W ltac:(rewrite Rabs_pos_eq; lra)) as He.
    split; [|rewrite Rabs_minus_sym; exact He].
    split; [|apply rnd_le_1; lra].
    pose proof (eta_small 0 ltac:(lia)) as Eta. change (bpow radix2 0) with 1 in Eta. unfold u24 in *.
    apply Rabs_le_inv in He. lra.
  Qed.

  (** The float average against the exact one with the exact weight. *)
  Lemma ema_weighted k (sm : f32) (n : Z) (vs : list f32) :
    (-100 <= k <= 100)%Z -> is_finite sm = true -> (0 <= n < 2 ^ 24)%Z ->
    let W := B2R sm / (1 + IZR n) in
    / 524288 <= W <= 1 -> Forall (bnd k) vs ->
    let e : f32 := @ema_of I (@fdiv I sm (@fadd I (@fofZ I 1) (@fofZ I n))) vs in
    is_finite e = true /\ Rabs (B2R e - Rema W (map B2R vs)) <= / 1048576 * bpow radix2 k / W.
  Proof.
    intros Hk Fs Hn W HW HF e. destruct (weight_err sm n Fs Hn HW) as (Fw & Hw & Ew). fold W in Ew.
    set (w := @fdiv I sm (@fadd I (@fofZ I 1) (@fofZ I n)) : f32) in *.
    destruct (ema_float k w vs Hk Fw Hw HF) as (Fe & Ee). split; [exact Fe|].
    change (@ema_of I w vs) with e in Ee.
    pose proof (bpow_gt_0 radix2 k) as HB.
    assert (HFR : Forall (fun v => Rabs v <= bpow radix2 k) (map B2R vs)).
    { apply Forall_map. eapply Forall_impl; [|exact HF]. intros a Ha. apply Ha. }
    assert (Hu : u24 = / 16777216) by reflexivity. rewrite Hu in *.
    pose proof (Rema_weight W (B2R w) (bpow radix2 k) _ (map B2R vs) ltac:(lra) ltac:(lra) ltac:(lra) Ew HFR) as Er.
    pose proof (eta_small 0 ltac:(lia)) as Eta. change (bpow radix2 0) with 1 in Eta. rewrite Hu in Eta.
    set (B := bpow radix2 k) in *. set (eta := bpow radix2 (-150)) in *.
    assert (Heta : 0 < eta) by apply bpow_gt_0.
    assert (HQ : 1 <= / W) by (rewrite <- Rinv_1; apply Rinv_le_contravar; lra).
    assert (Hwi : / B2R w <= 9 / 8 * / W).
    { replace (9 / 8 * / W) with (/ (8 / 9 * W)) by (field; lra). apply Rinv_le_contravar; [lra|].
      apply Rabs_le_inv in Ew. lra. }
    assert (HBW : B <= B * / W) by (rewrite <- (Rmult_1_r B) at 1; apply Rmult_le_compat_l; lra).
    assert (HBe : B * / W * eta <= B * / W * (/ 16777216)).
    { apply Rmult_le_compat_l; [apply Rmult_le_pos; lra|lra]. }
    assert (HBw : B * / B2R w <= 9 / 8 * (B * / W)).
    { replace (9 / 8 * (B * / W)) with (B * (9 / 8 * / W)) by ring. apply Rmult_le_compat_l; lra. }
    replace (B2R e - Rema W (map B2R vs)) with ((B2R e - Rema (B2R w) (map B2R vs)) + - (Rema W (map B2R vs) - Rema (B2R w) (map B2R vs))) by ring.
    eapply Rle_trans; [apply Rabs_triang|]. rewrite Rabs_Ropp.
    replace (2 * B * (/ 16777216 * W + eta) / W) with (2 * / 16777216 * B + 2 * (B * / W * eta)) in Er by (field; lra).
    replace (8 * / 16777216 * B / B2R w) with (8 * / 16777216 * (B * / B2R w)) in Ee by (unfold Rdiv; ring).
    replace (/ 1048576 * B / W) with (/ 1048576 * (B * / W)) by (unfold Rdiv; ring). lra.
  Qed.
End Ema.

Section Macd.
  Context (lm : libm) (as_ : bool).
  Local Notation I := (ieee lm as_).
  Context (k : Z) (Hk : (-98 <= k <= 97)%Z).
  Local Notation B := (bpow radix2 k).
  Local Notation wgt n := (@fdiv I (@fofZ I 2) (@fadd I (@fofZ I 1) (@fofZ I n))).

  Lemma ema_two j n (vs : list f32) : (-100 <= j <= 100)%Z -> (1 <= n < 2 ^ 20)%Z -> Forall (bnd j) vs ->
    is_finite (@ema_of I (wgt n) vs : f32) = true /\
    Rabs (B2R (@ema_of I (wgt n) vs : f32) - Rema (2 / (1 + IZR n)) (map B2R vs)) <= / 2097152 * bpow radix2 j * (1 + IZR n).
  Proof.
    intros Hj Hn HF. destruct (ofZ_finite 2 ltac:(lia)) as (F2 & R2).
    assert (N1 : 1 <= IZR n) by (apply IZR_le; lia).
    assert (N2 : IZR n + 1 <= 1048576) by (rewrite <- plus_IZR; apply IZR_le; lia).
    assert (HW : / 524288 <= B2R (f32_of_Z 2) / (1 + IZR n) <= 1).
    { rewrite R2. split.
      - apply Rmult_le_reg_r with (1 + IZR n); [lra|]. unfold Rdiv. rewrite Rmult_assoc, Rinv_l; lra.
      - apply Rmult_le_reg_r with (1 + IZR n); [lra|]. unfold Rdiv. rewrite Rmult_assoc, Rinv_l; lra. }
    destruct (ema_weighted lm as_ j (f32_of_Z 2) n vs Hj F2 ltac:(lia) HW HF) as (Fe & Ee). split; [exact Fe|].
    rewrite R2 in Ee.
    replace (/ 2097152 * bpow radix2 j * (1 + IZR n)) with (/ 1048576 * bpow radix2 j / (2 / (1 + IZR n))) by (field; lra).
    exact Ee.
  Qed.

  Lemma ema_two_bound n (vs : list f32) : (1 <= n < 2 ^ 20)%Z -> Forall (bnd k) vs ->
    Rabs (B2R (@ema_of I (wgt n) vs : f32)) <= 2 * B.
  Proof.
    intros Hn HF. destruct (ema_two k n vs ltac:(lia) Hn HF) as (_ & E). pose proof (bpow_gt_0 radix2 k) as HB.
    assert (N1 : 1 <= IZR n) by (apply IZR_le; lia).
    assert (N2 : IZR n + 1 <= 1048576) by (rewrite <- plus_IZR; apply IZR_le; lia).
    assert (HR : Rabs (Rema (2 / (1 + IZR n)) (map B2R vs)) <= B).
    { apply Rema_bound; [lra| |].
      - split; [apply Rle_mult_inv_pos; lra|]. apply Rmult_le_reg_r with (1 + IZR n); [lra|]. unfold Rdiv. rewrite Rmult_assoc, Rinv_l; lra.
      - apply Forall_map. eapply Forall_impl; [|exact HF]. intros a Ha. apply Ha. }
    assert (HE : / 2097152 * B * (1 + IZR n) <= / 2097152 * B * 1048576) by (apply Rmult_le_compat_l; lra).
    replace (B2R (@ema_of I (wgt n) vs : f32)) with (Rema (2 / (1 + IZR n)) (map B2R vs) + (B2R (@ema_of I (wgt n) vs : f32) - Rema (2 / (1 + IZR n)) (map B2R vs))) by ring.
    eapply Rle_trans; [apply Rabs_triang|]. lra.
  Qed.

  Lemma two_eq : 2 * B = bpow radix2 (k + 1).
  Proof. rewrite bpow_plus_1. reflexivity. Qed.

  (** The difference of the two averages. *)
  Lemma series_err nf ns (vs : list f32) : (1 <= nf < 2 ^ 20)%Z -> (1 <= ns < 2 ^ 20)%Z -> Forall (bnd k) vs ->
    let d : f32 := @fsub I (@ema_of I (wgt nf) vs) (@ema_of I (wgt ns) vs) in
    bnd (k + 2) d /\
    Rabs (B2R d - (Rema (2 / (1 + IZR nf)) (map B2R vs) - Rema (2 / (1 + IZR ns)) (map B2R vs)))
      <= / 2097152 * B * (IZR nf + IZR ns + 3).
  Proof.
    intros Hf Hs HF d. destruct (ema_two k nf vs ltac:(lia) Hf HF) as (Ff & Ef). destruct (ema_two k ns vs ltac:(lia) Hs HF) as (Fs & Es).
    pose proof (ema_two_bound nf vs Hf HF) as Bf. pose proof (ema_two_bound ns vs Hs HF) as Bs. rewrite two_eq in Bf, Bs.
    destruct (Bminus_bnd (k + 1) (@ema_of I (wgt nf) vs) (@ema_of I (wgt ns) vs) ltac:(lia)) as (Hd & Rd);
      [split; assumption|split; assumption|].
    replace (k + 1 + 1)%Z with (k + 2)%Z in Hd by lia. split; [exact Hd|].
    change (Bminus mode_NE (@ema_of I (wgt nf) vs) (@ema_of I (wgt ns) vs)) with d in Rd.
    set (f := B2R (@ema_of I (wgt nf) vs : f32)) in *. set (s := B2R (@ema_of I (wgt ns) vs : f32)) in *.
    rewrite <- two_eq in Bf, Bs.
    assert (Hfs : Rabs (f - s) <= 4 * B).
    { unfold Rminus. eapply Rle_trans; [apply Rabs_triang|]. rewrite Rabs_Ropp. lra. }
    pose proof (rnd_abs_err _ _ Hfs) as Er. pose proof (eta_small k ltac:(lia)) as Eta. unfold u24 in *.
    change (@flt I) with f32 in *. rewrite Rd. pose proof (bpow_gt_0 radix2 k) as HB.
    set (F0 := Rema (2 / (1 + IZR nf)) (map B2R vs)) in *. set (S0 := Rema (2 / (1 + IZR ns)) (map B2R vs)) in *.
    replace (rnd (f - s) - (F0 - S0)) with ((rnd (f - s) - (f - s)) + ((f - F0) + - (s - S0))) by ring.
    eapply Rle_trans; [apply Rabs_triang|]. eapply Rle_trans; [apply Rplus_le_compat_l, Rabs_triang|]. rewrite Rabs_Ropp. lra.
  Qed.

  Lemma macd_series_err nf ns (vs : list f32) : (1 <= nf < 2 ^ 20)%Z -> (1 <= ns < 2 ^ 20)%Z -> Forall (bnd k) vs ->
    Forall (bnd (k + 2)) (@macd_series I (wgt nf) (wgt ns) vs : list f32) /\
    Forall2 (fun x y => Rabs (x - y) <= / 2097152 * B * (IZR nf + IZR ns + 3))
      (map B2R (@macd_series I (wgt nf) (wgt ns) vs : list f32))
      (Rmacd (2 / (1 + IZR nf)) (2 / (1 + IZR ns)) (map B2R vs)).
  Proof.
    intros Hf Hs HF. unfold macd_series, Rmacd. rewrite map_length.
    assert (Hpre : forall i, Forall (bnd k) (firstn i vs)).
    { intros i. apply Forall_forall. intros x Hx. rewrite Forall_forall in HF. apply HF.
      rewrite <- (firstn_skipn i vs). apply in_or_app. left. exact Hx. }
    split.
    - apply Forall_map. apply Forall_forall. intros i _. apply (series_err nf ns (firstn i vs) Hf Hs (Hpre i)).
    - match goal with |- Forall2 _ (map _ (map _ ?a)) (map _ ?b) => change b with a; generalize a end. intros l. induction l as [|i l IH]; cbn [map]; constructor; [|exact IH].
      rewrite firstn_map. apply (series_err nf ns (firstn i vs) Hf Hs (Hpre i)).
  Qed.

  (** The signal line. *)
  Lemma signal_err nf ns ng (vs : list f32) :
    (1 <= nf < 2 ^ 20)%Z -> (1 <= ns < 2 ^ 20)%Z -> (1 <= ng < 2 ^ 20)%Z -> Forall (bnd k) vs ->
    let g : f32 := @ema_of I (wgt ng) (@macd_series I (wgt nf) (wgt ns) vs) in
    bnd (k + 3) g /\
    Rabs (B2R g - Rema (2 / (1 + IZR ng)) (Rmacd (2 / (1 + IZR nf)) (2 / (1 + IZR ns)) (map B2R vs)))
      <= / 2097152 * B * (IZR nf + IZR ns + 4 * IZR ng + 7).
  Proof.
    intros Hf Hs Hg HF g. destruct (macd_series_err nf ns vs Hf Hs HF) as (HB2 & H2).
    set (xs := @macd_series I (wgt nf) (wgt ns) vs : list f32) in *.
    destruct (ema_two (k + 2) ng xs ltac:(lia) Hg HB2) as (Fg & Eg).
    change (@ema_of I (wgt ng) xs) with g in Fg, Eg.
    assert (NF : 1 <= IZR nf) by (apply IZR_le; lia). assert (NS : 1 <= IZR ns) by (apply IZR_le; lia).
    assert (NG : 1 <= IZR ng) by (apply IZR_le; lia).
    assert (NG2 : IZR ng + 1 <= 1048576) by (rewrite <- plus_IZR; apply IZR_le; lia).
    pose proof (bpow_gt_0 radix2 k) as HB.
    assert (HWg : 0 <= 2 / (1 + IZR ng) <= 1).
    { split; [apply Rle_mult_inv_pos; lra|]. apply Rmult_le_reg_r with (1 + IZR ng); [lra|]. unfold Rdiv. rewrite Rmult_assoc, Rinv_l; lra. }
    assert (E4 : bpow radix2 (k + 2) = 4 * B) by (rewrite bpow_plus; change (bpow radix2 2) with 4; ring).
    assert (E8 : bpow radix2 (k + 3) = 8 * B) by (rewrite bpow_plus; change (bpow radix2 3) with 8; ring).
    assert (HR : Rabs (Rema (2 / (1 + IZR ng)) (map B2R xs)) <= 4 * B).
    { rewrite <- E4. apply Rema_bound; [apply bpow_ge_0|exact HWg|]. apply Forall_map. eapply Forall_impl; [|exact HB2]. intros a Ha. apply Ha. }
    rewrite E4 in Eg.
    assert (Hmax : / 2097152 * (4 * B) * (1 + IZR ng) <= / 2097152 * (4 * B) * 1048576) by (apply Rmult_le_compat_l; lra).
    split.
    - split; [exact Fg|]. rewrite E8.
      replace (B2R g) with (Rema (2 / (1 + IZR ng)) (map B2R xs) + (B2R g - Rema (2 / (1 + IZR ng)) (map B2R xs))) by ring.
      eapply Rle_trans; [apply Rabs_triang|]. lra.
    - assert (HD : 0 <= / 2097152 * B * (IZR nf + IZR ns + 3)).
      { apply Rmult_le_pos; [|lra]. lra. }
      pose proof (Rema_inputs (2 / (1 + IZR ng)) _ HWg _ _ HD H2) as Ei.
      set (X := Rema (2 / (1 + IZR ng)) (map B2R xs)) in *.
      set (Y := Rema (2 / (1 + IZR ng)) (Rmacd (2 / (1 + IZR nf)) (2 / (1 + IZR ns)) (map B2R vs))) in *.
      replace (B2R g - Y) with ((B2R g - X) + (X - Y)) by ring.
      eapply Rle_trans; [apply Rabs_triang|]. lra.
  Qed.

  (** The divergence. *)
  Lemma divergence_err nf ns ng (vs : list f32) :
    (1 <= nf < 2 ^ 20)%Z -> (1 <= ns < 2 ^ 20)%Z -> (1 <= ng < 2 ^ 20)%Z -> Forall (bnd k) vs ->
    let d : f32 := @fsub I (@fsub I (@ema_of I (wgt nf) vs) (@ema_of I (wgt ns) vs))
                           (@ema_of I (wgt ng) (@macd_series I (wgt nf) (wgt ns) vs)) in
    is_finite d = true /\
    Rabs (B2R d - ((Rema (2 / (1 + IZR nf)) (map B2R vs) - Rema (2 / (1 + IZR ns)) (map B2R vs))
                   - Rema (2 / (1 + IZR ng)) (Rmacd (2 / (1 + IZR nf)) (2 / (1 + IZR ns)) (map B2R vs))))
      <= / 2097152 * B * (2 * IZR nf + 2 * IZR ns + 4 * IZR ng + 12).
  Proof.
    intros Hf Hs Hg HF d. destruct (series_err nf ns vs Hf Hs HF) as (Ba & Ea).
    destruct (signal_err nf ns ng vs Hf Hs Hg HF) as (Bg & Eg).
    set (a := @fsub I (@ema_of I (wgt nf) vs) (@ema_of I (wgt ns) vs) : f32) in *.
    set (g := @ema_of I (wgt ng) (@macd_series I (wgt nf) (wgt ns) vs) : f32) in *.
    destruct (Bminus_bnd (k + 3) a g ltac:(lia) (bnd_weaken (k + 2) (k + 3) a ltac:(lia) Ba) Bg) as ((Fd & _) & Rd).
    change (Bminus mode_NE a g) with d in Fd, Rd. split; [exact Fd|].
    destruct Ba as (_ & Ba). destruct Bg as (_ & Bg). pose proof (bpow_gt_0 radix2 k) as HB.
    assert (E4 : bpow radix2 (k + 2) = 4 * B) by (rewrite bpow_plus; change (bpow radix2 2) with 4; ring).
    assert (E8 : bpow radix2 (k + 3) = 8 * B) by (rewrite bpow_plus; change (bpow radix2 3) with 8; ring).
    rewrite E4 in Ba. rewrite E8 in Bg.
    assert (Hag : Rabs (B2R a - B2R g) <= 12 * B).
    { unfold Rminus. eapply Rle_trans; [apply Rabs_triang|]. rewrite Rabs_Ropp. lra. }
    pose proof (rnd_abs_err _ _ Hag) as Er. pose proof (eta_small k ltac:(lia)) as Eta. unfold u24 in *. rewrite Rd.
    set (A0 := Rema (2 / (1 + IZR nf)) (map B2R vs) - Rema (2 / (1 + IZR ns)) (map B2R vs)) in *.
    set (G0 := Rema (2 / (1 + IZR ng)) (Rmacd (2 / (1 + IZR nf)) (2 / (1 + IZR ns)) (map B2R vs))) in *.
    replace (rnd (B2R a - B2R g) - (A0 - G0)) with ((rnd (B2R a - B2R g) - (B2R a - B2R g)) + ((B2R a - A0) + - (B2R g - G0))) by ring.
    change (@flt I) with f32 in *.
    eapply Rle_trans; [apply Rabs_triang|]. eapply Rle_trans; [apply Rplus_le_compat_l, Rabs_triang|]. rewrite Rabs_Ropp. lra.
  Qed.
End Macd.
