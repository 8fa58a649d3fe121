(** The float volatility against the exact one. *)
From Coq Require Import Reals ZArith Bool List Lia Lra.
From Flocq Require Import Core BinarySingleNaN Relative.
From Verif.Model Require Import Outcome Machine Types Indicators MachineR MachineIEEE.
From Verif.Spec Require Import SeriesSpec IndicatorSpec VolSpec.
From Verif.Proofs Require Import Base FloatLemmas FloatErr SeriesProofs LastNProofs HelperProofs MeanProofs DriftProofs
     EvalFloat ScoreFloat VarFloat SdLipschitz VolProofs.
Import ListNotations.
Local Open Scope R_scope.

Lemma ln_1p x : Rabs x <= / 4 -> Rabs (ln (1 + x)) <= 2 * Rabs x.
Proof.
  intros H. apply Rabs_le_inv in H.
  assert (K : forall y, - / 4 <= y <= / 4 -> ln (1 + y) <= y).
  { intros y Hy. rewrite <- (ln_exp y) at 2. destruct (Req_dec y 0) as [->|E]; [rewrite Rplus_0_r, exp_0; lra|].
    left. apply ln_increasing; [lra|]. apply exp_ineq1. exact E. }
  assert (K2 : - (2 * Rabs x) <= ln (1 + x)).
  { replace (ln (1 + x)) with (- ln (1 + - x / (1 + x))).
    - assert (B : - / 2 <= - x / (1 + x) <= / 2).
      { split; apply Rmult_le_reg_r with (1 + x); try lra; unfold Rdiv; rewrite Rmult_assoc, Rinv_l by lra; lra. }
      assert (L : ln (1 + - x / (1 + x)) <= - x / (1 + x)).
      { rewrite <- (ln_exp (- x / (1 + x))) at 2. destruct (Req_dec (- x / (1 + x)) 0) as [E|E]; [rewrite E, Rplus_0_r, exp_0; lra|].
        left. apply ln_increasing; [lra|]. apply exp_ineq1. exact E. }
      assert (L2 : - x / (1 + x) <= 2 * Rabs x).
      { apply Rmult_le_reg_r with (1 + x); [lra|]. unfold Rdiv. rewrite Rmult_assoc, Rinv_l by lra.
        unfold Rabs. destruct (Rcase_abs x); nra. }
      lra.
    - rewrite <- ln_Rinv by (replace (1 + - x / (1 + x)) with (/ (1 + x)) by (field; lra); apply Rinv_0_lt_compat; lra).
      f_equal. field. lra. }
  specialize (K x H). apply Rabs_le. split; [exact K2|]. eapply Rle_trans; [exact K|]. pose proof (Rle_abs x). pose proof (Rabs_pos x). lra.
Qed.

Lemma last_map {A B} (f : A -> B) l d : last (map f l) (f d) = f (last l d).
Proof. induction l as [|x l IH]; [reflexivity|]. cbn [map last]. rewrite IH. destruct l; reflexivity. Qed.

Lemma filter_map {A B} (f : A -> B) (p : B -> bool) l : filter p (map f l) = map f (filter (fun x => p (f x)) l).
Proof. induction l as [|x l IH]; [reflexivity|]. cbn [map filter]. rewrite IH. destruct (p (f x)); reflexivity. Qed.

Lemma Forall2_skipn {A B} (P : A -> B -> Prop) n l l' : Forall2 P l l' -> Forall2 P (skipn n l) (skipn n l').
Proof. revert l l'. induction n as [|n IH]; intros l l' H; [exact H|]. destruct H; [constructor|]. cbn [skipn]. apply IH. assumption. Qed.
Lemma Forall2_len {A B} (P : A -> B -> Prop) l l' : Forall2 P l l' -> length l = length l'.
Proof. induction 1; cbn; congruence. Qed.
Lemma Forall2_last_or_all {A B} (P : A -> B -> Prop) n l l' : Forall2 P l l' -> Forall2 P (last_or_all n l) (last_or_all n l').
Proof.
  intros H. unfold last_or_all. destruct (n =? 0)%Z; [exact H|]. unfold lastn. rewrite (Forall2_len P l l' H). apply Forall2_skipn. exact H.
Qed.

Section Vol.
  Context (lm : libm) (as_ : bool) (sh : R -> String.string) (as' : bool).
  Local Notation I := (ieee lm as_).
  Local Notation E := (exact sh as').
  Local Notation real := (real_update lm as_ sh as').
  Local Notation rtick := (real_tick lm as_ sh as').

  Definition u3 : R := 3 * / 16777216.
  (** f is the float v up to a relative error. *)
  Definition close_to (f : f32) (v : R) : Prop :=
    is_finite f = true /\ exists a, Rabs a <= u3 /\ B2R f = v * (1 + a).
  Definition wide (v : R) : Prop := bpow radix2 (-60) <= v <= bpow radix2 60.

  Lemma worth_close (b p q : f32) : is_finite b = true -> 0 <= B2R b -> is_finite p = true -> 0 < B2R p ->
    is_finite q = true -> 0 <= B2R q -> wide (B2R b * B2R p + B2R q) ->
    close_to (Bplus mode_NE (Bmult mode_NE b p) q) (B2R b * B2R p + B2R q).
  Proof.
    intros Fb Hb Fp Hp Fq Hq (Hw1 & Hw2). set (w := B2R b * B2R p + B2R q) in *.
    pose proof (bpow_gt_0 radix2 (-60)) as P60.
    assert (Hbp : 0 <= B2R b * B2R p) by (apply Rmult_le_pos; lra).
    assert (Eta : bpow radix2 (-150) <= / 16777216 / 16777216 * w).
    { apply Rle_trans with (/ 16777216 / 16777216 * bpow radix2 (-60)).
      - replace (/ 16777216 / 16777216) with (bpow radix2 (-48)) by (change (bpow radix2 (-48)) with (/ 281474976710656); field).
        rewrite <- bpow_plus. apply bpow_le. lia.
      - apply Rmult_le_compat_l; [lra|exact Hw1]. }
    set (eta := bpow radix2 (-150)) in *. assert (He0 : 0 < eta) by apply bpow_gt_0.
    pose proof (Bmult_correct 24 128 _ _ mode_NE b p) as H. cbn [round_mode] in H.
    rewrite (no_overflow _ 60) in H; [|lia|rewrite Rabs_pos_eq by exact Hbp; unfold w in *; lra].
    destruct H as (HR & HF & _). rewrite Fb, Fp in HF. set (m := Bmult mode_NE b p) in *. clearbody m.
    change (round radix2 (SpecFloat.fexp 24 128) ZnearestE (B2R b * B2R p)) with (rnd (B2R b * B2R p)) in HR.
    destruct (rnd_err (B2R b * B2R p)) as (d & e & Er & Hd & He). rewrite Er in HR.
    change (bpow radix2 (-24)) with (/ 16777216) in Hd. fold eta in He.
    assert (Hm : Rabs (B2R m + B2R q - w) <= / 16777216 * w + eta).
    { rewrite HR. replace (B2R b * B2R p * (1 + d) + e + B2R q - w) with (B2R b * B2R p * d + e) by (unfold w; ring).
      eapply Rle_trans; [apply Rabs_triang|]. apply Rplus_le_compat; [|exact He].
      rewrite Rabs_mult, Rmult_comm, (Rabs_pos_eq (B2R b * B2R p)) by exact Hbp. apply Rmult_le_compat; auto using Rabs_pos. unfold w. lra. }
    assert (Hw0 : 0 < w) by lra.
    assert (Hm2 : Rabs (B2R m + B2R q) <= 2 * w).
    { replace (B2R m + B2R q) with (w + (B2R m + B2R q - w)) by ring. eapply Rle_trans; [apply Rabs_triang|]. rewrite (Rabs_pos_eq w) by lra. lra. }
    pose proof (Bplus_correct 24 128 _ _ mode_NE m q HF Fq) as K. cbn [round_mode] in K.
    rewrite (no_overflow _ 61) in K; [|lia|].
    2: { eapply Rle_trans; [exact Hm2|]. change 61%Z with (60 + 1)%Z. rewrite bpow_plus. change (bpow radix2 1) with 2. lra. }
    destruct K as (KR & KF & _). split; [exact KF|].
    change (round radix2 (SpecFloat.fexp 24 128) ZnearestE (B2R m + B2R q)) with (rnd (B2R m + B2R q)) in KR.
    destruct (rnd_err (B2R m + B2R q)) as (d' & e' & Er' & Hd' & He'). rewrite Er' in KR.
    change (bpow radix2 (-24)) with (/ 16777216) in Hd'. fold eta in He'.
    exists ((B2R (Bplus mode_NE m q) - w) / w). split; [|field; lra].
    unfold Rdiv. rewrite Rabs_mult, (Rabs_pos_eq (/ w)) by (apply Rlt_le, Rinv_0_lt_compat; exact Hw0).
    apply Rmult_le_reg_r with w; [exact Hw0|]. rewrite Rmult_assoc, Rinv_l, Rmult_1_r by lra.
    rewrite KR. replace ((B2R m + B2R q) * (1 + d') + e' - w) with ((B2R m + B2R q - w) + w * d' + (B2R m + B2R q - w) * d' + e') by ring.
    eapply Rle_trans; [apply Rabs_triang|]. eapply Rle_trans; [apply Rplus_le_compat_r, Rabs_triang|].
    eapply Rle_trans; [apply Rplus_le_compat_r, Rplus_le_compat_r, Rabs_triang|].
    rewrite !Rabs_mult, (Rabs_pos_eq w) by lra.
    assert (w * Rabs d' <= w * / 16777216) by (apply Rmult_le_compat_l; lra).
    assert (Rabs (B2R m + B2R q - w) * Rabs d' <= (/ 16777216 * w + eta) * / 16777216).
    { apply Rmult_le_compat; auto using Rabs_pos. }
    unfold u3. lra.
  Qed.

  Lemma sound_close x y : sound_update lm as_ x -> sound_update lm as_ y ->
    wide (@IndicatorSpec.worth E (real x) (close (bu_tick (real y)))) ->
    close_to (@IndicatorSpec.worth I x (close (bu_tick y))) (@IndicatorSpec.worth E (real x) (close (bu_tick (real y)))).
  Proof.
    intros (_ & _ & _ & _ & X1 & X2 & X3 & X4) (_ & _ & Y1 & Y2 & _). apply (worth_close (bu_base x) (close (bu_tick y)) (bu_quote x)); assumption.
  Qed.
  Lemma sound_open x : sound_update lm as_ x -> wide (@IndicatorSpec.worth E (real x) (open (bu_tick (real x)))) ->
    close_to (@IndicatorSpec.worth I x (open (bu_tick x))) (@IndicatorSpec.worth E (real x) (open (bu_tick (real x)))).
  Proof.
    intros (Y1 & Y2 & _ & _ & X1 & X2 & X3 & X4). apply (worth_close (bu_base x) (open (bu_tick x)) (bu_quote x)); assumption.
  Qed.

  Lemma not_wide_0 : ~ wide 0.
  Proof. intros (H & _). pose proof (bpow_gt_0 radix2 (-60)). lra. Qed.

  Lemma value_close p (xs : list (@balance_update I)) b : Forall (sound_update lm as_) xs ->
    wide (@value_at E p (map real xs) b) -> close_to (@value_at I p xs b) (@value_at E p (map real xs) b).
  Proof.
    intros HF. unfold value_at. rewrite !filter_map, <- !map_rev.
    change (fun x => (bucket_of p (bu_tick (real x)) =? b)%Z) with (fun x : @balance_update I => (bucket_of p (bu_tick x) =? b)%Z).
    change (fun x => (bucket_of p (bu_tick (real x)) <? b)%Z) with (fun x : @balance_update I => (bucket_of p (bu_tick x) <? b)%Z).
    change (fun x => (b <? bucket_of p (bu_tick (real x)))%Z) with (fun x : @balance_update I => (b <? bucket_of p (bu_tick x))%Z).
    assert (Hin : forall f x l, rev (filter f xs) = x :: l -> sound_update lm as_ x).
    { intros f x l H. rewrite Forall_forall in HF. apply HF.
      assert (K : In x (rev (filter f xs))) by (rewrite H; left; reflexivity). apply in_rev, filter_In in K. apply K. }
    destruct (rev (filter (fun x : @balance_update I => (bucket_of p (bu_tick x) =? b)%Z) xs)) as [|x l] eqn:E1.
    - cbn [map]. destruct (rev (filter (fun x : @balance_update I => (bucket_of p (bu_tick x) <? b)%Z) xs)) as [|y l2] eqn:E2.
      + cbn [map]. intros H. exfalso. exact (not_wide_0 H).
      + cbn [map]. destruct (filter (fun x : @balance_update I => (b <? bucket_of p (bu_tick x))%Z) xs) as [|z l3] eqn:E3.
        * cbn [map]. intros H. exfalso. exact (not_wide_0 H).
        * cbn [map]. apply sound_close; [|eapply Hin; exact E2].
          rewrite Forall_forall in HF. apply HF.
          assert (K : In z (filter (fun x : @balance_update I => (b <? bucket_of p (bu_tick x))%Z) xs)) by (rewrite E3; left; reflexivity).
          apply filter_In in K. apply K.
    - cbn [map]. apply sound_close; eapply Hin; exact E1.
  Qed.

  Lemma grid_real p (xs : list (@balance_update I)) :
    @grid E p (map bu_tick (map real xs)) = @grid I p (map bu_tick xs).
  Proof.
    rewrite map_map. change (fun x => bu_tick (real x)) with (fun x : @balance_update I => rtick (bu_tick x)).
    rewrite <- (map_map bu_tick rtick). generalize (map bu_tick xs). intros [|u us]; [reflexivity|].
    cbn [map]. unfold grid. change (rtick u :: map rtick us) with (map rtick (u :: us)). rewrite last_map. reflexivity.
  Qed.

  Lemma values_close p (xs : list (@balance_update I)) : xs <> [] -> Forall (sound_update lm as_) xs ->
    (forall v, In v (@initial_value E (map real xs) :: @period_values E p (map real xs)) -> wide v) ->
    Forall2 (fun f v => close_to f v /\ wide v) (@initial_value I xs :: @period_values I p xs)
            (@initial_value E (map real xs) :: @period_values E p (map real xs)).
  Proof.
    intros Hne HF Hw. constructor.
    - split; [|apply Hw; left; reflexivity]. destruct xs as [|x xs]; [congruence|]. cbn [map initial_value].
      apply sound_open; [inversion HF; assumption|]. apply Hw. left. reflexivity.
    - unfold period_values in *. rewrite grid_real in *.
      assert (H : forall b, In b (@grid I p (map bu_tick xs)) -> wide (@value_at E p (map real xs) b)).
      { intros b Hb. apply Hw. right. apply in_map. exact Hb. }
      revert H. generalize (@grid I p (map bu_tick xs)) as g. clear Hw. intros g. induction g as [|b g IH]; intros H; [constructor|].
      cbn [map]. constructor; [|apply IH; intros; apply H; right; assumption].
      assert (W := H b (or_introl eq_refl)). split; [|exact W]. apply value_close; assumption.
  Qed.

  Lemma steps_close p (xs : list (@balance_update I)) : xs <> [] -> Forall (sound_update lm as_) xs ->
    (forall v, In v (@initial_value E (map real xs) :: @period_values E p (map real xs)) -> wide v) ->
    Forall2 (fun f v => (close_to (fst f) (fst v) /\ wide (fst v)) /\ (close_to (snd f) (snd v) /\ wide (snd v)))
            (@value_steps I p xs) (@value_steps E p (map real xs)).
  Proof.
    intros Hne HF Hw. pose proof (values_close p xs Hne HF Hw) as H. unfold value_steps. clear Hw HF.
    revert H. generalize (@initial_value I xs) as i. generalize (@initial_value E (map real xs)) as j.
    generalize (@period_values I p xs) as vi. generalize (@period_values E p (map real xs)) as ve.
    change (@flt I) with f32. change (@flt E) with R.
    intros ve vi. revert ve. induction vi as [|a vi IH]; intros ve j i H; inversion H as [|? ? ? ? H1 H2]; subst.
    - inversion H2; subst. constructor.
    - inversion H2 as [|? b ? ve' H3 H4]; subst. cbn [combine]. constructor; [split; assumption|]. apply IH. constructor; assumption.
  Qed.

  (** One logarithmic return. *)
  Lemma return_close f0 f1 v0 v1 : log_accurate lm -> close_to f0 v0 -> wide v0 -> close_to f1 v1 -> wide v1 ->
    is_finite (libm_logf lm (Bdiv mode_NE f0 f1)) = true /\
    Rabs (B2R (libm_logf lm (Bdiv mode_NE f0 f1)) - ln (v0 / v1)) <= / 1048576 * (1 + Rabs (ln (v0 / v1))).
  Proof.
    intros HL (F0 & a & Ha & E0) (W0a & W0b) (F1 & b & Hb & E1) (W1a & W1b).
    pose proof (bpow_gt_0 radix2 (-60)) as P60. unfold u3 in *.
    assert (A := Rabs_le_inv _ _ Ha). assert (B := Rabs_le_inv _ _ Hb).
    assert (Hq : bpow radix2 (-120) <= v0 / v1 <= bpow radix2 120).
    { split; apply Rmult_le_reg_r with v1; try lra; unfold Rdiv; rewrite Rmult_assoc, Rinv_l, Rmult_1_r by lra.
      - apply Rle_trans with (bpow radix2 (-120) * bpow radix2 60); [apply Rmult_le_compat_l; [apply bpow_ge_0|exact W1b]|].
        rewrite <- bpow_plus. exact W0a.
      - apply Rle_trans with (bpow radix2 120 * bpow radix2 (-60)); [rewrite <- bpow_plus; exact W0b|].
        apply Rmult_le_compat_l; [apply bpow_ge_0|exact W1a]. }
    assert (P120 := bpow_gt_0 radix2 (-120)).
    set (r := v0 / v1) in *. set (x := B2R f0 / B2R f1).
    assert (F1pos : 0 < B2R f1) by (rewrite E1; apply Rmult_lt_0_compat; lra).
    assert (Ex : x = r * ((1 + a) / (1 + b))) by (unfold x, r; rewrite E0, E1; field; lra).
    assert (Hab : / 2 <= (1 + a) / (1 + b) <= 2).
    { split; apply Rmult_le_reg_r with (1 + b); try lra; unfold Rdiv; rewrite Rmult_assoc, Rinv_l, Rmult_1_r by lra; lra. }
    assert (Hx : bpow radix2 (-121) <= x <= bpow radix2 121).
    { rewrite Ex. replace (bpow radix2 (-121)) with (bpow radix2 (-120) * / 2) by (change (/ 2) with (bpow radix2 (-1)); rewrite <- bpow_plus; reflexivity).
      replace (bpow radix2 121) with (bpow radix2 120 * 2) by (change 2 with (bpow radix2 1); rewrite <- bpow_plus; reflexivity).
      split; apply Rmult_le_compat; try lra. }
    assert (P121 := bpow_gt_0 radix2 (-121)).
    pose proof (Bdiv_correct 24 128 _ _ mode_NE f0 f1 ltac:(lra)) as K. cbn [round_mode] in K. fold x in K.
    rewrite (no_overflow _ 121) in K; [|lia|rewrite Rabs_pos_eq by lra; apply Hx].
    destruct K as (KR & KF & _). rewrite F0 in KF. set (q := Bdiv mode_NE f0 f1) in *. clearbody q.
    change (B2R q = rnd x) in KR.
    destruct (rel32 x) as (c & Hc & Ec); [rewrite Rabs_pos_eq by lra; eapply Rle_trans; [|apply Hx]; apply bpow_le; lia|].
    assert (C := Rabs_le_inv _ _ Hc). rewrite Ec in KR.
    destruct (HL q KF) as (LF & LE).
    { rewrite KR. assert (bpow radix2 (-125) <= bpow radix2 (-121) * / 2).
      { change (/ 2) with (bpow radix2 (-1)). rewrite <- bpow_plus. apply bpow_le. lia. }
      assert (bpow radix2 121 * 2 <= bpow radix2 125).
      { change 2 with (bpow radix2 1). rewrite <- bpow_plus. apply bpow_le. lia. }
      split.
      - apply Rle_trans with (x * / 2); [lra|]. apply Rmult_le_compat_l; lra.
      - apply Rle_trans with (x * 2); [apply Rmult_le_compat_l; lra|lra]. }
    split; [exact LF|].
    assert (Hln : Rabs (ln (B2R q) - ln r) <= 14 * / 16777216).
    { rewrite KR, Ex. rewrite !ln_mult; try lra; try (apply Rmult_lt_0_compat; lra). unfold Rdiv. rewrite ln_mult by (try lra; apply Rinv_0_lt_compat; lra).
      rewrite ln_Rinv by lra. replace (ln r + (ln (1 + a) + - ln (1 + b)) + ln (1 + c) - ln r) with (ln (1 + a) - ln (1 + b) + ln (1 + c)) by ring.
      eapply Rle_trans; [apply Rabs_triang|]. unfold Rminus. eapply Rle_trans; [apply Rplus_le_compat_r, Rabs_triang|]. rewrite Rabs_Ropp.
      pose proof (ln_1p a ltac:(lra)). pose proof (ln_1p b ltac:(lra)). pose proof (ln_1p c ltac:(lra)). lra. }
    assert (T : bpow radix2 (-140) <= / 16777216 * / 16777216).
    { replace (/ 16777216 * / 16777216) with (bpow radix2 (-48)) by (change (bpow radix2 (-48)) with (/ 281474976710656); field). apply bpow_le. lia. }
    replace (/ 2 ^ 22) with (4 * / 16777216) in LE by (field).
    set (L := ln (B2R q)) in *. set (l := ln r) in *.
    assert (HL2 : Rabs L <= Rabs l + 14 * / 16777216).
    { replace L with (l + (L - l)) by ring. eapply Rle_trans; [apply Rabs_triang|]. lra. }
    replace (B2R (libm_logf lm q) - l) with ((B2R (libm_logf lm q) - L) + (L - l)) by ring.
    eapply Rle_trans; [apply Rabs_triang|]. pose proof (Rabs_pos l). lra.
  Qed.

  (** All of them. *)
  Lemma returns_close k p (xs : list (@balance_update I)) : log_accurate lm -> xs <> [] -> Forall (sound_update lm as_) xs ->
    (forall v, In v (@initial_value E (map real xs) :: @period_values E p (map real xs)) -> wide v) ->
    (-18 <= k <= 6)%Z ->
    (forall s, In s (@value_steps E p (map real xs)) -> Rabs (ln (snd s / fst s)) <= bpow radix2 k) ->
    Forall2 (fun (f : f32) r => bnd (k + 1) f /\ Rabs (B2R f - r) <= / 1048576 * (1 + bpow radix2 k))
      (map (fun ab => @flog I (@fdiv I (fst ab) (snd ab))) (@value_steps I p xs))
      (map (fun ab => ln (fst ab / snd ab)) (@value_steps E p (map real xs))).
  Proof.
    intros HL Hne HF Hw Hk Hr. pose proof (steps_close p xs Hne HF Hw) as H. revert H Hr.
    generalize (@value_steps I p xs) as si. generalize (@value_steps E p (map real xs)) as se.
    change (@flt I) with f32. change (@flt E) with R. intros se si H. induction H as [|[f0 f1] [v0 v1] si se H _ IH]; intros Hr; [constructor|].
    cbn [map]. constructor; [|apply IH; intros s Hs; apply Hr; right; exact Hs].
    cbn [fst snd] in *. destruct H as ((H1 & H2) & (H3 & H4)).
    destruct (return_close f0 f1 v0 v1 HL H1 H2 H3 H4) as (F & D). specialize (Hr (v0, v1) (or_introl eq_refl)). cbn [fst snd] in Hr.
    assert (Hsw : Rabs (ln (v0 / v1)) = Rabs (ln (v1 / v0))).
    { rewrite (ln_swap v0 v1), Rabs_Ropp; [reflexivity| |]; [destruct H2 as (H2 & _)|destruct H4 as (H4 & _)];
        pose proof (bpow_gt_0 radix2 (-60)); lra. }
    rewrite <- Hsw in Hr. set (r := ln (v0 / v1)) in *. change (@flog I (@fdiv I f0 f1)) with (libm_logf lm (Bdiv mode_NE f0 f1)).
    set (g := libm_logf lm (Bdiv mode_NE f0 f1)) in *.
    assert (HB : bpow radix2 (-18) <= bpow radix2 k) by (apply bpow_le; lia). change (bpow radix2 (-18)) with (/ 262144) in HB.
    assert (D2 : Rabs (B2R g - r) <= / 1048576 * (1 + bpow radix2 k)).
    { eapply Rle_trans; [exact D|]. apply Rmult_le_compat_l; lra. }
    split; [|exact D2]. split; [exact F|]. rewrite bpow_plus. change (bpow radix2 1) with 2.
    replace (B2R g) with (r + (B2R g - r)) by ring. eapply Rle_trans; [apply Rabs_triang|]. lra.
  Qed.

  Lemma Forall2_pairs (P : f32 -> R -> Prop) (lf : list f32) (lr : list R) : Forall2 P lf lr ->
    exists l, map fst l = lf /\ map snd l = lr /\ Forall (fun x => P (fst x) (snd x)) l.
  Proof.
    induction 1 as [|f r lf lr H _ (l & <- & <- & HF)]; [exists []; repeat split; constructor|].
    exists ((f, r) :: l). cbn [map fst snd]. repeat split. constructor; assumption.
  Qed.

  (** The float standard deviation of float returns close to exact ones. *)
  Lemma vol_sd n k d (lf : list f32) (lr : list R) : (0 <= n)%Z -> (-50 <= k <= 50)%Z -> 0 <= d ->
    Forall2 (fun f r => bnd k f /\ Rabs (B2R f - r) <= d) lf lr -> (Z.of_nat (length lf) <= 2 ^ 19)%Z ->
    let f : f32 := @mv_GetStandardDeviation I (@mv_of I n lf) in
    let v := sqrt (variance (last_or_all n lr)) in
    let tol := sqrt (INR (length lf)) * / 256 * bpow radix2 k + d in
    (is_finite f = true \/ (is_nan f = true /\ v <= tol)) /\
    (is_finite f = true -> 0 <= B2R f /\ Rabs (B2R f - v) <= tol).
  Proof.
    intros Hn Hk Hd H HL f v tol.
    assert (HF : Forall (bnd k) lf).
    { clear - H. induction H as [|a b la lb (H1 & _) _ IH]; constructor; assumption. }
    assert (HD : Rabs (sqrt (variance (reals (last_or_all n lf))) - v) <= d).
    { destruct (Forall2_pairs _ _ _ (Forall2_last_or_all _ n _ _ H)) as (l & E1 & E2 & E3).
      unfold v. rewrite <- E1, <- E2. unfold reals. rewrite map_map.
      pose proof (sd_lipschitz (map (fun x : f32 * R => (B2R (fst x), snd x)) l) d Hd) as K. rewrite !map_map in K. cbn [fst snd] in K.
      apply K. intros x Hx. apply in_map_iff in Hx as (y & <- & Hy). cbn [fst snd]. rewrite Forall_forall in E3. apply E3. exact Hy. }
    destruct (sd_err lm as_ k Hk n lf Hn HF HL) as (S1 & S2). fold f in S1, S2.
    set (w := variance (reals (last_or_all n lf))) in *. pose proof (bpow_gt_0 radix2 k) as HB.
    pose proof (Rabs_le_inv _ _ HD) as HD2. split.
    - destruct S1 as [S1|(S1 & S3)]; [left; exact S1|right]. split; [exact S1|].
      assert (Hw : sqrt w <= sqrt (INR (length lf)) * / 256 * bpow radix2 k).
      { eapply Rle_trans; [apply sqrt_le_1_alt; exact S3|]. rewrite <- (bk_sq k).
        rewrite Rmult_assoc, sqrt_mult_alt by apply pos_INR. rewrite Rmult_assoc. apply Rmult_le_compat_l; [apply sqrt_pos|].
        rewrite sqrt_mult_alt by lra. rewrite sqrt_square by lra. apply Rmult_le_compat_r; [lra|].
        rewrite <- (sqrt_Rsqr (/ 256)) by lra. apply sqrt_le_1_alt. unfold Rsqr. lra. }
      unfold tol. lra.
    - intros Ff. destruct (S2 Ff) as (P & Q & _). split; [exact P|].
      replace (B2R f - v) with ((B2R f - sqrt w) + (sqrt w - v)) by ring. eapply Rle_trans; [apply Rabs_triang|]. unfold tol. lra.
  Qed.
End Vol.
