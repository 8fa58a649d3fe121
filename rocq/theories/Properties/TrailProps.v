(** C119: how fast the trailing stop moves in single precision. *)
From Coq Require Import Reals ZArith Bool List Lia Lra.
From Flocq Require Import Core BinarySingleNaN.
From Verif.Model Require Import Outcome Machine Types Account Eval Traders MachineR MachineIEEE.
From Verif.Spec Require Import OrderSpec AccountIEEESpec TraderSpec TrailSpec.
From Verif.Proofs Require Import Base FloatLemmas OrderLaws FloatErr TraderProofs StopFloat TrailFloat.
Import ListNotations.
Local Open Scope R_scope.

Section Trail.
  Context (lm : libm) (as_ : bool) (c : @stop_config (ieee lm as_)).
  Context (Hlm : accurate lm) (C : ok_stop c) (HR : ok_rates c).
  Local Notation I := (ieee lm as_).

  Lemma sound_at vs ps k p : Forall ok_view vs -> @stop_prices I c vs ps -> nth_error ps k = Some p -> sound p.
  Proof.
    intros V H Hk. pose proof (stop_prices_sound lm as_ c vs ps C V H) as G. rewrite Forall_forall in G.
    apply G. apply nth_error_In in Hk. exact Hk.
  Qed.

  Lemma in_hour (v0 v : @view I) : ~ new_position v0 v -> (v_time v0 < v_time v)%Z -> (1 <= v_time v - v_time v0 < 3600)%Z.
  Proof. intros N T. unfold new_position in N. apply Classical_Prop.not_or_and in N. lia. Qed.

  (** One update: the stop goes where it should, up to a relative error of 2^-22. *)
  Theorem C119_step vs (ps : list f32) i v0 v (p0 p : f32) :
    Forall ok_view vs -> @stop_prices I c vs ps ->
    nth_error vs i = Some v0 -> nth_error vs (S i) = Some v ->
    nth_error ps i = Some p0 -> nth_error ps (S i) = Some p ->
    ~ new_position v0 v -> (v_time v0 < v_time v)%Z ->
    exists q, Rabs (q - B2R p0 * rate c v0 v) <= bpow radix2 (-22) * (B2R p0 * rate c v0 v)
      /\ trails c v (B2R p0) q (B2R p).
  Proof.
    intros V H H1 H2 H3 H4 Hn Ht. pose proof (sound_at vs ps i p0 V H H3) as S.
    pose proof (proj1 (stop_prices_chain _ _ _) H) as Hc.
    destruct (chain_nth c vs stop_init ps Hc i v0 v p0 p H1 H2 H3 H4) as (_ & Hp).
    assert (Vv : ok_view v) by (rewrite Forall_forall in V; apply V; apply nth_error_In in H2; exact H2).
    eexists. split; [|exact (step_val lm as_ c v0 v p0 p Hlm C HR Vv S Hp Hn Ht)].
    apply (target_err lm as_); auto. apply in_hour; assumption.
  Qed.

  (** ** A stretch of one position *)
  Lemma rate_pos v0 v : 0 < rate c v0 v.
  Proof. unfold rate. destruct (is_long v); apply exp_pos. Qed.

  Lemma rate_trans v0 v1 v2 : is_long v1 = is_long v2 -> rate c v0 v1 * rate c v1 v2 = rate c v0 v2.
  Proof.
    intros L. unfold rate. rewrite L.
    assert (D : IZR (v_time v1 - v_time v0) / 86400 + IZR (v_time v2 - v_time v1) / 86400 = IZR (v_time v2 - v_time v0) / 86400)
      by (rewrite !minus_IZR; lra).
    destruct (is_long v2); rewrite <- Rpower_plus, D; reflexivity.
  Qed.

  Lemma rate_self v : rate c v v = 1.
  Proof.
    unfold rate. rewrite Z.sub_diag. replace (0 / 86400) with 0 by lra.
    destruct (is_long v); unfold Rpower; rewrite Rmult_0_l; apply exp_0.
  Qed.

  Lemma rate_long v0 v : is_long v = true -> (v_time v0 < v_time v)%Z -> 1 <= rate c v0 v.
  Proof.
    intros L T. unfold rate. rewrite L. unfold Rpower. destruct HR as ((_ & R1) & _). change (0 <= B2R (stop_order_increase_per_day c : f32) <= 1) in R1.
    set (x := B2R (stop_order_increase_per_day c : f32)) in *. clearbody x.
    assert (0 < IZR (v_time v - v_time v0)) by (apply IZR_lt; lia). set (d := IZR (v_time v - v_time v0)) in *. clearbody d.
    pose proof (exp_ge (d / 86400 * ln (1 + x))) as E.
    assert (0 <= ln (1 + x)). { destruct (Req_dec x 0) as [->|N]; [rewrite Rplus_0_r, ln_1; lra|]. left. rewrite <- ln_1. apply ln_increasing; lra. }
    nra.
  Qed.

  Lemma rate_cash v0 v : is_long v = false -> (v_time v0 < v_time v)%Z -> rate c v0 v <= 1.
  Proof.
    intros L T. unfold rate. rewrite L. unfold Rpower. destruct HR as (_ & (_ & R1)). change (0 <= B2R (stop_order_decrease_per_day c : f32) <= / 2) in R1.
    set (x := B2R (stop_order_decrease_per_day c : f32)) in *. clearbody x.
    assert (0 < IZR (v_time v - v_time v0)) by (apply IZR_lt; lia). set (d := IZR (v_time v - v_time v0)) in *. clearbody d.
    assert (ln (1 - x) <= 0) by (pose proof (ln_le_minus (1 - x) ltac:(lra)); lra).
    assert (N : d / 86400 * ln (1 - x) <= 0) by nra.
    destruct N as [N|N]; [|rewrite N, exp_0; lra]. left. apply Rlt_le_trans with (exp 0); [apply exp_increasing; exact N|rewrite exp_0; lra].
  Qed.

  (** Induction over a stretch. *)
  Lemma along vs (ps : list f32) i j vi (pi : f32) (P : nat -> view -> R -> Prop) :
    @stop_prices I c vs ps -> one_position vs i j -> nth_error vs i = Some vi -> nth_error ps i = Some pi ->
    P O vi (B2R pi) ->
    (forall d v0 v (p0 p : f32), (i + d < j)%nat -> nth_error vs (i + d) = Some v0 -> nth_error vs (S (i + d)) = Some v ->
       nth_error ps (i + d) = Some p0 -> nth_error ps (S (i + d)) = Some p -> is_long v0 = is_long vi -> is_long v = is_long vi ->
       ~ new_position v0 v -> (v_time v0 < v_time v)%Z -> P d v0 (B2R p0) -> P (S d) v (B2R p)) ->
    forall vj (pj : f32), (i <= j)%nat -> nth_error vs j = Some vj -> nth_error ps j = Some pj ->
    is_long vj = is_long vi /\ P (j - i)%nat vj (B2R pj).
  Proof.
    intros H HO Hi Pi P0 HS.
    assert (K : forall d, (i + d <= j)%nat -> forall (p : f32) v, nth_error ps (i + d) = Some p -> nth_error vs (i + d) = Some v ->
      is_long v = is_long vi /\ P d v (B2R p)).
    { induction d as [|d IH]; intros Hd p v Hp Hv.
      - rewrite Nat.add_0_r in *. assert (p = pi) as -> by congruence. assert (v = vi) as -> by congruence. auto.
      - destruct (nth_error ps (i + d)) as [p0|] eqn:E1.
        2:{ apply nth_error_None in E1. assert (i + S d < List.length ps)%nat by (apply nth_error_Some; congruence). lia. }
        destruct (nth_error vs (i + d)) as [v0|] eqn:E2.
        2:{ apply nth_error_None in E2. assert (i + S d < List.length vs)%nat by (apply nth_error_Some; congruence). lia. }
        destruct (IH ltac:(lia) p0 v0 eq_refl eq_refl) as (L & B).
        replace (i + S d)%nat with (S (i + d)) in * by lia.
        destruct (HO (i + d)%nat v0 v ltac:(lia) E2 Hv) as (N & T).
        assert (L' : is_long v = is_long v0).
        { destruct (Bool.bool_dec (is_long v) (is_long v0)); auto. exfalso. apply N. left. assumption. }
        split; [congruence|]. apply (HS d v0 v p0 p); auto; try lia; congruence. }
    intros vj pj Hij Hj Pj. apply K; [lia| |]; replace (i + (j - i))%nat with j by lia; auto.
  Qed.

  (** Over any stretch of one position the stop moves by at most the compounded daily rate, up
      to a relative error of 2^-22 per update; and by no less while the margin does not hold it back. *)
  Theorem C119_stretch vs (ps : list f32) i j vi vj (pi pj : f32) :
    Forall ok_view vs -> @stop_prices I c vs ps -> one_position vs i j -> (i <= j)%nat ->
    nth_error vs i = Some vi -> nth_error vs j = Some vj ->
    nth_error ps i = Some pi -> nth_error ps j = Some pj ->
    let goal := B2R pi * rate c vi vj in
    let upper := goal * (1 + bpow radix2 (-22)) ^ (j - i) in
    let lower := goal * (1 - bpow radix2 (-22)) ^ (j - i) in
    (if is_long vi then B2R pi <= B2R pj <= upper else lower <= B2R pj <= B2R pi)
    /\ ((forall k v p, (i < k <= j)%nat -> nth_error vs k = Some v -> nth_error ps k = Some p -> free c v (B2R p)) ->
        if is_long vi then lower <= B2R pj else B2R pj <= upper).
  Proof.
    intros V H HO Hij Hi Hj Pi Pj. cbv zeta.
    assert (U : forall k (p : f32), nth_error ps k = Some p -> 0 < B2R p).
    { intros k p Hk. destruct (sound_at vs ps k p V H Hk) as (_ & Q & _). pose proof (bpow_gt_0 radix2 (-124)). lra. }
    pose proof (U i pi Pi) as P0.
    assert (e0 : 0 < bpow radix2 (-22) < / 2) by (change (bpow radix2 (-22)) with (/ 4194304); lra).
    set (e := bpow radix2 (-22)) in *.
    split.
    - destruct (along vs ps i j vi pi (fun d v p => if is_long vi then B2R pi <= p <= B2R pi * rate c vi v * (1 + e) ^ d
                                                else B2R pi * rate c vi v * (1 - e) ^ d <= p <= B2R pi)
                H HO Hi Pi) with (vj := vj) (pj := pj) as (_ & K); auto.
      + rewrite rate_self. cbn [pow]. destruct (is_long vi); lra.
      + intros d v0 v p0 p Hd A1 A2 A3 A4 L0 L N T B. pose proof (U _ _ A3) as Q0.
        destruct (C119_step vs ps (i + d) v0 v p0 p V H A1 A2 A3 A4 N T) as (q & Hq & Tr). fold e in Hq.
        apply Rabs_le_inv in Hq. unfold trails in Tr. rewrite L in Tr.
        rewrite <- (rate_trans vi v0 v) by congruence. pose proof (rate_pos v0 v) as Rp. pose proof (rate_pos vi v0) as Rp0.
        pose proof (pow_lt (1 + e) d ltac:(lra)) as E1. pose proof (pow_lt (1 - e) d ltac:(lra)) as E2. cbn [pow].
        destruct (is_long vi).
        * pose proof (rate_long v0 v ltac:(congruence) T) as R1.
          assert (X1 : B2R p0 * 1 <= B2R p0 * rate c v0 v) by (apply Rmult_le_compat_l; lra).
          assert (X2 : B2R p0 * rate c v0 v * (1 + e) <= B2R pi * rate c vi v0 * (1 + e) ^ d * rate c v0 v * (1 + e)).
          { apply Rmult_le_compat_r; [lra|]. apply Rmult_le_compat_r; lra. }
          assert (X3 : 0 < B2R p0 * rate c v0 v) by (apply Rmult_lt_0_compat; lra).
          replace (B2R pi * (rate c vi v0 * rate c v0 v) * ((1 + e) * (1 + e) ^ d)) with (B2R pi * rate c vi v0 * (1 + e) ^ d * rate c v0 v * (1 + e)) by ring.
          assert (X4 : 0 <= B2R p0 * rate c v0 v * e) by (apply Rmult_le_pos; lra).
          rewrite Tr. destruct (Rle_dec _ _); [|lra]. unfold Rmax, Rmin. repeat destruct (Rle_dec _ _); lra.
        * pose proof (rate_cash v0 v ltac:(congruence) T) as R1.
          assert (X1 : B2R p0 * rate c v0 v <= B2R p0 * 1) by (apply Rmult_le_compat_l; lra).
          assert (X2 : B2R pi * rate c vi v0 * (1 - e) ^ d * rate c v0 v * (1 - e) <= B2R p0 * rate c v0 v * (1 - e)).
          { apply Rmult_le_compat_r; [lra|]. apply Rmult_le_compat_r; lra. }
          assert (X3 : 0 < B2R p0 * rate c v0 v) by (apply Rmult_lt_0_compat; lra).
          replace (B2R pi * (rate c vi v0 * rate c v0 v) * ((1 - e) * (1 - e) ^ d)) with (B2R pi * rate c vi v0 * (1 - e) ^ d * rate c v0 v * (1 - e)) by ring.
          assert (X4 : 0 <= B2R p0 * rate c v0 v * e) by (apply Rmult_le_pos; lra).
          rewrite Tr. destruct (Rle_dec _ _); [|lra]. unfold Rmax, Rmin. repeat destruct (Rle_dec _ _); lra.
    - intros HF.
      destruct (along vs ps i j vi pi (fun d v p => if is_long vi then B2R pi * rate c vi v * (1 - e) ^ d <= p
                                                else p <= B2R pi * rate c vi v * (1 + e) ^ d)
                H HO Hi Pi) with (vj := vj) (pj := pj) as (_ & K); auto.
      + rewrite rate_self. cbn [pow]. destruct (is_long vi); lra.
      + intros d v0 v p0 p Hd A1 A2 A3 A4 L0 L N T B. pose proof (U _ _ A3) as Q0.
        destruct (C119_step vs ps (i + d) v0 v p0 p V H A1 A2 A3 A4 N T) as (q & Hq & Tr). fold e in Hq.
        pose proof (HF (S (i + d)) v p ltac:(lia) A2 A4) as Fr. unfold free in Fr. rewrite L in Fr.
        apply Rabs_le_inv in Hq. unfold trails in Tr. rewrite L in Tr.
        rewrite <- (rate_trans vi v0 v) by congruence. pose proof (rate_pos v0 v) as Rp. pose proof (rate_pos vi v0) as Rp0.
        pose proof (pow_lt (1 + e) d ltac:(lra)) as E1. pose proof (pow_lt (1 - e) d ltac:(lra)) as E2. cbn [pow].
        assert (X3 : 0 < B2R p0 * rate c v0 v) by (apply Rmult_lt_0_compat; lra).
        destruct (is_long vi).
        * assert (X2 : B2R pi * rate c vi v0 * (1 - e) ^ d * rate c v0 v * (1 - e) <= B2R p0 * rate c v0 v * (1 - e)).
          { apply Rmult_le_compat_r; [lra|]. apply Rmult_le_compat_r; lra. }
          replace (B2R pi * (rate c vi v0 * rate c v0 v) * ((1 - e) * (1 - e) ^ d)) with (B2R pi * rate c vi v0 * (1 - e) ^ d * rate c v0 v * (1 - e)) by ring.
          assert (X4 : q <= B2R p).
          { revert Fr. rewrite Tr. destruct (Rle_dec _ _); unfold Rmax, Rmin; repeat destruct (Rle_dec _ _); lra. }
          lra.
        * assert (X2 : B2R p0 * rate c v0 v * (1 + e) <= B2R pi * rate c vi v0 * (1 + e) ^ d * rate c v0 v * (1 + e)).
          { apply Rmult_le_compat_r; [lra|]. apply Rmult_le_compat_r; lra. }
          replace (B2R pi * (rate c vi v0 * rate c v0 v) * ((1 + e) * (1 + e) ^ d)) with (B2R pi * rate c vi v0 * (1 + e) ^ d * rate c v0 v * (1 + e)) by ring.
          assert (X4 : B2R p <= q).
          { revert Fr. rewrite Tr. destruct (Rle_dec _ _); unfold Rmax, Rmin; repeat destruct (Rle_dec _ _); lra. }
          lra.
  Qed.

  (** ** A stop that never moves *)
  (** When the daily rate times the seconds between updates is at most 4e-3 (long) or 2e-3 (cash) the stop stays where it was placed, however long the position lasts. *)
  Theorem C119_stuck vs (ps : list f32) i j (pi pj : f32) :
    nearest_exp lm -> Forall ok_view vs -> @stop_prices I c vs ps -> one_position vs i j -> (i <= j)%nat ->
    (forall k v0 v, (i <= k < j)%nat -> nth_error vs k = Some v0 -> nth_error vs (S k) = Some v -> slow c v0 v) ->
    nth_error ps i = Some pi -> nth_error ps j = Some pj -> pj = pi.
  Proof.
    intros Hne V H HO Hij Hs Pi Pj.
    assert (exists vi, nth_error vs i = Some vi) as (vi & Hi).
    { destruct (nth_error vs i) as [vi|] eqn:E; [eauto|]. apply nth_error_None in E.
      assert (i < List.length ps)%nat by (apply nth_error_Some; congruence). destruct H as (_ & Hl). change (@flt I) with f32 in *. lia. }
    assert (exists vj, nth_error vs j = Some vj) as (vj & Hj).
    { destruct (nth_error vs j) as [vj|] eqn:E; [eauto|]. apply nth_error_None in E.
      assert (j < List.length ps)%nat by (apply nth_error_Some; congruence). destruct H as (_ & Hl). change (@flt I) with f32 in *. lia. }
    destruct (along vs ps i j vi pi (fun d v p => p = B2R pi) H HO Hi Pi) with (vj := vj) (pj := pj) as (_ & K); auto.
    - intros d v0 v p0 p Hd A1 A2 A3 A4 L0 L N T B. rewrite <- B.
      pose proof (proj1 (stop_prices_chain _ _ _) H) as Hc.
      destruct (chain_nth c vs stop_init ps Hc (i + d) v0 v p0 p A1 A2 A3 A4) as (_ & Hp).
      assert (Vv : ok_view v) by (rewrite Forall_forall in V; apply V; apply nth_error_In in A2; exact A2).
      apply (step_slow lm as_ c v0 v p0 p); auto.
      + apply (sound_at vs ps (i + d)); auto.
      + apply (Hs (i + d)%nat); auto. lia.
    - destruct (sound_at vs ps i pi V H Pi) as (F1 & B1 & _). destruct (sound_at vs ps j pj V H Pj) as (F2 & B2 & _).
      pose proof (bpow_gt_0 radix2 (-124)) as B0.
      apply B2R_Bsign_inj; auto.
      destruct pi as [s|s| |s m e h], pj as [s'|s'| |s' m' e' h']; try discriminate; cbn [B2R] in *; try lra.
      assert (s = false) as ->. { destruct s; [|reflexivity]. exfalso. assert (F2R (Float radix2 (cond_Zopp true (Zpos m)) e) <= 0) by (apply F2R_le_0; cbn; lia). lra. }
      assert (s' = false) as ->. { destruct s'; [|reflexivity]. exfalso. assert (F2R (Float radix2 (cond_Zopp true (Zpos m')) e') <= 0) by (apply F2R_le_0; cbn; lia). lra. }
      reflexivity.
  Qed.
End Trail.

(** ** The hypotheses can be met. *)

(** A library with correctly rounded expf and logf. *)
Definition nearest (r : R) : f32 :=
  let v := rnd r in
  binary_normalize 24 128 (eq_refl _) (eq_refl _) mode_NE (Ztrunc (scaled_mantissa radix2 fexp32 v)) (cexp radix2 fexp32 v) false.

Lemma nearest_val r : Rabs r <= 128 -> is_finite (nearest r) = true /\ B2R (nearest r) = rnd r.
Proof.
  intros H. unfold nearest. set (v := rnd r).
  pose proof (binary_normalize_correct 24 128 (eq_refl _) (eq_refl _) mode_NE (Ztrunc (scaled_mantissa radix2 fexp32 v)) (cexp radix2 fexp32 v) false) as K.
  cbn [round_mode] in K.
  assert (Gv : generic_format radix2 fexp32 v) by (apply generic_format_round; exact _).
  assert (Ev : F2R (Float radix2 (Ztrunc (scaled_mantissa radix2 fexp32 v)) (cexp radix2 fexp32 v)) = v) by (symmetry; exact Gv).
  rewrite Ev in K. rewrite round_generic in K; [|exact _|exact Gv].
  assert (N := no_overflow r 7 ltac:(lia) H). fold v in N. rewrite N in K. destruct K as (KR & KF & _). auto.
Qed.

Definition nearest_libm (pow : f64 -> f64 -> f64) : libm :=
  Libm (fun x => nearest (exp (B2R x))) (fun x => nearest (ln (B2R x))) pow.

Lemma exp_range x : Rabs x <= 1 -> / 4 <= exp x <= 4.
Proof.
  intros H. apply Rabs_le_inv in H. pose proof exp_le_3 as E3. pose proof (exp_pos x).
  assert (U : forall y, y <= 1 -> exp y <= 4).
  { intros y Hy. destruct (Req_dec y 1) as [->|N]; [lra|]. pose proof (exp_increasing y 1 ltac:(lra)). lra. }
  split; [|apply U; lra]. pose proof (U (- x) ltac:(lra)) as K. rewrite exp_Ropp in K.
  apply Rmult_le_reg_r with (/ exp x); [apply Rinv_0_lt_compat; lra|]. rewrite Rinv_r by lra. lra.
Qed.

Lemma ln_apart (x : f32) : is_finite x = true -> / 4 <= B2R x <= 4 -> B2R x = 1 \/ / 134217728 <= Rabs (ln (B2R x)).
Proof.
  intros F H. assert (E : rnd (B2R x) = B2R x) by (apply round_generic; [exact _|apply generic_format_B2R]).
  destruct (Rle_dec 1 (B2R x)) as [G|G].
  - destruct (Rle_dec (B2R x) (1 + / 16777216)) as [L|L]; [left; rewrite <- E; apply rnd_just_above; lra|]. right.
    pose proof (ln_le_minus (/ B2R x) ltac:(apply Rinv_0_lt_compat; lra)) as U. rewrite ln_Rinv in U by lra.
    assert (V : / B2R x <= 1 - / 134217728).
    { apply Rmult_le_reg_r with (B2R x); [lra|]. rewrite Rinv_l by lra. lra. }
    rewrite Rabs_pos_eq; lra.
  - destruct (Rle_dec (1 - / 33554432) (B2R x)) as [L|L]; [left; rewrite <- E; apply rnd_just_below; lra|]. right.
    pose proof (ln_le_minus (B2R x) ltac:(lra)) as U. rewrite Rabs_left; lra.
Qed.

Lemma C119_libm_ex pow : accurate (nearest_libm pow) /\ nearest_exp (nearest_libm pow).
Proof.
  assert (E : forall x : f32, Rabs (B2R x) <= 1 -> Rabs (exp (B2R x)) <= 128).
  { intros x H. pose proof (exp_range _ H). rewrite Rabs_pos_eq; lra. }
  split; [constructor|]; cbn [libm_expf libm_logf nearest_libm]; intros x F H.
  - destruct (nearest_val _ (E x H)) as (F1 & V). split; [exact F1|]. unfold one_ulp. rewrite V.
    pose proof (exp_range _ H) as R1.
    destruct (ScoreFloat.rel32 (exp (B2R x))) as (d & Hd & Ed).
    { rewrite Rabs_pos_eq by lra. eapply Rle_trans; [apply (bpow_le radix2 (-126) (-2)); lia|]. change (bpow radix2 (-2)) with (/ 4). lra. }
    rewrite Ed. replace (exp (B2R x) * (1 + d) - exp (B2R x)) with (d * exp (B2R x)) by ring. rewrite Rabs_mult.
    apply Rmult_le_compat_r; [apply Rabs_pos|]. change (bpow radix2 (-23)) with (/ 8388608). lra.
  - assert (B : Rabs (ln (B2R x)) <= 128).
    { pose proof (ln_le_minus (B2R x) ltac:(lra)). pose proof (ln_le_minus (/ B2R x) ltac:(apply Rinv_0_lt_compat; lra)) as U.
      rewrite ln_Rinv in U by lra. assert (/ B2R x <= 4). { apply Rmult_le_reg_r with (B2R x); [lra|]. rewrite Rinv_l by lra. lra. }
      apply Rabs_le. lra. }
    destruct (nearest_val _ B) as (F1 & V). split; [exact F1|]. unfold one_ulp. rewrite V.
    destruct (ln_apart x F H) as [->|A].
    + rewrite ln_1, round_0 by exact _. rewrite Rminus_0_r, Rabs_R0, Rmult_0_r. lra.
    + destruct (ScoreFloat.rel32 (ln (B2R x))) as (d & Hd & Ed).
      { eapply Rle_trans; [apply (bpow_le radix2 (-126) (-27)); lia|]. change (bpow radix2 (-27)) with (/ 134217728). exact A. }
      rewrite Ed. replace (ln (B2R x) * (1 + d) - ln (B2R x)) with (d * ln (B2R x)) by ring. rewrite Rabs_mult.
      apply Rmult_le_compat_r; [apply Rabs_pos|]. change (bpow radix2 (-23)) with (/ 8388608). lra.
  - apply (nearest_val _ (E x H)).
Qed.

(** A stop trader with a daily increase of 1/1024, updated every second for n seconds. *)
Section Example_.
  Context (lm : libm) (as_ : bool).
  Local Notation I := (ieee lm as_).
  Definition tr_config : @stop_config I :=
    @StopConfig I (@flit I 1 8) (@flit I 1 16) (@flit I 1 1024) (@flit I 1 1024).
  Definition tr_view (k : nat) : @view I :=
    @View I (@OhlcTick I (Z.of_nat k + 1) (@fofZ I 100) (@fofZ I 100) (@fofZ I 100) (@fofZ I 100) (@fofZ I 7)) [] (@fofZ I 1) (@fofZ I 5).
  Definition tr_views (n : nat) : list (@view I) := map tr_view (seq 0 n).

  Lemma tr_lit a b : (0 < a <= 1)%Z -> (b = 8 \/ b = 16 \/ b = 1024)%Z ->
    is_finite (@flit I a b : f32) = true /\ B2R (@flit I a b : f32) = IZR a / IZR b.
  Proof.
    intros Ha Hb. assert (a = 1)%Z as -> by lia. cbn [flit ieee].
    destruct Hb as [->|[->| ->]]; (split; [vm_compute; reflexivity|]);
      (match goal with |- B2R ?x = _ => let y := eval vm_compute in (B2SF x) in
         assert (E : B2SF x = y) by (vm_compute; reflexivity) end);
      rewrite <- SF2R_B2SF, E; cbn; unfold F2R; cbn; lra.
  Qed.

  Lemma tr_ok : ok_stop tr_config /\ ok_rates tr_config.
  Proof.
    destruct (tr_lit 1 8 ltac:(lia) ltac:(auto)) as (F1 & V1). destruct (tr_lit 1 16 ltac:(lia) ltac:(auto)) as (F2 & V2).
    destruct (tr_lit 1 1024 ltac:(lia) ltac:(auto)) as (F3 & V3).
    split; [constructor|split]; cbn [tr_config stop_order_margin stop_order_move_margin stop_order_increase_per_day stop_order_decrease_per_day];
      try (split; [assumption|]); try (rewrite V1); try (rewrite V2); try (rewrite V3); try lra.
    split; [lra|]. apply Rle_trans with (bpow radix2 0); [cbn; lra|apply bpow_le; lia].
  Qed.

  Lemma tr_long k : is_long (tr_view k) = true.
  Proof. vm_compute; reflexivity. Qed.

  Lemma tr_views_ok n : Forall ok_view (tr_views n).
  Proof.
    apply Forall_forall. intros v Hv. apply in_map_iff in Hv as (k & <- & _).
    destruct (ofZ_finite 100 ltac:(lia)) as (F1 & V1). destruct (ofZ_finite 1 ltac:(lia)) as (F2 & V2). destruct (ofZ_finite 5 ltac:(lia)) as (F3 & V3).
    constructor; unfold v_price, tr_view; cbn [v_tick v_base v_quote close fofZ ieee].
    - split; [exact F1|]. rewrite V1. split.
      + apply Rle_trans with (bpow radix2 0); [apply bpow_le; lia|cbn; lra].
      + apply Rle_trans with (bpow radix2 7); [change (bpow radix2 7) with 128; lra|apply bpow_le; lia].
    - rewrite V2. split; [exact F2|lra].
    - rewrite V3. split; [exact F3|lra].
    - left. rewrite V2. lra.
  Qed.

  Lemma tr_nth n k v : nth_error (tr_views n) k = Some v -> (k < n)%nat /\ v = tr_view k.
  Proof.
    unfold tr_views. intros H. assert (k < length (map tr_view (seq 0 n)))%nat as L by (apply nth_error_Some; congruence).
    rewrite map_length, seq_length in L. split; [exact L|]. rewrite nth_error_map in H.
    rewrite (nth_error_nth' _ O) in H by (rewrite seq_length; exact L). rewrite seq_nth in H by exact L. cbn [option_map Nat.add] in H. congruence.
  Qed.

  Lemma tr_position n i j : one_position (tr_views n) i j.
  Proof.
    intros k v0 v _ H1 H2. apply tr_nth in H1 as (_ & ->). apply tr_nth in H2 as (_ & ->). split.
    - unfold new_position. rewrite !tr_long. unfold v_time, tr_view; cbn [v_tick timestamp_sec]. intros [H|H]; [apply H; reflexivity|lia].
    - unfold v_time, tr_view; cbn [v_tick timestamp_sec]. lia.
  Qed.

  Lemma tr_slow n k v0 v : nth_error (tr_views n) k = Some v0 -> nth_error (tr_views n) (S k) = Some v -> slow tr_config v0 v.
  Proof.
    intros H1 H2. apply tr_nth in H1 as (_ & ->). apply tr_nth in H2 as (_ & ->).
    unfold slow. rewrite tr_long. unfold v_time, tr_view; cbn [v_tick timestamp_sec].
    replace (Z.of_nat (S k) + 1 - (Z.of_nat k + 1))%Z with 1%Z by lia.
    destruct (tr_lit 1 1024 ltac:(lia) ltac:(auto)) as (F3 & V3). cbn [tr_config stop_order_increase_per_day]. rewrite V3. lra.
  Qed.

  Lemma C119_ex n : exists ps, @stop_prices I tr_config (tr_views n) ps.
  Proof.
    assert (K : forall m, increasing_from (Z.of_nat m) (map tr_view (seq m (n - m))) /\ True).
    { intros m. split; [|exact Logic.I]. remember (n - m)%nat as d eqn:E. clear E. revert m. induction d as [|d IH]; intros m; cbn [seq map increasing_from]; [exact Logic.I|].
      split; [unfold v_time, tr_view; cbn [v_tick timestamp_sec]; lia|].
      replace (v_time (tr_view m)) with (Z.of_nat (S m)) by (unfold v_time, tr_view; cbn [v_tick timestamp_sec]; lia). apply IH. }
    destruct (chain_exists tr_config (tr_views n) stop_init) as (ps & Hps).
    { intros _. split.
      - destruct (K O) as (K0 & _). rewrite Nat.sub_0_r in K0. exact K0.
      - apply Forall_forall. intros v Hv. apply in_map_iff in Hv as (k & <- & _). split; [|left]; vm_compute; reflexivity. }
    exists ps. apply stop_prices_chain. exact Hps.
  Qed.

  (** In exact arithmetic (C54_rate) the stop would rise by about 0.1 percent a day up to the limit
      93.75; in single precision it stays at 87.5 for ever. *)
  Theorem C119_stuck_ex n ps : accurate lm -> nearest_exp lm -> @stop_prices I tr_config (tr_views n) ps ->
    Forall (fun p : f32 => B2R p = 875 / 10) ps.
  Proof.
    intros Hlm Hne H. destruct tr_ok as (C & R). apply Forall_forall. intros p Hp. apply In_nth_error in Hp as (k & Hk).
    destruct ps as [|p0 ps]; [destruct k; discriminate|].
    rewrite (C119_stuck lm as_ tr_config Hlm C R (tr_views n) (p0 :: ps) 0 k p0 p Hne (tr_views_ok n) H (tr_position n 0 k) ltac:(lia)
      (fun k v0 v _ => tr_slow n k v0 v) eq_refl Hk).
    destruct n as [|n]; [destruct H as (_ & H); discriminate|].
    apply stop_prices_chain in H. cbn [tr_views seq map chain] in H. destruct H as (_ & H & _).
    unfold next_stop in H. rewrite restart_first in H. injection H as <-.
    assert (E : B2SF (start_price tr_config (tr_view 0) : f32) = SpecFloat.S754_finite false 11468800 (-17)).
    { vm_compute; reflexivity. }
    rewrite <- SF2R_B2SF, E. cbn. unfold F2R; cbn. lra.
  Qed.
End Example_.

Print Assumptions C119_step.
Print Assumptions C119_stretch.
Print Assumptions C119_stuck.
