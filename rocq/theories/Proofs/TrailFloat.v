(** The trailing stop in single precision: the per-tick factor and its compounding. *)
From Coq Require Import Reals ZArith Bool List Lia Lra.
From Flocq Require Import Core BinarySingleNaN Sterbenz.
From Verif.Model Require Import Outcome Machine Types Account Eval Traders MachineR MachineIEEE.
From Verif.Spec Require Import OrderSpec AccountIEEESpec TraderSpec TrailSpec.
From Verif.Proofs Require Import Base FloatLemmas OrderLaws FloatErr ScoreFloat EmaDrift DriftProofs AccountIEEE AccountErr TraderProofs StopFloat.
Import ListNotations.
Local Open Scope R_scope.

(** ** Real analysis *)
Lemma ln_le_minus x : 0 < x -> ln x <= x - 1.
Proof.
  intros H. destruct (Req_dec (ln x) 0) as [E|N].
  - rewrite E. assert (x = 1) by (rewrite <- (exp_ln x H), E; apply exp_0). lra.
  - pose proof (exp_ineq1 (ln x) N) as K. rewrite (exp_ln x H) in K. lra.
Qed.

Lemma exp_ge x : 1 + x <= exp x.
Proof.
  destruct (Req_dec x 0) as [->|N]; [rewrite exp_0; lra|]. left. apply exp_ineq1. exact N.
Qed.

Lemma ln_close a b : / 2 <= a -> / 2 <= b -> Rabs (ln a - ln b) <= 2 * Rabs (a - b).
Proof.
  intros Ha Hb.
  assert (K : forall a b, / 2 <= a -> / 2 <= b -> ln a - ln b <= 2 * Rabs (a - b)).
  { clear. intros a b Ha Hb. replace (ln a - ln b) with (ln (a / b)) by (unfold Rdiv; rewrite ln_mult, ln_Rinv; try lra; apply Rinv_0_lt_compat; lra).
    eapply Rle_trans; [apply ln_le_minus; apply Rdiv_lt_0_compat; lra|].
    replace (a / b - 1) with ((a - b) * / b) by (field; lra).
    eapply Rle_trans; [apply Rle_abs|]. rewrite Rabs_mult, Rmult_comm. rewrite (Rabs_pos_eq (/ b)) by (apply Rlt_le, Rinv_0_lt_compat; lra).
    apply Rmult_le_compat_r; [apply Rabs_pos|]. replace 2 with (/ / 2) by field. apply Rinv_le; lra. }
  apply Rabs_le. split.
  - pose proof (K b a Hb Ha) as H. rewrite Rabs_minus_sym in H. lra.
  - apply K; assumption.
Qed.

Lemma exp_close x y d : Rabs (x - y) <= d -> d <= / 2 -> Rabs (exp x - exp y) <= (d + 2 * (d * d)) * exp y.
Proof.
  intros H Hd. pose proof (exp_pos y) as Py. pose proof (Rabs_pos (x - y)) as P.
  assert (U : exp (x - y) <= 1 + d + 2 * (d * d)).
  { pose proof (exp_ge (- (x - y))) as K. rewrite exp_Ropp in K. apply Rabs_le_inv in H.
    assert (L : 1 - d <= / exp (x - y)) by lra.
    pose proof (exp_pos (x - y)) as Pe.
    assert (L' : (1 - d) * exp (x - y) <= 1).
    { apply Rmult_le_reg_r with (/ exp (x - y)); [apply Rinv_0_lt_compat; exact Pe|].
      rewrite Rmult_assoc, Rinv_r by lra. lra. }
    apply Rmult_le_reg_l with (1 - d); [lra|]. eapply Rle_trans; [exact L'|].
    assert (0 <= d) by lra. assert (d * d * d <= d * d * (/2)) by (apply Rmult_le_compat_l; [apply Rle_0_sqr|lra]).
    assert (0 <= d * d) by apply Rle_0_sqr. nra. }
  assert (L : 1 - d <= exp (x - y)).
  { pose proof (exp_ge (x - y)). apply Rabs_le_inv in H. lra. }
  replace (exp x) with (exp (x - y) * exp y) by (rewrite <- exp_plus; f_equal; ring).
  replace (exp (x - y) * exp y - exp y) with ((exp (x - y) - 1) * exp y) by ring.
  rewrite Rabs_mult, (Rabs_pos_eq (exp y)) by lra. apply Rmult_le_compat_r; [lra|].
  assert (0 <= d * d) by apply Rle_0_sqr.
  apply Rabs_le. lra.
Qed.

Lemma ln2_bound : ln 2 <= / 4 * 3.
Proof.
  (* exp (3/8) >= 1 + 3/8 + ..., squared twice: use exp x >= (1 + x/8)^8 *)
  assert (H : 2 <= exp (3 / 4)).
  { replace (3 / 4) with (3 / 32 + 3 / 32 + 3 / 32 + 3 / 32 + 3 / 32 + 3 / 32 + 3 / 32 + 3 / 32) by field.
    rewrite !exp_plus. pose proof (exp_ge (3 / 32)) as K. set (e := exp (3 / 32)) in *. clearbody e.
    assert (A : 1 + 3 / 32 <= e) by lra.
    assert (B : (1 + 3 / 32) * (1 + 3 / 32) <= e * e) by (apply Rmult_le_compat; lra).
    assert (C : (1 + 3 / 32) * (1 + 3 / 32) * ((1 + 3 / 32) * (1 + 3 / 32)) <= (e * e) * (e * e)) by (apply Rmult_le_compat; lra).
    assert (D : (1 + 3 / 32) * (1 + 3 / 32) * ((1 + 3 / 32) * (1 + 3 / 32)) * ((1 + 3 / 32) * (1 + 3 / 32) * ((1 + 3 / 32) * (1 + 3 / 32)))
      <= ((e * e) * (e * e)) * ((e * e) * (e * e))) by (apply Rmult_le_compat; lra).
    replace (e * e * e * e * e * e * e * e) with (((e * e) * (e * e)) * ((e * e) * (e * e))) by ring.
    eapply Rle_trans; [|exact D]. lra. }
  apply Rle_trans with (ln (exp (3 / 4))); [|rewrite ln_exp; lra].
  destruct H as [H|H]; [left; apply ln_increasing; lra|right; rewrite <- H; reflexivity].
Qed.

Lemma ln_range a : / 2 <= a <= 2 -> Rabs (ln a) <= 3 / 4.
Proof.
  intros [H1 H2]. pose proof ln2_bound. apply Rabs_le. split.
  - assert (K : ln (/ 2) <= ln a) by (destruct H1 as [H1|H1]; [left; apply ln_increasing; lra|right; rewrite H1; reflexivity]).
    rewrite ln_Rinv in K by lra. lra.
  - assert (K : ln a <= ln 2) by (destruct H2 as [H2|H2]; [left; apply ln_increasing; lra|right; rewrite H2; reflexivity]). lra.
Qed.

(** ** The per-tick factor *)
Section Factor.
  Context (lm : libm) (as_ : bool) (Hlm : accurate lm).
  Local Notation I := (ieee lm as_).

  Definition tick_factor (a : f32) (d : Z) : f32 :=
    libm_expf lm (Bdiv mode_NE (libm_logf lm a) (Bdiv mode_NE (f32_of_Z 86400) (f32_of_Z d))).

  Lemma ticks_per_day_ok d : (1 <= d < 3600)%Z ->
    is_finite (Bdiv mode_NE (f32_of_Z 86400) (f32_of_Z d)) = true /\
    exists e, Rabs e <= / 16777216 /\ B2R (Bdiv mode_NE (f32_of_Z 86400) (f32_of_Z d)) = 86400 / IZR d * (1 + e).
  Proof.
    intros Hd. destruct (ofZ_finite 86400 ltac:(lia)) as [F1 V1]. destruct (ofZ_finite d ltac:(lia)) as [F2 V2].
    assert (D1 : 1 <= IZR d) by (apply IZR_le; lia). assert (D2 : IZR d <= 3600) by (apply IZR_le; lia).
    assert (Q : 24 <= 86400 / IZR d <= 86400).
    { split; [apply Rmult_le_reg_r with (IZR d)|apply Rmult_le_reg_r with (IZR d)]; try lra;
        unfold Rdiv; rewrite Rmult_assoc, Rinv_l by lra; lra. }
    pose proof (Bdiv_correct 24 128 _ _ mode_NE (f32_of_Z 86400) (f32_of_Z d)) as K.
    rewrite V1, V2 in K. specialize (K ltac:(lra)). cbn [round_mode] in K.
    rewrite (no_overflow _ 17) in K; [|lia|rewrite Rabs_pos_eq by lra; change (bpow radix2 17) with 131072; lra].
    destruct K as (K1 & K2 & _). split; [rewrite K2; exact F1|].
    destruct (rel32 (86400 / IZR d)) as (e & He & Ee).
    { rewrite Rabs_pos_eq by lra. eapply Rle_trans; [apply (bpow_le radix2 (-126) 0); lia|]. cbn [bpow]. lra. }
    exists e. split; [exact He|]. rewrite K1. exact Ee.
  Qed.

  Lemma factor_err (a : f32) A d : is_finite a = true -> / 2 <= A <= 2 -> / 2 <= B2R a <= 2 -> Rabs (B2R a - A) <= / 16777216 ->
    (1 <= d < 3600)%Z ->
    is_finite (tick_factor a d) = true /\
    Rabs (B2R (tick_factor a d) - exp (IZR d / 86400 * ln A)) <= 11 / 67108864 * exp (IZR d / 86400 * ln A) /\
    / 2 <= B2R (tick_factor a d) <= 2.
  Proof.
    intros Fa HA Ha Hd Hdd. unfold tick_factor.
    destruct (log_accurate lm Hlm a Fa ltac:(lra)) as [Fl Hl]. unfold one_ulp in Hl.
    set (l := libm_logf lm a) in *. clearbody l.
    pose proof (ln_range A HA) as RA. pose proof (ln_range (B2R a) Ha) as Ra.
    pose proof (ln_close (B2R a) A ltac:(lra) ltac:(lra)) as LC.
    change (bpow radix2 (-23)) with (/ 8388608) in Hl.
    assert (L1 : Rabs (B2R l - ln A) <= / 4194304).
    { replace (B2R l - ln A) with ((B2R l - ln (B2R a)) + (ln (B2R a) - ln A)) by ring.
      eapply Rle_trans; [apply Rabs_triang|]. lra. }
    assert (L2 : Rabs (B2R l) <= 4 / 5).
    { replace (B2R l) with ((B2R l - ln A) + ln A) by ring. eapply Rle_trans; [apply Rabs_triang|]. lra. }
    destruct (ticks_per_day_ok d Hdd) as (Ft & e & He & Et). set (t := Bdiv mode_NE (f32_of_Z 86400) (f32_of_Z d)) in *. clearbody t.
    assert (D1 : 1 <= IZR d) by (apply IZR_le; lia). assert (D2 : IZR d <= 3600) by (apply IZR_le; lia).
    set (T := 86400 / IZR d) in *.
    assert (HT : 24 <= T <= 86400).
    { unfold T. split; [apply Rmult_le_reg_r with (IZR d)|apply Rmult_le_reg_r with (IZR d)]; try lra;
        unfold Rdiv; rewrite Rmult_assoc, Rinv_l by lra; lra. }
    apply Rabs_le_inv in He.
    assert (Pt : 23 <= B2R t) by (rewrite Et; nra).
    (* the argument of exp *)
    assert (Q : Rabs (B2R l / B2R t - ln A / T) <= 15 / 1073741824).
    { rewrite Et. replace (B2R l / (T * (1 + e)) - ln A / T) with ((B2R l - ln A - ln A * e) * (/ (T * (1 + e)))) by (field; lra).
      rewrite Rabs_mult. rewrite (Rabs_pos_eq (/ _)) by (apply Rlt_le, Rinv_0_lt_compat; rewrite <- Et; lra).
      assert (N : Rabs (B2R l - ln A - ln A * e) <= / 4194304 + 3 / 4 * / 16777216).
      { replace (B2R l - ln A - ln A * e) with ((B2R l - ln A) + - (ln A * e)) by ring.
        eapply Rle_trans; [apply Rabs_triang|]. rewrite Rabs_Ropp, Rabs_mult.
        assert (Rabs e <= / 16777216) by (apply Rabs_le; lra).
        assert (Rabs (ln A) * Rabs e <= 3 / 4 * / 16777216) by (apply Rmult_le_compat; try apply Rabs_pos; lra).
        lra. }
      eapply Rle_trans; [apply Rmult_le_compat; [apply Rabs_pos|apply Rlt_le, Rinv_0_lt_compat; rewrite <- Et; lra|exact N|]|].
      - apply (Rinv_le 23); [lra|]. rewrite <- Et. exact Pt.
      - lra. }
    assert (B : Rabs (B2R l / B2R t) <= / 16).
    { unfold Rdiv. rewrite Rabs_mult, (Rabs_pos_eq (/ B2R t)) by (apply Rlt_le, Rinv_0_lt_compat; lra).
      apply Rle_trans with (4 / 5 * / 23); [|lra]. apply Rmult_le_compat; try apply Rabs_pos; auto.
      - apply Rlt_le, Rinv_0_lt_compat. lra.
      - apply Rinv_le; lra. }
    pose proof (Bdiv_correct 24 128 _ _ mode_NE l t ltac:(lra)) as K. cbn [round_mode] in K.
    rewrite (no_overflow _ 0) in K; [|lia|cbn [bpow]; lra]. destruct K as (K1 & K2 & _). rewrite Fl in K2.
    set (x := Bdiv mode_NE l t) in *. clearbody x.
    assert (X1 : Rabs (B2R x - B2R l / B2R t) <= / 134217728).
    { rewrite K1. eapply Rle_trans; [apply (rnd_abs_err _ _ B)|]. pose proof (bpow_le radix2 (-150) (-40) ltac:(lia)) as E.
      change (bpow radix2 (-40)) with (/ 1099511627776) in E. unfold u24. lra. }
    assert (X2 : Rabs (B2R x - ln A / T) <= / 33554432).
    { replace (B2R x - ln A / T) with ((B2R x - B2R l / B2R t) + (B2R l / B2R t - ln A / T)) by ring.
      eapply Rle_trans; [apply Rabs_triang|]. lra. }
    assert (X3 : Rabs (B2R x) <= / 8).
    { replace (B2R x) with ((B2R x - B2R l / B2R t) + (B2R l / B2R t)) by ring. eapply Rle_trans; [apply Rabs_triang|]. lra. }
    destruct (exp_accurate lm Hlm x K2 ltac:(lra)) as [Fe He']. unfold one_ulp in He'.
    change (bpow radix2 (-23)) with (/ 8388608) in He'.
    set (z := libm_expf lm x) in *. clearbody z. pose proof (exp_pos (B2R x)) as Px. rewrite (Rabs_pos_eq (exp (B2R x))) in He' by lra.
    assert (EQ : IZR d / 86400 * ln A = ln A / T) by (unfold T; field; lra). rewrite EQ.
    pose proof (exp_close (B2R x) (ln A / T) (/ 33554432) X2 ltac:(lra)) as EC.
    pose proof (exp_pos (ln A / T)) as PT. set (G := exp (ln A / T)) in *.
    split; [exact Fe|]. split.
    - replace (B2R z - G) with ((B2R z - exp (B2R x)) + (exp (B2R x) - G)) by ring.
      eapply Rle_trans; [apply Rabs_triang|].
      assert (U : exp (B2R x) <= 9 / 8 * G) by (apply Rabs_le_inv in EC; nra).
      assert (Rabs (B2R z - exp (B2R x)) <= / 8388608 * (1 + / 16777216) * G).
      { eapply Rle_trans; [exact He'|]. rewrite Rmult_assoc. apply Rmult_le_compat_l; [lra|].
        apply Rabs_le_inv in EC. nra. }
      nra.
    - assert (E1 : 7 / 8 <= exp (B2R x)). { pose proof (exp_ge (B2R x)). apply Rabs_le_inv in X3. lra. }
      assert (E2 : exp (B2R x) <= 3 / 2).
      { pose proof (exp_ge (- B2R x)) as E. rewrite exp_Ropp in E. apply Rabs_le_inv in X3.
        assert (7 / 8 <= / exp (B2R x)) by lra. apply Rmult_le_reg_r with (/ exp (B2R x)); [apply Rinv_0_lt_compat; lra|].
        rewrite Rinv_r by lra. lra. }
      apply Rabs_le_inv in He'. nra.
  Qed.

  (** e - 1 and 1 + (e - 1) are exact. *)
  Lemma fmt_z n : (Z.abs n <= 2 ^ 24)%Z -> generic_format radix2 (FLT_exp (-149) 24) (IZR n).
  Proof. intros H. destruct (ofZ_finite n H) as [_ <-]. apply generic_format_B2R. Qed.

  Lemma up_and_down (e : f32) : is_finite e = true -> / 2 <= B2R e <= 2 ->
    let r := Bplus mode_NE (f32_of_Z 1) (Bminus mode_NE e (f32_of_Z 1)) in
    is_finite r = true /\ B2R r = B2R e.
  Proof.
    intros F H. destruct (ofZ_finite 1 ltac:(lia)) as [F1 V1].
    assert (G : generic_format radix2 (FLT_exp (-149) 24) (B2R e - 1)).
    { apply sterbenz; try exact _; [apply generic_format_B2R|apply (fmt_z 1); lia|lra]. }
    destruct (Bminus_bnd 1 e (f32_of_Z 1)) as [[F2 B2] V2]; try lia.
    { split; [exact F|]. change (bpow radix2 1) with 2. apply Rabs_le. lra. }
    { split; [exact F1|]. rewrite V1. change (bpow radix2 1) with 2. apply Rabs_le. lra. }
    rewrite V1 in V2. rewrite round_generic in V2; [|exact _|exact G].
    cbv zeta. set (i := Bminus mode_NE e (f32_of_Z 1)) in *. clearbody i.
    pose proof (Bplus_correct 24 128 _ _ mode_NE (f32_of_Z 1) i F1 F2) as K. cbn [round_mode] in K.
    rewrite V1, V2 in K. replace (1 + (B2R e - 1)) with (B2R e) in K by ring.
    assert (R : rnd (B2R e) = B2R e) by (apply round_generic; [exact _|apply generic_format_B2R]).
    rewrite (no_overflow _ 1) in K; [|lia|change (bpow radix2 1) with 2; apply Rabs_le; lra].
    destruct K as (K1 & K2 & _). split; [exact K2|]. etransitivity; [exact K1|exact R].
  Qed.

  Lemma down_and_up (e : f32) : is_finite e = true -> / 2 <= B2R e <= 2 ->
    let r := Bminus mode_NE (f32_of_Z 1) (Bminus mode_NE (f32_of_Z 1) e) in
    is_finite r = true /\ B2R r = B2R e.
  Proof.
    intros F H. destruct (ofZ_finite 1 ltac:(lia)) as [F1 V1].
    assert (G : generic_format radix2 (FLT_exp (-149) 24) (1 - B2R e)).
    { apply sterbenz; try exact _; [apply (fmt_z 1); lia|apply generic_format_B2R|lra]. }
    destruct (Bminus_bnd 1 (f32_of_Z 1) e) as [[F2 B2] V2]; try lia.
    { split; [exact F1|]. rewrite V1. change (bpow radix2 1) with 2. apply Rabs_le. lra. }
    { split; [exact F|]. change (bpow radix2 1) with 2. apply Rabs_le. lra. }
    rewrite V1 in V2. rewrite round_generic in V2; [|exact _|exact G].
    cbv zeta. set (i := Bminus mode_NE (f32_of_Z 1) e) in *. clearbody i.
    pose proof (Bminus_correct 24 128 _ _ mode_NE (f32_of_Z 1) i F1 F2) as K. cbn [round_mode] in K.
    rewrite V1, V2 in K. replace (1 - (1 - B2R e)) with (B2R e) in K by ring.
    assert (R : rnd (B2R e) = B2R e) by (apply round_generic; [exact _|apply generic_format_B2R]).
    rewrite (no_overflow _ 1) in K; [|lia|change (bpow radix2 1) with 2; apply Rabs_le; lra].
    destruct K as (K1 & K2 & _). split; [exact K2|]. etransitivity; [exact K1|exact R].
  Qed.

  (** A factor too close to 1. *)
  Lemma rnd_just_above x : 1 <= x <= 1 + / 16777216 -> rnd x = 1.
  Proof.
    intros H. apply Rle_antisym.
    - apply Rle_trans with (rnd (1 + / 16777216)); [apply round_le; try exact _; lra|]. right.
      destruct (ofZ_finite 1 ltac:(lia)) as [F1 V1]. destruct (ofZ_finite 16777216 ltac:(lia)) as [F2 V2].
      set (h := SF2B (prec := 24) (emax := 128) (SpecFloat.S754_finite false 8388608 (-47)) eq_refl : f32).
      assert (Fh : is_finite h = true) by reflexivity.
      assert (Vh : B2R h = / 16777216) by (unfold h; cbn; unfold F2R; cbn; lra).
      pose proof (Bplus_correct 24 128 _ _ mode_NE (f32_of_Z 1) h F1 Fh) as K. cbn [round_mode] in K. rewrite V1, Vh in K.
      rewrite (no_overflow _ 1) in K; [|lia|change (bpow radix2 1) with 2; apply Rabs_le; lra].
      destruct K as (K1 & _). etransitivity; [symmetry; exact K1|]. rewrite <- V1. f_equal. apply B2SF_inj. vm_compute. reflexivity.
    - apply rnd_1_le. lra.
  Qed.

  Lemma rnd_just_below x : 1 - / 33554432 <= x <= 1 -> rnd x = 1.
  Proof.
    intros H. apply Rle_antisym; [apply rnd_le_1; lra|].
    apply Rle_trans with (rnd (1 - / 33554432)); [|apply round_le; try exact _; lra]. right.
    destruct (ofZ_finite 1 ltac:(lia)) as [F1 V1].
    set (h := SF2B (prec := 24) (emax := 128) (SpecFloat.S754_finite false 8388608 (-48)) eq_refl : f32).
    assert (Fh : is_finite h = true) by reflexivity.
    assert (Vh : B2R h = / 33554432) by (unfold h; cbn; unfold F2R; cbn; lra).
    pose proof (Bminus_correct 24 128 _ _ mode_NE (f32_of_Z 1) h F1 Fh) as K. cbn [round_mode] in K. rewrite V1, Vh in K.
    rewrite (no_overflow _ 1) in K; [|lia|change (bpow radix2 1) with 2; apply Rabs_le; lra].
    destruct K as (K1 & _). etransitivity; [|exact K1]. rewrite <- V1. f_equal. apply B2SF_inj. vm_compute. reflexivity.
  Qed.

  Lemma factor_one (a : f32) d : nearest_exp lm -> is_finite a = true -> / 2 <= B2R a <= 2 -> (1 <= d < 3600)%Z ->
    - / 400 <= IZR d * ln (B2R a) <= 9 / 2000 -> B2R (tick_factor a d) = 1.
  Proof.
    intros Hn Fa Ha Hdd HL. unfold tick_factor.
    destruct (log_accurate lm Hlm a Fa ltac:(lra)) as [Fl Hl]. unfold one_ulp in Hl.
    set (l := libm_logf lm a) in *. clearbody l.
    change (bpow radix2 (-23)) with (/ 8388608) in Hl.
    destruct (ticks_per_day_ok d Hdd) as (Ft & e & He & Et). set (t := Bdiv mode_NE (f32_of_Z 86400) (f32_of_Z d)) in *. clearbody t.
    assert (D1 : 1 <= IZR d) by (apply IZR_le; lia). assert (D2 : IZR d <= 3600) by (apply IZR_le; lia).
    set (D := IZR d) in *. clearbody D.
    apply Rabs_le_inv in He. assert (I1 : / 3600 <= / D) by (apply Rinv_le; lra).
    assert (ID : D * / D = 1) by (apply Rinv_r; lra).
    assert (Pt : 23 <= B2R t) by (rewrite Et; unfold Rdiv; nra).
    set (L := ln (B2R a)) in *. clearbody L.
    (* bounds on the argument, in units of 1 / 86400 *)
    assert (Q : B2R l / B2R t = D * B2R l * (/ 86400 * / (1 + e))) by (rewrite Et; field; lra).
    assert (Ie : 0 < / (1 + e) <= 1 + / 8388608).
    { split; [apply Rinv_0_lt_compat; lra|]. apply Rmult_le_reg_r with (1 + e); [lra|]. rewrite Rinv_l by lra. nra. }
    set (ie := / (1 + e)) in *. clearbody ie.
    assert (B : (0 <= L -> 0 <= B2R l / B2R t <= 9 / 2000 / 86400 * (1 + / 1048576)) /\
                (L <= 0 -> - (/ 400 / 86400 * (1 + / 1048576)) <= B2R l / B2R t <= 0)).
    { rewrite Q. split; intros S.
      - rewrite (Rabs_pos_eq L) in Hl by lra. apply Rabs_le_inv in Hl.
        assert (0 <= D * B2R l) by nra. assert (D * B2R l <= 9 / 2000 * (1 + / 8388608)) by nra.
        split; [nra|]. nra.
      - rewrite (Rabs_left1 L) in Hl by lra. apply Rabs_le_inv in Hl.
        assert (D * B2R l <= 0) by nra. assert (- (/ 400 * (1 + / 8388608)) <= D * B2R l) by nra.
        split; [nra|]. nra. }
    assert (B0 : Rabs (B2R l / B2R t) <= / 16777216).
    { apply Rabs_le. destruct (Rle_dec 0 L) as [S|S]; [destruct B as [B _]; specialize (B S); lra|].
      destruct B as [_ B]; specialize (B ltac:(lra)); lra. }
    pose proof (Bdiv_correct 24 128 _ _ mode_NE l t ltac:(lra)) as K. cbn [round_mode] in K.
    rewrite (no_overflow _ 0) in K; [|lia|cbn [bpow]; lra]. destruct K as (K1 & K2 & _). rewrite Fl in K2.
    set (x := Bdiv mode_NE l t) in *. clearbody x.
    assert (X1 : Rabs (B2R x - B2R l / B2R t) <= / 1099511627776).
    { rewrite K1. eapply Rle_trans; [apply (rnd_abs_err _ _ B0)|]. pose proof (bpow_le radix2 (-150) (-60) ltac:(lia)) as E.
      change (bpow radix2 (-60)) with (/ 1152921504606846976) in E. unfold u24. lra. }
    assert (XS : (0 <= L -> 0 <= B2R x) /\ (L <= 0 -> B2R x <= 0)).
    { rewrite K1. split; intros S; rewrite <- (round_0 radix2 (FLT_exp (-149) 24) (round_mode mode_NE)); apply round_le; try exact _;
        destruct B as [B1 B2]; [specialize (B1 S)|specialize (B2 S)]; lra. }
    assert (X3 : Rabs (B2R x) <= 1) by (apply Rabs_le; apply Rabs_le_inv in X1; apply Rabs_le_inv in B0; lra).
    destruct (Hn x K2 X3) as [Fe Ve]. rewrite Ve. apply Rabs_le_inv in X1.
    destruct (Rle_dec 0 L) as [S|S].
    - destruct B as [B _]; specialize (B S). destruct XS as [XS _]; specialize (XS S).
      apply rnd_just_above. pose proof (exp_ge (B2R x)). split; [lra|].
      pose proof (exp_ge (- B2R x)) as E. rewrite exp_Ropp in E. pose proof (exp_pos (B2R x)) as P.
      assert ((1 + - B2R x) * exp (B2R x) <= 1).
      { apply Rmult_le_compat_r with (r := exp (B2R x)) in E; [|lra]. rewrite Rinv_l in E by lra. exact E. }
      assert (B2R x <= 53 / 1000000000) by lra.
      nra.
    - destruct B as [_ B]; specialize (B ltac:(lra)). destruct XS as [_ XS]; specialize (XS ltac:(lra)).
      apply rnd_just_below. pose proof (exp_ge (B2R x)). split; [lra|].
      destruct (Req_dec (B2R x) 0) as [->|N0]; [rewrite exp_0; lra|]. left. rewrite <- exp_0. apply exp_increasing. lra.
  Qed.
End Factor.

(** ** One update *)
Section Step.
  Context (lm : libm) (as_ : bool).
  Local Notation I := (ieee lm as_).
  Implicit Types (c : @stop_config I) (v : @view I).

  (** Stop prices are normal floats. *)
  Definition sound (p : f32) : Prop := is_finite p = true /\ bpow radix2 (-124) <= B2R p <= bpow radix2 121.

  Lemma start_sound c v : ok_stop c -> ok_view v -> sound (start_price c v).
  Proof.
    intros C V. destruct (price_nneg lm as_ v V) as (HP & LP). unfold start_price. destruct (is_long v); cbn [fmul fsub fadd fofZ ieee].
    - destruct C as [(F & H) Hlt _]. destruct (one_minus _ F (conj (proj1 H) Hlt)) as (F1 & H1 & _).
      destruct (Bmult_ge (-24) (-100) 0 100 (Bminus mode_NE (f32_of_Z 1) (stop_order_margin c)) (v_price v))
        as ([G1 G1'] & G2 & _); auto; try lia; try lra.
      + split; auto. pose proof (bpow_gt_0 radix2 (-24)). cbn [bpow]. lra.
      + split; [exact G1|]. split; [exact G2|]. eapply Rle_trans; [apply G1'|]. apply bpow_le. lia.
    - destruct C as [(F & H) Hlt _]. destruct (one_plus (stop_order_margin c)) as (H1 & H2).
      { split; auto. split; [lra|]. eapply Rle_trans; [apply H|]. change 1 with (bpow radix2 0). apply bpow_le. lia. }
      destruct (Bmult_ge 0 (-100) 21 100 (Bplus mode_NE (f32_of_Z 1) (stop_order_margin c)) (v_price v))
        as ([G1 G1'] & G2 & _); auto; try lia.
      split; [exact G1|]. split; [|exact (proj2 G1')]. eapply Rle_trans; [|exact G2]. apply bpow_le. lia.
  Qed.

  Lemma limit_range c v : ok_stop c -> ok_view v ->
    is_finite (follow_limit c v : f32) = true /\ B2R (follow_limit c v : f32) <= bpow radix2 121 /\
    (is_long v = false -> bpow radix2 (-100) <= B2R (follow_limit c v : f32)).
  Proof.
    intros C V. destruct (price_nneg lm as_ v V) as (HP & LP). unfold follow_limit. destruct (is_long v); cbn [fmul fsub fadd fofZ ieee].
    - destruct C as [_ _ (F & H)]. destruct (ofZ_finite 1 ltac:(lia)) as [F1 V1].
      destruct (Bminus_bnd 20 (f32_of_Z 1) (stop_order_move_margin c)) as (H1 & _); try lia.
      + split; auto. rewrite V1, Rabs_R1. change 1 with (bpow radix2 0). apply bpow_le. lia.
      + apply nneg_bnd. split; auto.
      + destruct (Bmult_bnd 21 100 (Bminus mode_NE (f32_of_Z 1) (stop_order_move_margin c)) (v_price v)) as ((H2 & H3) & _);
          auto; try lia. { apply nneg_bnd; auto. }
        split; [exact H2|]. split; [|discriminate]. eapply Rle_trans; [apply Rle_abs|]. exact H3.
    - destruct C as [_ _ Hm]. destruct (one_plus _ Hm) as (H1 & H2).
      destruct (Bmult_ge 0 (-100) 21 100 (Bplus mode_NE (f32_of_Z 1) (stop_order_move_margin c)) (v_price v))
        as ([G1 G1'] & G2 & _); auto; try lia.
      split; [exact G1|]. split; [exact (proj2 G1')|]. intros _. exact G2.
  Qed.

  Lemma follows_sound c v p p' : ok_stop c -> ok_view v -> sound p -> @follows I c v p p' -> sound p'.
  Proof.
    intros C V S H. pose proof S as (F & P1 & P2).
    assert (G : good_price p) by (split; [exact F|]; pose proof (bpow_gt_0 radix2 (-124)); lra).
    destruct (follows_good lm as_ c v p p' C V G H) as [F' _]. destruct H as [->|H]; [exact S|].
    destruct (limit_range c v C V) as (FL & U & L). split; [exact F'|].
    destruct (is_long v).
    - destruct H as [H1 H2]. cbn [fltb fleb ieee] in H1, H2. change (@flt I) with f32 in *.
      rewrite Bltb_ext in H1 by (apply finite_num; assumption). rewrite Bleb_ext in H2 by (apply finite_num; assumption).
      rewrite !ext_finite in H1, H2 by assumption.
      destruct (Rlt_bool_spec (B2R p) (B2R p')); [|discriminate]. destruct (Rle_bool_spec (B2R p') (B2R (follow_limit c v))); [|discriminate]. lra.
    - specialize (L eq_refl). destruct H as [H1 H2]. cbn [fltb fleb ieee] in H1, H2. change (@flt I) with f32 in *.
      rewrite Bltb_ext in H1 by (apply finite_num; assumption). rewrite Bleb_ext in H2 by (apply finite_num; assumption).
      rewrite !ext_finite in H1, H2 by assumption.
      destruct (Rlt_bool_spec (B2R p') (B2R p)); [|discriminate]. destruct (Rle_bool_spec (B2R (follow_limit c v)) (B2R p')); [|discriminate].
      pose proof (bpow_le radix2 (-124) (-100) ltac:(lia)). lra.
  Qed.

  Lemma chain_sound c vs : ok_stop c -> Forall ok_view vs -> forall v0 (p0 : @flt I) ps,
    sound p0 -> chain c (state_after v0 p0) vs ps -> Forall sound ps.
  Proof.
    intros C. induction vs as [|v vs IH]; intros HV v0 p0 [|p ps] G H; cbn [chain] in H; try (destruct H; fail); [constructor|].
    destruct H as (_ & Hn & Hc). inversion HV as [|? ? V1 V2]; subst.
    assert (sound p).
    { destruct (restart (state_after v0 p0) v) eqn:R.
      - unfold next_stop in Hn. rewrite R in Hn. injection Hn as <-. apply start_sound; assumption.
      - apply (follows_sound c v p0 p C V1 G). apply (follows_step (ieee_order lm as_) c v0 p0 v p Hn).
        intros N. apply (restart_after v0 p0 v) in N. congruence. }
    constructor; eauto.
  Qed.

  Lemma stop_prices_sound c vs ps : ok_stop c -> Forall ok_view vs -> @stop_prices I c vs ps -> Forall sound ps.
  Proof.
    intros C HV H. apply stop_prices_chain in H. destruct vs as [|v vs], ps as [|p ps]; cbn [chain] in H; try (destruct H; fail); [constructor|].
    destruct H as (_ & Hn & Hc). inversion HV as [|? ? V1 V2]; subst.
    unfold next_stop in Hn. rewrite restart_first in Hn. injection Hn as <-.
    pose proof (start_sound c v C V1) as G. constructor; auto. eapply chain_sound; eauto.
  Qed.

  (** 1 + increase, 1 - decrease. *)
  Lemma half_ulp e x : (-125 <= e)%Z -> 0 < x < bpow radix2 e ->
    Rabs (round radix2 (FLT_exp (-149) 24) ZnearestE x - x) <= / 2 * bpow radix2 (e - 24).
  Proof.
    intros He H. eapply Rle_trans; [apply error_le_half_ulp; exact _|].
    apply Rmult_le_compat_l; [lra|]. rewrite ulp_neq_0 by lra. apply bpow_le. unfold cexp, FLT_exp.
    assert (mag radix2 x <= e)%Z by (apply mag_le_bpow; [lra|rewrite Rabs_pos_eq; lra]). lia.
  Qed.

  Lemma grow_ok (x : f32) : number_in 0 1 x ->
    is_finite (Bplus mode_NE (f32_of_Z 1) x) = true /\ 1 <= B2R (Bplus mode_NE (f32_of_Z 1) x) <= 2 /\
    Rabs (B2R (Bplus mode_NE (f32_of_Z 1) x) - (1 + B2R x)) <= / 16777216.
  Proof.
    intros (F & H). destruct (ofZ_finite 1 ltac:(lia)) as [F1 V1].
    pose proof (Bplus_correct 24 128 _ _ mode_NE (f32_of_Z 1) x F1 F) as K. cbn [round_mode] in K. rewrite V1 in K.
    rewrite (no_overflow _ 1) in K; [|lia|change (bpow radix2 1) with 2; apply Rabs_le; lra].
    destruct K as (K1 & K2 & _). split; [exact K2|]. rewrite K1. split.
    - split; [apply rnd_1_le; lra|]. change 2 with (bpow radix2 1). apply rnd_le_bpow; [lia|]. change (bpow radix2 1) with 2. lra.
    - destruct (Req_dec (B2R x) 1) as [->|N].
      { rewrite round_generic; [|exact _|apply (fmt_z 2); lia]. replace (1 + 1 - (1 + 1)) with 0 by ring. rewrite Rabs_R0. lra. }
      eapply Rle_trans; [apply (half_ulp 1); [lia|change (bpow radix2 1) with 2; lra]|].
      change (bpow radix2 (1 - 24)) with (/ 8388608). lra.
  Qed.

  Lemma shrink_ok (x : f32) : number_in 0 (/ 2) x ->
    is_finite (Bminus mode_NE (f32_of_Z 1) x) = true /\ / 2 <= B2R (Bminus mode_NE (f32_of_Z 1) x) <= 1 /\
    Rabs (B2R (Bminus mode_NE (f32_of_Z 1) x) - (1 - B2R x)) <= / 16777216.
  Proof.
    intros (F & H). destruct (one_minus x F ltac:(lra)) as (F1 & H1 & V). split; [exact F1|]. rewrite V.
    split.
    - split; [|apply rnd_le_1; lra]. change (/ 2) with (bpow radix2 (-1)). apply rnd_ge_bpow; [lia|]. change (bpow radix2 (-1)) with (/ 2). lra.
    - destruct (Req_dec (B2R x) 0) as [->|N].
      { rewrite round_generic; [|exact _|replace (1 - 0) with 1 by ring; apply (fmt_z 1); lia]. replace (1 - 0 - (1 - 0)) with 0 by ring. rewrite Rabs_R0. lra. }
      eapply Rle_trans; [apply (half_ulp 0); [lia|change (bpow radix2 0) with 1; lra]|].
      change (bpow radix2 (0 - 24)) with (/ 16777216). lra.
  Qed.

  (** The factor of a tick. *)
  Definition factor c v0 v : f32 :=
    tick_factor lm (if is_long v then Bplus mode_NE (f32_of_Z 1) (stop_order_increase_per_day c)
                    else Bminus mode_NE (f32_of_Z 1) (stop_order_decrease_per_day c)) (v_time v - v_time v0).

  Lemma factor_ok c v0 v : accurate lm -> ok_rates c -> (1 <= v_time v - v_time v0 < 3600)%Z ->
    is_finite (factor c v0 v) = true /\
    Rabs (B2R (factor c v0 v) - rate c v0 v) <= 11 / 67108864 * rate c v0 v /\ / 2 <= B2R (factor c v0 v) <= 2.
  Proof.
    intros Hlm (R1 & R2) Hd. unfold factor, rate, Rpower. destruct (is_long v).
    - destruct (grow_ok _ R1) as (F & B & E). destruct R1 as (_ & R1).
      apply (factor_err lm Hlm _ (1 + B2R (stop_order_increase_per_day c : f32))); auto; lra.
    - destruct (shrink_ok _ R2) as (F & B & E). destruct R2 as (_ & R2).
      apply (factor_err lm Hlm _ (1 - B2R (stop_order_decrease_per_day c : f32))); auto; lra.
  Qed.

  Lemma target_ok (e p0 : f32) : is_finite e = true -> / 2 <= B2R e <= 2 -> sound p0 ->
    is_finite (Bmult mode_NE e p0) = true /\ B2R (Bmult mode_NE e p0) = rnd (B2R e * B2R p0).
  Proof.
    intros F He (F0 & P1 & P2). pose proof (bpow_gt_0 radix2 (-124)).
    destruct (Bmult_nneg 1 121 e p0) as [[H1 _] H2]; try lia; [| |auto]; (split; [assumption|]); [|lra].
    change (bpow radix2 1) with 2. lra.
  Qed.

  Lemma step_val c v0 v (p0 p : @flt I) : accurate lm -> ok_stop c -> ok_rates c -> ok_view v -> sound p0 ->
    next_stop c (state_after v0 p0) v = Done p -> ~ new_position v0 v -> (v_time v0 < v_time v)%Z ->
    trails c v (B2R (p0 : f32)) (rnd (B2R (factor c v0 v) * B2R (p0 : f32))) (B2R (p : f32)).
  Proof.
    intros Hlm C R V S H Hn Ht.
    assert (E0 : restart (state_after v0 p0) v = false).
    { destruct (restart _ v) eqn:E0; auto. apply restart_after in E0. contradiction. }
    apply move_done in H; [|exact E0].
    assert (G : (1 <= v_time v - v_time v0 < 3600)%Z).
    { unfold new_position in Hn. apply Classical_Prop.not_or_and in Hn. lia. }
    destruct (factor_ok c v0 v Hlm R G) as (Fe & _ & Be). destruct (limit_range c v C V) as (FL & _).
    pose proof S as (F0 & _). destruct (target_ok _ p0 Fe Be S) as (Fq & Vq).
    unfold trails, factor in *. destruct (is_long v) eqn:L.
    - unfold UpdateStopOrderPrice, view_mode in H. unfold follow_limit in *. rewrite L in *.

      cbn [state_after stop_order_price sp_timestamp bind] in H. rewrite Z.min_r in H by (unfold kSecondsPerDay; lia).
      set (e := tick_factor lm _ _) in *.
      set (lim := Bmult mode_NE (Bminus mode_NE (f32_of_Z 1) (stop_order_move_margin c)) (v_price v) : f32).
      change (is_finite lim = true) in FL.
      destruct (up_and_down e Fe Be) as [Fu Vu]. cbv zeta in Fu, Vu.
      set (e' := Bplus mode_NE (f32_of_Z 1) (Bminus mode_NE e (f32_of_Z 1))) in *.
      change ((if Bleb (p0 : f32) lim then Done (@fmax I p0 (@fmin I lim (Bmult mode_NE e' p0))) else Done p0) = Done p) in H.
      change (B2R (p : f32) = if Rle_dec (B2R (p0 : f32)) (B2R lim) then Rmax (B2R (p0 : f32)) (Rmin (B2R lim) (rnd (B2R e * B2R (p0 : f32)))) else B2R (p0 : f32)).
      rewrite <- Vu in Be. destruct (target_ok e' p0 Fu Be S) as (Fq' & Vq').
      clearbody e' lim e. rewrite Vu in Vq'. change (@flt I) with f32 in *.
      rewrite Bleb_ext in H by (apply finite_num; assumption). rewrite !ext_finite in H by assumption.
      destruct (Rle_bool_spec (B2R (p0 : f32)) (B2R lim)) as [Q|Q]; injection H as <-; destruct (Rle_dec (B2R (p0 : f32)) (B2R lim)); try lra.
      rewrite fmax_val; [|exact F0|]; [|unfold fmin; match goal with |- context[if ?b then _ else _] => destruct b end; assumption].
      rewrite fmin_val by assumption. rewrite Vq'. reflexivity.
    - unfold UpdateStopOrderPrice, view_mode in H. unfold follow_limit in *. rewrite L in *.
      cbn [mode_eqb] in H. rewrite assert_true in H.
      cbn [state_after stop_order_price sp_timestamp bind] in H. rewrite Z.min_r in H by (unfold kSecondsPerDay; lia).
      set (e := tick_factor lm _ _) in *.
      set (lim := Bmult mode_NE (Bplus mode_NE (f32_of_Z 1) (stop_order_move_margin c)) (v_price v) : f32).
      change (is_finite lim = true) in FL.
      destruct (down_and_up e Fe Be) as [Fu Vu]. cbv zeta in Fu, Vu.
      set (e' := Bminus mode_NE (f32_of_Z 1) (Bminus mode_NE (f32_of_Z 1) e)) in *.
      change ((if Bleb lim (p0 : f32) then Done (@fmin I p0 (@fmax I lim (Bmult mode_NE e' p0))) else Done p0) = Done p) in H.
      change (B2R (p : f32) = if Rle_dec (B2R lim) (B2R (p0 : f32)) then Rmin (B2R (p0 : f32)) (Rmax (B2R lim) (rnd (B2R e * B2R (p0 : f32)))) else B2R (p0 : f32)).
      rewrite <- Vu in Be. destruct (target_ok e' p0 Fu Be S) as (Fq' & Vq').
      clearbody e' lim e. rewrite Vu in Vq'. change (@flt I) with f32 in *.
      rewrite Bleb_ext in H by (apply finite_num; assumption). rewrite !ext_finite in H by assumption.
      destruct (Rle_bool_spec (B2R lim) (B2R (p0 : f32))) as [Q|Q]; injection H as <-; destruct (Rle_dec (B2R lim) (B2R (p0 : f32))); try lra.
      rewrite fmin_val; [|exact F0|]; [|unfold fmax; match goal with |- context[if ?b then _ else _] => destruct b end; assumption].
      rewrite fmax_val by assumption. rewrite Vq'. reflexivity.
  Qed.

  Lemma target_err c v0 v (p0 : f32) : accurate lm -> ok_rates c -> (1 <= v_time v - v_time v0 < 3600)%Z -> sound p0 ->
    Rabs (rnd (B2R (factor c v0 v) * B2R p0) - B2R p0 * rate c v0 v) <= bpow radix2 (-22) * (B2R p0 * rate c v0 v).
  Proof.
    intros Hlm R G (F0 & P1 & P2). destruct (factor_ok c v0 v Hlm R G) as (_ & E & B).
    set (e := B2R (factor c v0 v)) in *. set (p := B2R p0) in *. set (r := rate c v0 v) in *. clearbody e p r.
    assert (P : 0 < p) by (pose proof (bpow_gt_0 radix2 (-124)); lra).
    destruct (rel32 (e * p)) as (d & Hd & Ed).
    { rewrite Rabs_pos_eq by nra. apply Rle_trans with (/ 2 * bpow radix2 (-124)); [|apply Rmult_le_compat; try lra; pose proof (bpow_gt_0 radix2 (-124)); lra].
      change (/ 2) with (bpow radix2 (-1)). rewrite <- bpow_plus. apply bpow_le. lia. }
    rewrite Ed. change (bpow radix2 (-22)) with (/ 4194304).
    apply Rabs_le_inv in E. apply Rabs_le_inv in Hd.
    assert (R0 : 0 < r) by nra.
    assert (X : Rabs (e * (1 + d) - r) <= / 4194304 * r).
    { apply Rabs_le. split; nra. }
    replace (e * p * (1 + d) - p * r) with (p * (e * (1 + d) - r)) by ring.
    rewrite Rabs_mult, (Rabs_pos_eq p) by lra. nra.
  Qed.

  (** The stop does not move. *)
  Lemma factor_slow c v0 v : accurate lm -> nearest_exp lm -> ok_rates c -> (1 <= v_time v - v_time v0 < 3600)%Z ->
    slow c v0 v -> B2R (factor c v0 v) = 1.
  Proof.
    intros Hlm Hn (R1 & R2) Hd Hs. unfold slow, factor in *.
    assert (D1 : 1 <= IZR (v_time v - v_time v0)) by (apply IZR_le; lia).
    assert (D2 : IZR (v_time v - v_time v0) <= 3600) by (apply IZR_le; lia).
    set (D := IZR (v_time v - v_time v0)) in *.
    destruct (is_long v).
    - destruct (grow_ok _ R1) as (F & B & E). destruct R1 as (_ & R1).
      set (a := Bplus mode_NE (f32_of_Z 1) (stop_order_increase_per_day c)) in *. apply Rabs_le_inv in E.
      apply (factor_one lm Hlm); auto; try lra. fold D.
      pose proof (ln_le_minus (B2R a) ltac:(lra)) as U.
      assert (0 <= ln (B2R a)). { destruct (Req_dec (B2R a) 1) as [->|N]; [rewrite ln_1; lra|]. left. rewrite <- ln_1. apply ln_increasing; lra. }
      split; [nra|]. nra.
    - destruct (shrink_ok _ R2) as (F & B & E). destruct R2 as (_ & R2).
      set (a := Bminus mode_NE (f32_of_Z 1) (stop_order_decrease_per_day c)) in *. apply Rabs_le_inv in E.
      apply (factor_one lm Hlm); auto; try lra. fold D.
      assert (A : 1 - 3 / 1000 <= B2R a) by nra.
      pose proof (ln_le_minus (/ B2R a) ltac:(apply Rinv_0_lt_compat; lra)) as U. rewrite ln_Rinv in U by lra.
      assert (V : / B2R a - 1 <= (1 - B2R a) * (1004 / 1000)).
      { assert (0 < / B2R a <= 1004 / 1000).
        { split; [apply Rinv_0_lt_compat; lra|]. apply Rmult_le_reg_r with (B2R a); [lra|]. rewrite Rinv_l by lra. lra. }
        replace (/ B2R a - 1) with ((1 - B2R a) * / B2R a) by (field; lra). nra. }
      assert (ln (B2R a) <= 0). { pose proof (ln_le_minus (B2R a) ltac:(lra)). lra. }
      split; nra.
  Qed.

  Lemma step_slow c v0 v (p0 p : @flt I) : accurate lm -> nearest_exp lm -> ok_stop c -> ok_rates c -> ok_view v -> sound p0 ->
    next_stop c (state_after v0 p0) v = Done p -> ~ new_position v0 v -> (v_time v0 < v_time v)%Z -> slow c v0 v ->
    B2R (p : f32) = B2R (p0 : f32).
  Proof.
    intros Hlm Hne C R V S H Hn Ht Hs. pose proof (step_val c v0 v p0 p Hlm C R V S H Hn Ht) as T.
    rewrite (factor_slow c v0 v Hlm Hne R) in T; [| |exact Hs].
    2: { unfold new_position in Hn. apply Classical_Prop.not_or_and in Hn. lia. }
    rewrite Rmult_1_l in T. rewrite round_generic in T; [|exact _|apply generic_format_B2R].
    unfold trails in T. destruct (is_long v); destruct (Rle_dec _ _) in T; rewrite T; try reflexivity.
    - rewrite Rmin_right by assumption. apply Rmax_left. lra.
    - rewrite Rmax_right by assumption. apply Rmin_left. lra.
  Qed.
End Step.
