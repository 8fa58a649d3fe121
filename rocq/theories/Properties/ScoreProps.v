(** How far float rounding takes the averages and the score of an evaluation from the means
    they stand for. *)
From Coq Require Import Reals ZArith Bool List Lia Lra.
From Flocq Require Import Core BinarySingleNaN.
From Verif.Model Require Import Outcome Machine Types Account SideInput MachineIEEE TimeUtil Eval.
From Verif.Spec Require Import AccountIEEESpec IndicatorSpec ScoreSpec.
From Verif.Proofs Require Import Base FloatLemmas FloatErr AvgFloat ScoreFloat.
From Verif.Properties Require Import EvalProps.
Import ListNotations.
Local Open Scope R_scope.

Section Score.
  Context (lm : libm) (as_ : bool).
  Local Notation I := (ieee lm as_).

  (** x is a finite float between 0 and 2^100. *)
  Definition amount100 (x : f32) : Prop := in_range 0 (bpow radix2 100) x.

  (** |q - m| <= (n + 1) * 2^-23 * m + 2^-150 for a finite q. *)
  Definition near_mean (n : nat) (q : f32) (m : R) : Prop :=
    is_finite q = true /\ Rabs (B2R q - m) <= (INR n + 1) * / 2 ^ 23 * m + bpow radix2 (-150).

  Lemma average_near {A} (l : list A) (f : A -> f32) : l <> [] -> (Z.of_nat (length l) <= 2 ^ 20)%Z ->
    (forall a, In a l -> amount100 (f a)) ->
    near_mean (length l) (@GetAverage I A l f) (IndicatorSpec.mean (map (fun a => B2R (f a)) l)).
  Proof.
    intros Hne Hn HF. unfold near_mean. replace (/ 2 ^ 23) with (/ 8388608) by (f_equal; lra).
    apply (average_err lm as_ 100 l f Hne); [lia|exact Hn|]. apply Forall_forall. exact HF.
  Qed.

  (** ** C94 The averages of an evaluation. *)
  Theorem C94_averages : forall cfg ec history side te lg hl fuel l r l',
    @EvaluateTrader I cfg ec history side te lg hl fuel l = Done (r, l') ->
    let ps := er_period r in
    ps <> [] -> (Z.of_nat (length ps) <= 2 ^ 20)%Z ->
    (forall p, In p ps -> amount100 (p_final_gain p) /\ amount100 (p_base_final_gain p) /\
       amount100 (r_total_fee (p_result p)) /\ (0 <= @r_total_executed_orders I (p_result p) <= 2 ^ 24)%Z) ->
    let n := length ps in
    near_mean n (er_avg_gain r) (IndicatorSpec.mean (map (fun p : @period I => B2R (p_final_gain p : f32)) ps)) /\
    near_mean n (er_avg_base_gain r) (IndicatorSpec.mean (map (fun p : @period I => B2R (p_base_final_gain p : f32)) ps)) /\
    near_mean n (er_avg_total_fee r) (IndicatorSpec.mean (map (fun p : @period I => B2R (r_total_fee (p_result p) : f32)) ps)) /\
    near_mean n (er_avg_total_executed_orders r)
      (IndicatorSpec.mean (map (fun p : @period I => IZR (@r_total_executed_orders I (p_result p))) ps)).
  Proof.
    intros cfg ec history side te lg hl fuel l r l' H ps Hne Hn HF n.
    apply bind_done in H as ([ps0 l1] & _ & H). apply bind_done in H as (r' & Hr & Er). injection Er as -> ->.
    unfold eval_summary in Hr. apply bind_done in Hr as (sc & _ & Hr). injection Hr as <-.
    subst n ps. cbn [er_period er_avg_gain er_avg_base_gain er_avg_total_executed_orders er_avg_total_fee] in *.
    split; [|split; [|split]].
    - apply (average_near ps0 (@p_final_gain I)); auto. intros p Hp. apply HF. exact Hp.
    - apply (average_near ps0 (@p_base_final_gain I)); auto. intros p Hp. apply HF. exact Hp.
    - apply (average_near ps0 (fun p => r_total_fee (p_result p))); auto. intros p Hp. apply HF. exact Hp.
    - assert (O : forall p, In p ps0 -> is_finite (f32_of_Z (r_total_executed_orders (p_result p))) = true /\
                  B2R (f32_of_Z (r_total_executed_orders (p_result p))) = IZR (r_total_executed_orders (p_result p))).
      { intros p Hp. apply ofZ_finite. destruct (HF p Hp) as (_ & _ & _ & Hz). lia. }
      replace (map (fun p : @period I => IZR (r_total_executed_orders (p_result p))) ps0)
        with (map (fun p : @period I => B2R (f32_of_Z (r_total_executed_orders (p_result p)))) ps0)
        by (apply map_ext_in; intros p Hp; apply O; exact Hp).
      apply (average_near ps0 (fun p => f32_of_Z (r_total_executed_orders (p_result p)))); auto.
      intros p Hp. destruct (O p Hp) as (F1 & E1). destruct (HF p Hp) as (_ & _ & _ & Hz).
      split; [exact F1|]. rewrite E1. split; [apply IZR_le; lia|].
      apply Rle_trans with (bpow radix2 24); [|apply bpow_le; lia]. change (bpow radix2 24) with (IZR (2 ^ 24)). apply IZR_le. lia.
  Qed.

  (** ** C95 The score: within 2^-22 (relatively) of the geometric mean of gain / base gain. *)
  Theorem C95_score : forall cfg ec history side te lg hl fuel l r l' j,
    pow_accurate lm ->
    @EvaluateTrader I cfg ec history side te lg hl fuel l = Done (r, l') ->
    let ps := er_period r in
    let n := length ps in
    ps <> [] -> (0 <= j <= 100)%Z -> ((j + 1) * Z.of_nat n <= 1000)%Z ->
    let ratio (p : @period I) := B2R (p_final_gain p : f32) / B2R (p_base_final_gain p : f32) in
    (forall p, In p ps -> is_finite (p_final_gain p : f32) = true /\ is_finite (p_base_final_gain p : f32) = true /\
       0 < B2R (p_base_final_gain p : f32) /\ bpow radix2 (- j) <= ratio p <= bpow radix2 j) ->
    exists g, 0 < g /\ g ^ n = fold_right Rmult 1 (map ratio ps) /\
      is_finite (er_score r : f32) = true /\ Rabs (B2R (er_score r : f32) - g) <= / 2 ^ 22 * g.
  Proof.
    intros cfg ec history side te lg hl fuel l r l' j HL H ps n Hne Hj Hn ratio HF.
    apply bind_done in H as ([ps0 l1] & _ & H). apply bind_done in H as (r' & Hr & Er). injection Er as -> ->.
    unfold eval_summary in Hr. apply bind_done in Hr as (sc & Hg & Hr). injection Hr as <-.
    subst n ps. cbn [er_period er_score] in *.
    set (gb := map (fun p : @period I => (p_final_gain p : f32, p_base_final_gain p : f32)) ps0).
    assert (Lg : length gb = length ps0) by apply map_length.
    destruct (score_err lm j gb HL) as (Fs & Es).
    - unfold gb. destruct ps0; [congruence|discriminate].
    - exact Hj.
    - rewrite Lg. exact Hn.
    - apply Forall_map, Forall_forall. exact HF.
    - rewrite Lg in Fs, Es.
      match type of Es with context [prod ?m] => replace m with (map ratio ps0) in Es by (unfold gb; rewrite map_map; reflexivity) end.
      set (X := prod (map ratio ps0)) in *.
      exists (Rpower X (/ INR (length ps0))).
      assert (N : 1 <= INR (length ps0)) by (destruct ps0; [congruence|]; change 1 with (INR 1); apply le_INR; cbn; lia).
      assert (X0 : 0 < X).
      { unfold X. clear - HF. induction ps0 as [|p ps0 IH]; cbn; [lra|]. apply Rmult_lt_0_compat.
        - destruct (HF p (or_introl eq_refl)) as (_ & _ & _ & Hr & _). pose proof (bpow_gt_0 radix2 (- j)). lra.
        - apply IH. intros q Hq. apply HF. right. exact Hq. }
      split; [apply exp_pos|]. split.
      { rewrite <- Rpower_pow by apply exp_pos. rewrite Rpower_mult, Rinv_l by lra. apply Rpower_1. exact X0. }
      assert (Sc : sc = f64_to_f32 (libm_pow lm (fold_left (fun m gb => Bmult mode_NE m (f32_to_f64 (Bdiv mode_NE (fst gb) (snd gb)))) gb (f64_of_Z 1))
                      (Bdiv mode_NE (f64_of_Z 1) (f64_of_Z (Z.of_nat (length ps0)))))).
      { unfold GetGeometricAverage in Hg. unfold gb. destruct ps0 as [|p0 ps0]; [congruence|].
        apply bind_done in Hg as (u & _ & Hg). apply Done_eq in Hg. subst sc.
        match goal with |- @d2f _ (dpow ?a ?b) = f64_to_f32 (libm_pow lm ?c ?d) => enough (K : a = c) by (rewrite <- K; reflexivity) end.
        change (@dofZ I 1) with (f64_of_Z 1). generalize (f64_of_Z 1) as z. generalize (p0 :: ps0) as L. clear.
        induction L as [|p L IH]; intros z; [reflexivity|]. cbn [map fold_left]. apply IH. }
      rewrite Sc. split; [exact Fs|exact Es].
  Qed.
End Score.

(** ** A library whose pow is as accurate as assumed: the correctly rounded one. *)
Definition rounded_pow (x y : f64) : f64 :=
  let v := rnd64 (Rpower (B2R x) (B2R y)) in
  binary_normalize 53 1024 (eq_refl _) (eq_refl _) mode_NE (Ztrunc (scaled_mantissa radix2 fexp64 v)) (cexp radix2 fexp64 v) false.

Lemma C95_pow_ex (lm : libm) : pow_accurate (Libm (libm_expf lm) (libm_logf lm) rounded_pow).
Proof.
  intros x y Fx Fy Hx H. cbn [libm_pow]. unfold rounded_pow.
  set (w := Rpower (B2R x) (B2R y)) in *. set (v := rnd64 w).
  pose proof (binary_normalize_correct 53 1024 (eq_refl _) (eq_refl _) mode_NE (Ztrunc (scaled_mantissa radix2 fexp64 v)) (cexp radix2 fexp64 v) false) as K.
  cbn [round_mode] in K.
  assert (Gv : generic_format radix2 fexp64 v) by (apply generic_format_round; exact _).
  assert (Ev : F2R (Float radix2 (Ztrunc (scaled_mantissa radix2 fexp64 v)) (cexp radix2 fexp64 v)) = v) by (symmetry; exact Gv).
  rewrite Ev in K. rewrite round_generic in K; [|exact _|exact Gv].
  pose proof (bpow_gt_0 radix2 (-1000)) as P.
  assert (N := no_overflow64 w 1000 ltac:(lia) ltac:(rewrite Rabs_pos_eq by lra; apply H)). fold v in N. rewrite N in K.
  destruct K as (KR & KF & _). split; [exact KF|].
  destruct (rel64 w) as (e & He & Ee).
  { rewrite Rabs_pos_eq by lra. eapply Rle_trans; [|apply H]. apply bpow_le. lia. }
  match goal with |- Rabs (?b - _) <= _ => replace b with (w * (1 + e)) by (symmetry; etransitivity; [exact KR|exact Ee]) end.
  replace (w * (1 + e) - w) with (e * w) by ring. rewrite Rabs_mult, (Rabs_pos_eq w) by lra.
  apply Rmult_le_compat_r; [lra|]. eapply Rle_trans; [exact He|]. unfold e53.
  replace (/ 2 ^ 40) with (/ 1099511627776) by (f_equal; lra). lra.
Qed.

(** ** A concrete case: one base unit and 100 in quote currency held over three periods with
    prices 100, 150 -> 170 and 90: the second gain is 270/250 against 170/150. *)
Section ScoreEx.
  Context (lm : libm) (as_ : bool).
  Local Notation I := (ieee lm as_).
  Definition sc_config : @account_config I :=
    @AccountConfig I (en 1) (en 100) (en 1) (en 1) e_free e_free e_free (en 1) (en 0).
  Definition sc_run := @EvaluateTrader I sc_config (e_eval 1) e_history None e_holder null_logger false 10 tt.
  Definition sc_seen : outcome (list (SpecFloat.spec_float * SpecFloat.spec_float * SpecFloat.spec_float * Z)) :=
    omap (fun x => map (fun p : @period I => (B2SF (p_final_gain p : f32), B2SF (p_base_final_gain p : f32),
                        B2SF (r_total_fee (p_result p) : f32), r_total_executed_orders (p_result p))) (er_period (fst x))) sc_run.
End ScoreEx.

Definition sc_one := SpecFloat.S754_finite false 8388608 (-23).
Lemma sc_vals lm as_ : sc_seen lm as_ =
  Done [(sc_one, sc_one, SpecFloat.S754_zero false, 0%Z);
        (SpecFloat.S754_finite false 9059697 (-23), SpecFloat.S754_finite false 9507089 (-23), SpecFloat.S754_zero false, 0%Z);
        (sc_one, sc_one, SpecFloat.S754_zero false, 0%Z)].
Proof. destruct as_; vm_compute; reflexivity. Qed.

Lemma div_le_ x y k : 0 < y -> x <= k * y -> x / y <= k.
Proof. intros Hy H. apply Rmult_le_reg_r with y; [exact Hy|]. unfold Rdiv. rewrite Rmult_assoc, Rinv_l by lra. lra. Qed.
Lemma div_ge_ x y k : 0 < y -> k * y <= x -> k <= x / y.
Proof. intros Hy H. apply Rmult_le_reg_r with y; [exact Hy|]. unfold Rdiv. rewrite Rmult_assoc, Rinv_l by lra. lra. Qed.
Lemma sf_value (x : f32) m : B2SF x = SpecFloat.S754_finite false m (-23) -> is_finite x = true /\ B2R x = IZR (Zpos m) * / 8388608.
Proof.
  destruct x as [s|s| |s m' e H]; try discriminate. cbn [B2SF]. intros E. injection E as -> -> ->. split; [reflexivity|].
  cbn [B2R]. unfold F2R. cbn [Fnum Fexp cond_Zopp]. change (bpow radix2 (-23)) with (/ 8388608). reflexivity.
Qed.
Lemma sf_zero (x : f32) s : B2SF x = SpecFloat.S754_zero s -> is_finite x = true /\ B2R x = 0.
Proof. destruct x as [s'|s'| |s' m' e H]; try discriminate. split; reflexivity. Qed.

(** All hypotheses of C94 and C95 hold of it (C95: for any library with an accurate pow). *)
Lemma C94_ex lm as_ : exists r l', sc_run lm as_ = Done (r, l') /\ length (er_period r) = 3%nat /\
  forall p, In p (er_period r) ->
    (amount100 (p_final_gain p) /\ amount100 (p_base_final_gain p) /\
     amount100 (r_total_fee (p_result p)) /\ (0 <= @r_total_executed_orders (ieee lm as_) (p_result p) <= 2 ^ 24)%Z) /\
    let ratio := B2R (p_final_gain p : f32) / B2R (p_base_final_gain p : f32) in
    0 < B2R (p_base_final_gain p : f32) /\ bpow radix2 (- (1)) <= ratio <= bpow radix2 1.
Proof.
  pose proof (sc_vals lm as_) as V. unfold sc_seen, omap in V. apply bind_done in V as ([r l'] & Hr & V).
  apply Done_eq in V. cbn [fst] in V.
  exists r, l'. split; [exact Hr|].
  assert (Len := f_equal (@length _) V). rewrite map_length in Len. split; [exact Len|].
  assert (B : 2 <= bpow radix2 100) by (change 2 with (bpow radix2 1); apply bpow_le; lia).
  intros p Hp. change (bpow radix2 (- (1))) with (/ 2). change (bpow radix2 1) with 2.
  apply (in_map (fun p : @period (ieee lm as_) => (B2SF (p_final_gain p : f32), B2SF (p_base_final_gain p : f32),
                        B2SF (r_total_fee (p_result p) : f32), r_total_executed_orders (p_result p)))) in Hp.
  rewrite V in Hp. unfold amount100, in_range, sc_one in *.
  assert (Z24 : (0 <= 0 <= 2 ^ 24)%Z) by lia.
  repeat destruct Hp as [Hp|Hp]; try contradiction; injection Hp as Eg Eb Ef Eo; rewrite <- Eo; symmetry in Eg, Eb, Ef;
    apply sf_value in Eg as (Fg & Rg); apply sf_value in Eb as (Fb & Rb); apply sf_zero in Ef as (Ff & Rf);
    rewrite Rg, Rb, Rf; repeat split; try assumption; try lra; try lia;
    try (apply div_ge_; lra); try (apply div_le_; lra).
Qed.
