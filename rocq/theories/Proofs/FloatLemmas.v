(** Lemmas about binary32 arithmetic used by the IEEE theorems. *)
From Coq Require Import Reals ZArith Bool Lra Lia.
From Flocq Require Import Core BinarySingleNaN.
From Verif.Model Require Import MachineIEEE.
Local Open Scope R_scope.

Notation fexp32 := (SpecFloat.fexp 24 128).
Notation rnd := (round radix2 fexp32 ZnearestE).

Lemma valid_exp32 : Valid_exp fexp32.
Proof. exact (fexp_correct 24 128 prec24). Qed.
#[global] Existing Instance valid_exp32.

(** ** Comparison on the extended line *)

Definition big : R := bpow radix2 128.
Definition ext (x : f32) : R :=
  match x with
  | B754_infinity s => if s then - big else big
  | _ => B2R x
  end.
Definition fnum (x : f32) : bool := negb (is_nan x).

Lemma ext_finite x : is_finite x = true -> ext x = B2R x.
Proof. destruct x; try discriminate; reflexivity. Qed.

Lemma ext_lt_big x : is_finite x = true -> - big < ext x < big.
Proof.
  intros H. rewrite (ext_finite x H).
  pose proof (abs_B2R_lt_emax 24 128 x) as Hb. apply Rabs_lt_inv in Hb. exact Hb.
Qed.

Lemma big_pos : 0 < big.
Proof. apply bpow_gt_0. Qed.

Lemma finite_cases (x : f32) :
  fnum x = true -> is_finite x = true \/ x = B754_infinity true \/ x = B754_infinity false.
Proof. destruct x as [s|[]| |s m e He]; auto; discriminate. Qed.

Lemma Bcompare_ext x y : fnum x = true -> fnum y = true -> Bcompare x y = Some (Rcompare (ext x) (ext y)).
Proof.
  intros Hx Hy. pose proof big_pos.
  destruct (finite_cases x Hx) as [Fx|[->| ->]]; destruct (finite_cases y Hy) as [Fy|[->| ->]].
  - rewrite !ext_finite by assumption. apply Bcompare_correct; assumption.
  - pose proof (ext_lt_big x Fx). change (ext (B754_infinity true)) with (- big). rewrite Rcompare_Gt by lra.
    destruct x; try discriminate; reflexivity.
  - pose proof (ext_lt_big x Fx). change (ext (B754_infinity false)) with big. rewrite Rcompare_Lt by lra.
    destruct x; try discriminate; reflexivity.
  - pose proof (ext_lt_big y Fy). change (ext (B754_infinity true)) with (- big). rewrite Rcompare_Lt by lra.
    destruct y; try discriminate; reflexivity.
  - cbn [ext]. rewrite Rcompare_Eq by reflexivity. reflexivity.
  - cbn [ext]. rewrite Rcompare_Lt by lra. reflexivity.
  - pose proof (ext_lt_big y Fy). change (ext (B754_infinity false)) with big. rewrite Rcompare_Gt by lra.
    destruct y; try discriminate; reflexivity.
  - cbn [ext]. rewrite Rcompare_Gt by lra. reflexivity.
  - cbn [ext]. rewrite Rcompare_Eq by reflexivity. reflexivity.
Qed.

Lemma Bltb_ext x y : fnum x = true -> fnum y = true -> Bltb x y = Rlt_bool (ext x) (ext y).
Proof.
  intros Hx Hy. pose proof (Bcompare_ext x y Hx Hy) as H.
  unfold Bcompare in H. unfold Bltb, SpecFloat.SFltb. rewrite H.
  unfold Rlt_bool. reflexivity.
Qed.

Lemma Bleb_ext x y : fnum x = true -> fnum y = true -> Bleb x y = Rle_bool (ext x) (ext y).
Proof.
  intros Hx Hy. pose proof (Bcompare_ext x y Hx Hy) as H.
  unfold Bcompare in H. unfold Bleb, SpecFloat.SFleb. rewrite H.
  unfold Rle_bool. destruct (Rcompare (ext x) (ext y)); reflexivity.
Qed.

Lemma Beqb_ext x y : fnum x = true -> fnum y = true -> Beqb x y = Req_bool (ext x) (ext y).
Proof.
  intros Hx Hy. pose proof (Bcompare_ext x y Hx Hy) as H.
  unfold Bcompare in H. unfold Beqb, SpecFloat.SFeqb. rewrite H.
  unfold Req_bool. destruct (Rcompare (ext x) (ext y)); reflexivity.
Qed.

Lemma Bltb_num x y : Bltb x y = true -> fnum x = true /\ fnum y = true.
Proof. destruct x as [?|?| |? ? ? ?], y as [?|?| |? ? ? ?]; cbn; auto; try discriminate;
  try (destruct s; discriminate); try (destruct s0; discriminate). Qed.
Lemma Bleb_num x y : Bleb x y = true -> fnum x = true /\ fnum y = true.
Proof. destruct x as [?|?| |? ? ? ?], y as [?|?| |? ? ? ?]; cbn; auto; try discriminate;
  try (destruct s; discriminate); try (destruct s0; discriminate). Qed.

Lemma Bltb_nan_l y : Bltb (B754_nan : f32) y = false.
Proof. destruct y; reflexivity. Qed.
Lemma Bltb_nan_r x : Bltb x (B754_nan : f32) = false.
Proof. destruct x; try reflexivity; destruct s; reflexivity. Qed.

Lemma finite_num (x : f32) : is_finite x = true -> fnum x = true.
Proof. destruct x; auto; discriminate. Qed.

(** ** Rounding *)

Lemma rnd_mono x y : x <= y -> rnd x <= rnd y.
Proof. apply round_le; exact _. Qed.

Lemma rnd_0 : rnd 0 = 0.
Proof. apply round_0; exact _. Qed.

Lemma rnd_nonneg x : 0 <= x -> 0 <= rnd x.
Proof. intros. rewrite <- rnd_0. apply rnd_mono; assumption. Qed.

Lemma format_bpow k : (-149 <= k)%Z -> generic_format radix2 fexp32 (bpow radix2 k).
Proof.
  intros H. apply generic_format_bpow. unfold SpecFloat.fexp, SpecFloat.emin. lia.
Qed.

Lemma rnd_abs_le x k : (-149 <= k)%Z -> Rabs x <= bpow radix2 k -> Rabs (rnd x) <= bpow radix2 k.
Proof.
  intros Hk H. apply abs_round_le_generic; auto; try exact _. apply format_bpow; exact Hk.
Qed.

Lemma rnd_le_bpow x k : (-149 <= k)%Z -> x <= bpow radix2 k -> rnd x <= bpow radix2 k.
Proof.
  intros Hk H. apply round_le_generic; auto; try exact _. apply format_bpow; exact Hk.
Qed.

Lemma bpow_lt_emax k : (k < 128)%Z -> bpow radix2 k < bpow radix2 128.
Proof. apply bpow_lt. Qed.

Lemma no_overflow x k :
  (-149 <= k < 128)%Z -> Rabs x <= bpow radix2 k -> Rlt_bool (Rabs (rnd x)) (bpow radix2 128) = true.
Proof.
  intros Hk H. apply Rlt_bool_true. eapply Rle_lt_trans.
  - apply (rnd_abs_le x k); [lia|exact H].
  - apply bpow_lt. lia.
Qed.

(** x is a number in [0, 2^k]. *)
Definition nneg (k : Z) (x : f32) : Prop := is_finite x = true /\ 0 <= B2R x <= bpow radix2 k.

Lemma nneg_weaken j k x : (j <= k)%Z -> nneg j x -> nneg k x.
Proof.
  intros Hjk [F [H1 H2]]. split; auto. split; auto.
  eapply Rle_trans; [exact H2|]. apply bpow_le; exact Hjk.
Qed.

Lemma nneg_num k x : nneg k x -> fnum x = true.
Proof. intros [F _]. apply finite_num; exact F. Qed.

Lemma nneg_ext k x : nneg k x -> ext x = B2R x.
Proof. intros [F _]. apply ext_finite; exact F. Qed.

Lemma Bplus_nneg k x y :
  (-149 <= k < 127)%Z -> nneg k x -> nneg k y ->
  nneg (k + 1) (Bplus mode_NE x y) /\ B2R (Bplus mode_NE x y) = rnd (B2R x + B2R y).
Proof.
  intros Hk [Fx Hx] [Fy Hy].
  assert (Hs : 0 <= B2R x + B2R y <= bpow radix2 (k + 1)).
  { rewrite bpow_plus_1. simpl (IZR radix2). lra. }
  pose proof (Bplus_correct 24 128 _ _ mode_NE x y Fx Fy) as H.
  cbn [round_mode] in H.
  rewrite (no_overflow _ (k + 1)) in H by (try lia; rewrite Rabs_pos_eq; lra).
  destruct H as (HR & HF & _). split; [|exact HR].
  split; [exact HF|]. rewrite HR. split; [apply rnd_nonneg; lra | apply rnd_le_bpow; [lia|lra]].
Qed.

Lemma Bminus_nneg k x y :
  (-149 <= k < 128)%Z -> nneg k x -> nneg k y -> B2R y <= B2R x ->
  nneg k (Bminus mode_NE x y) /\ B2R (Bminus mode_NE x y) = rnd (B2R x - B2R y).
Proof.
  intros Hk [Fx Hx] [Fy Hy] Hle.
  pose proof (Bminus_correct 24 128 _ _ mode_NE x y Fx Fy) as H.
  cbn [round_mode] in H.
  rewrite (no_overflow _ k) in H by (try lia; rewrite Rabs_pos_eq; lra).
  destruct H as (HR & HF & _). split; [|exact HR].
  split; [exact HF|]. rewrite HR. split; [apply rnd_nonneg; lra | apply rnd_le_bpow; [lia|lra]].
Qed.

(** The difference of two bounded numbers is finite (of either sign). *)
Lemma Bminus_finite k x y :
  (-149 <= k < 128)%Z -> nneg k x -> nneg k y ->
  is_finite (Bminus mode_NE x y) = true /\ B2R (Bminus mode_NE x y) = rnd (B2R x - B2R y).
Proof.
  intros Hk [Fx Hx] [Fy Hy].
  pose proof (Bminus_correct 24 128 _ _ mode_NE x y Fx Fy) as H.
  cbn [round_mode] in H.
  rewrite (no_overflow _ k) in H by (try lia; apply Rabs_le; lra).
  destruct H as (HR & HF & _). auto.
Qed.

Lemma Bmult_nneg j k x y :
  (-149 <= j + k < 128)%Z -> nneg j x -> nneg k y ->
  nneg (j + k) (Bmult mode_NE x y) /\ B2R (Bmult mode_NE x y) = rnd (B2R x * B2R y).
Proof.
  intros Hk [Fx Hx] [Fy Hy].
  assert (Hs : 0 <= B2R x * B2R y <= bpow radix2 (j + k)).
  { split; [apply Rmult_le_pos; lra|]. rewrite bpow_plus. apply Rmult_le_compat; lra. }
  pose proof (Bmult_correct 24 128 _ _ mode_NE x y) as H.
  cbn [round_mode] in H.
  rewrite (no_overflow _ (j + k)) in H by (try lia; rewrite Rabs_pos_eq; lra).
  destruct H as (HR & HF & _). rewrite Fx, Fy in HF. split; [|exact HR].
  split; [exact HF|]. rewrite HR. split; [apply rnd_nonneg; lra | apply rnd_le_bpow; [lia|lra]].
Qed.

Lemma Bdiv_nneg j k x y :
  (-149 <= j + k < 128)%Z -> nneg k x -> is_finite y = true -> bpow radix2 (- j) <= B2R y ->
  nneg (j + k) (Bdiv mode_NE x y) /\ B2R (Bdiv mode_NE x y) = rnd (B2R x / B2R y).
Proof.
  intros Hk [Fx Hx] Fy Hy.
  pose proof (bpow_gt_0 radix2 (- j)) as Hj.
  assert (Hinv : / B2R y <= bpow radix2 j).
  { rewrite <- (Z.opp_involutive j), bpow_opp. apply Rinv_le; lra. }
  assert (Hi0 : 0 < / B2R y) by (apply Rinv_0_lt_compat; lra).
  assert (Hs : 0 <= B2R x / B2R y <= bpow radix2 (j + k)).
  { unfold Rdiv. split; [apply Rmult_le_pos; lra|]. rewrite Rmult_comm, bpow_plus.
    apply Rmult_le_compat; lra. }
  pose proof (Bdiv_correct 24 128 _ _ mode_NE x y ltac:(lra)) as H.
  cbn [round_mode] in H.
  rewrite (no_overflow _ (j + k)) in H by (try lia; rewrite Rabs_pos_eq; lra).
  destruct H as (HR & HF & _). rewrite Fx in HF. split; [|exact HR].
  split; [exact HF|]. rewrite HR. split; [apply rnd_nonneg; lra | apply rnd_le_bpow; [lia|lra]].
Qed.

(** Rounding to an integer. *)
Lemma nearbyint_IZR md (x : f32) :
  B2R (Bnearbyint md x) = IZR (round_mode md (B2R x)) /\ is_finite (Bnearbyint md x) = is_finite x.
Proof.
  destruct (Bnearbyint_correct 24 128 _ md x) as (HR & HF & _). split; [|exact HF].
  rewrite HR. unfold round, F2R, scaled_mantissa, cexp, FIX_exp; cbn.
  rewrite !Rmult_1_r. reflexivity.
Qed.

Lemma Bnearbyint_nneg md k x : (0 <= k)%Z -> nneg k x -> nneg k (Bnearbyint md x).
Proof.
  intros Hk [F Hx]. destruct (nearbyint_IZR md x) as [HR HF].
  split; [rewrite HF; exact F|]. rewrite HR.
  assert (Hb : bpow radix2 k = IZR (2 ^ k)).
  { rewrite <- IZR_Zpower by exact Hk. reflexivity. }
  rewrite Hb in *.
  assert (V : Valid_rnd (round_mode md)) by exact _.
  split.
  - apply IZR_le. rewrite <- (@Zrnd_IZR (round_mode md) V 0). apply (@Zrnd_le (round_mode md) V). lra.
  - apply IZR_le. rewrite <- (@Zrnd_IZR (round_mode md) V (2 ^ k)). apply (@Zrnd_le (round_mode md) V). lra.
Qed.

Lemma ofZ_finite z : (Z.abs z <= 2 ^ 24)%Z -> is_finite (f32_of_Z z) = true /\ B2R (f32_of_Z z) = IZR z.
Proof.
  intros Hz. unfold f32_of_Z.
  pose proof (binary_normalize_correct 24 128 _ _ mode_NE z 0 false) as H. cbv zeta in H.
  assert (HF : F2R (Float radix2 z 0) = IZR z) by (unfold F2R; cbn; ring).
  rewrite HF in H. cbn [round_mode] in H.
  assert (HG : generic_format radix2 fexp32 (IZR z)).
  { destruct (Z.eq_dec (Z.abs z) (2 ^ 24)) as [He|Hne].
    - assert (HA : generic_format radix2 fexp32 (Rabs (IZR z))).
      { rewrite <- abs_IZR, He. change (IZR (2 ^ 24)) with (bpow radix2 24). apply format_bpow. lia. }
      unfold Rabs in HA. destruct (Rcase_abs (IZR z)); auto.
      rewrite <- (Ropp_involutive (IZR z)). apply generic_format_opp; exact HA.
    - rewrite <- HF. apply generic_format_F2R. cbn. intros Hnz.
      unfold cexp, SpecFloat.fexp, SpecFloat.emin. rewrite HF.
      assert (mag radix2 (IZR z) <= 24)%Z.
      { apply mag_le_Zpower; auto. change (Z.abs z < 2 ^ 24)%Z. lia. }
      lia. }
  rewrite round_generic in H by (try exact _; exact HG).
  rewrite Rlt_bool_true in H.
  - destruct H as (H1 & H2 & _). auto.
  - rewrite <- abs_IZR. change (bpow radix2 128) with (IZR (2 ^ 128)). apply IZR_lt.
    eapply Z.le_lt_trans; [exact Hz|]. vm_compute. reflexivity.
Qed.

Lemma ofZ_0 : f32_of_Z 0 = B754_zero false.
Proof. reflexivity. Qed.
