(** RemoveOutliers in binary32 against its exact rule. *)
From Coq Require Import Reals ZArith Bool List Lra Lia.
From Flocq Require Import Core BinarySingleNaN.
From Verif.Model Require Import Outcome Machine Types History MachineR MachineIEEE.
From Verif.Spec Require Import HistorySpec OutlierFloatSpec.
From Verif.Proofs Require Import Base FloatLemmas FloatErr DriftProofs ScoreFloat OutlierProofs.
Import ListNotations.
Local Open Scope R_scope.

(** ** Relative closeness of positive numbers, in units of 2^-24. *)
Definition near (n x y : R) : Prop := Rabs (x - y) <= n * u24 * y.

Lemma u24_pos : 0 < u24 <= / 16777216.
Proof. unfold u24. lra. Qed.

Lemma near_weaken a b x y : 0 <= y -> a <= b -> near a x y -> near b x y.
Proof.
  unfold near. intros Hy Hab H. eapply Rle_trans; [exact H|]. pose proof u24_pos.
  apply Rmult_le_compat_r; [exact Hy|]. apply Rmult_le_compat_r; lra.
Qed.

Lemma near_bounds n x y : 0 <= n <= 100 -> 0 < y -> near n x y -> y / 2 <= x <= 2 * y.
Proof.
  intros Hn Hy H. unfold near in H. apply Rabs_le_inv in H. unfold u24 in H. 
  assert (n * / 16777216 * y <= / 2 * y) by (apply Rmult_le_compat_r; lra). lra.
Qed.

Lemma near_rnd n x y : 0 <= n <= 100 -> 0 < y -> bpow radix2 (-126) <= x -> near n x y -> near (n + 2) (rnd x) y.
Proof.
  intros Hn Hy Hx H. pose proof (near_bounds n x y Hn Hy H) as HB.
  assert (Px : 0 < x) by (pose proof (bpow_gt_0 radix2 (-126)); lra).
  destruct (rel32 x) as (d & Hd & ->); [rewrite Rabs_pos_eq by lra; exact Hx|].
  unfold near in *. replace (x * (1 + d) - y) with ((x - y) + x * d) by ring.
  eapply Rle_trans; [apply Rabs_triang|]. rewrite Rabs_mult, (Rabs_pos_eq x) by lra.
  fold u24 in Hd. pose proof u24_pos.
  assert (x * Rabs d <= (2 * y) * u24) by (apply Rmult_le_compat; try apply Rabs_pos; lra).
  assert ((n + 2) * u24 * y = n * u24 * y + 2 * y * u24) by ring. lra.
Qed.

Lemma near_mul a b x y X Y : 0 <= a <= 100 -> 0 <= b <= 100 -> 0 < X -> 0 < Y -> near a x X -> near b y Y -> near (a + b + 1) (x * y) (X * Y).
Proof.
  intros Ha Hb HX HY H1 H2. unfold near in *. pose proof u24_pos.
  replace (x * y - X * Y) with ((x - X) * Y + (x - X) * (y - Y) + X * (y - Y)) by ring.
  eapply Rle_trans; [apply Rabs_triang|]. eapply Rle_trans; [apply Rplus_le_compat_r, Rabs_triang|].
  rewrite !Rabs_mult, (Rabs_pos_eq X), (Rabs_pos_eq Y) by lra.
  assert (A1 : Rabs (x - X) * Y <= (a * u24 * X) * Y) by (apply Rmult_le_compat_r; lra).
  assert (A2 : X * Rabs (y - Y) <= X * (b * u24 * Y)) by (apply Rmult_le_compat_l; lra).
  assert (A3 : Rabs (x - X) * Rabs (y - Y) <= (a * u24 * X) * (b * u24 * Y)) by (apply Rmult_le_compat; try apply Rabs_pos; assumption).
  assert (A4 : (a * u24 * X) * (b * u24 * Y) <= 1 * u24 * (X * Y)).
  { replace ((a * u24 * X) * (b * u24 * Y)) with ((a * b * u24) * u24 * (X * Y)) by ring.
    assert (0 < X * Y) by (apply Rmult_lt_0_compat; lra).
    apply Rmult_le_compat_r; [lra|]. apply Rmult_le_compat_r; [lra|].
    assert (a * b <= 100 * 100) by (apply Rmult_le_compat; lra).
    assert (0 <= a * b) by (apply Rmult_le_pos; lra).
    assert (a * b * u24 <= (100 * 100) * / 16777216) by (apply Rmult_le_compat; lra). lra. }
  replace ((a + b + 1) * u24 * (X * Y)) with (a * u24 * X * Y + X * (b * u24 * Y) + 1 * u24 * (X * Y)) by ring. lra.
Qed.

Lemma near_inv b y Y : 0 <= b <= 50 -> 0 < Y -> near b y Y -> near (b + / 2) (/ y) (/ Y).
Proof.
  intros Hb HY H. pose proof u24_pos. pose proof (near_bounds b y Y ltac:(lra) HY H) as HB. unfold near in *.
  assert (Py : 0 < y) by lra.
  replace (/ y - / Y) with (- ((y - Y) / (y * Y))) by (field; lra).
  rewrite Rabs_Ropp. unfold Rdiv. rewrite Rabs_mult, (Rabs_pos_eq (/ (y * Y))).
  2: { apply Rlt_le, Rinv_0_lt_compat, Rmult_lt_0_compat; lra. }
  apply Rmult_le_reg_r with (y * Y); [apply Rmult_lt_0_compat; lra|].
  rewrite Rmult_assoc, Rinv_l, Rmult_1_r by (apply Rgt_not_eq, Rmult_lt_0_compat; lra).
  replace ((b + / 2) * u24 * / Y * (y * Y)) with ((b + / 2) * u24 * y) by (field; lra).
  assert (Ly : Y * (1 - b * u24) <= y) by (apply Rabs_le_inv in H; lra).
  eapply Rle_trans; [exact H|].
  assert (K : b * Y <= (b + / 2) * y).
  { eapply Rle_trans; [|apply Rmult_le_compat_l; [lra|exact Ly]].
    replace ((b + / 2) * (Y * (1 - b * u24))) with (b * Y + Y * (/ 2 - (b + / 2) * b * u24)) by ring.
    assert (0 <= Y * (/ 2 - (b + / 2) * b * u24)); [|lra].
    apply Rmult_le_pos; [lra|].
    assert ((b + / 2) * b <= 51 * 50) by (apply Rmult_le_compat; lra).
    assert ((b + / 2) * b * u24 <= (51 * 50) * / 16777216); [|lra].
    apply Rmult_le_compat; try lra. apply Rmult_le_pos; lra. }
  replace (b * u24 * Y) with (u24 * (b * Y)) by ring. replace ((b + / 2) * u24 * y) with (u24 * ((b + / 2) * y)) by ring.
  apply Rmult_le_compat_l; lra.
Qed.

Lemma near_div a b x y X Y : 0 <= a <= 50 -> 0 <= b <= 49 -> 0 < X -> 0 < Y -> near a x X -> near b y Y -> near (a + b + 2) (x / y) (X / Y).
Proof.
  intros Ha Hb HX HY H1 H2. unfold Rdiv. pose proof (Rinv_0_lt_compat Y HY).
  apply near_weaken with (a + (b + / 2) + 1); [apply Rlt_le, Rmult_lt_0_compat; lra|lra|].
  apply near_mul; try lra; auto. apply near_inv; auto. lra.
Qed.

Lemma near_add n x y X Y : near n x X -> near n y Y -> near n (x + y) (X + Y).
Proof.
  unfold near. intros H1 H2. replace (x + y - (X + Y)) with ((x - X) + (y - Y)) by ring.
  eapply Rle_trans; [apply Rabs_triang|]. replace (n * u24 * (X + Y)) with (n * u24 * X + n * u24 * Y) by ring. lra.
Qed.

Lemma near_sqrt n x X : 0 <= n <= 100 -> 0 < X -> near n x X -> near n (sqrt x) (sqrt X).
Proof.
  intros Hn HX H. pose proof u24_pos. pose proof (near_bounds n x X Hn HX H) as HB. unfold near in *.
  pose proof (sqrt_lt_R0 X HX) as SX. pose proof (sqrt_pos x) as Sx.
  assert (E : x - X = (sqrt x - sqrt X) * (sqrt x + sqrt X)).
  { rewrite <- (sqrt_sqrt x) at 1 by lra. rewrite <- (sqrt_sqrt X) at 1 by lra. ring. }
  rewrite E, Rabs_mult, (Rabs_pos_eq (sqrt x + sqrt X)) in H by lra.
  apply Rmult_le_reg_r with (sqrt X); [exact SX|].
  replace (n * u24 * sqrt X * sqrt X) with (n * u24 * X) by (rewrite <- (sqrt_sqrt X) at 1 by lra; ring).
  eapply Rle_trans; [|exact H]. apply Rmult_le_compat_l; [apply Rabs_pos|lra].
Qed.

(** ** The same on floats: finite, close to a number between 2^i and 2^j. *)
Definition fl (n : R) (i j : Z) (x : f32) (y : R) : Prop :=
  is_finite x = true /\ near n (B2R x) y /\ bpow radix2 i <= y <= bpow radix2 j.

Lemma fl_weaken a b i j i' j' x y : a <= b -> (i' <= i)%Z -> (j <= j')%Z -> fl a i j x y -> fl b i' j' x y.
Proof.
  intros Hab Hi Hj (F & N & B). pose proof (bpow_gt_0 radix2 i). split; [exact F|]. split; [eapply near_weaken; eauto; lra|].
  pose proof (bpow_le radix2 i' i Hi). pose proof (bpow_le radix2 j j' Hj). lra.
Qed.

Lemma fl_exact x i j : is_finite x = true -> bpow radix2 i <= B2R x <= bpow radix2 j -> fl 0 i j x (B2R x).
Proof.
  intros F B. split; [exact F|]. split; [|exact B]. unfold near. rewrite Rminus_eq_0, Rabs_R0. lra.
Qed.

Lemma half_bpow k : bpow radix2 k / 2 = bpow radix2 (k - 1).
Proof. unfold Rdiv. replace (/ 2) with (bpow radix2 (-1)) by reflexivity. rewrite <- bpow_plus. f_equal. Qed.
Lemma double_bpow k : 2 * bpow radix2 k = bpow radix2 (k + 1).
Proof. replace 2 with (bpow radix2 1) by reflexivity. rewrite <- bpow_plus. f_equal. lia. Qed.

Lemma fl_round n i j (z : f32) x y : 0 <= n <= 100 -> (-120 <= i)%Z -> near n x y -> bpow radix2 i <= y <= bpow radix2 j ->
  B2R z = rnd x -> is_finite z = true -> fl (n + 2) i j z y.
Proof.
  intros Hn Hi N B Hz F. pose proof (bpow_gt_0 radix2 i). split; [exact F|]. split; [|exact B].
  rewrite Hz. apply near_rnd; auto; [lra|]. pose proof (near_bounds n x y Hn ltac:(lra) N) as HB.
  eapply Rle_trans; [|apply HB]. eapply Rle_trans; [apply (bpow_le radix2 (-126) (i - 1)); lia|]. rewrite <- half_bpow. lra.
Qed.

Lemma fl_upper n i j x y : 0 <= n <= 100 -> (-120 <= i)%Z -> near n x y -> bpow radix2 i <= y <= bpow radix2 j -> Rabs x <= bpow radix2 (j + 1).
Proof.
  intros Hn Hi N B. pose proof (bpow_gt_0 radix2 i). pose proof (near_bounds n x y Hn ltac:(lra) N). rewrite Rabs_pos_eq by lra.
  rewrite <- double_bpow. lra.
Qed.

Lemma fl_mul a b i j k l x y X Y : 0 <= a -> 0 <= b -> a + b <= 50 -> (-120 <= i + k)%Z -> (j + l <= 120)%Z ->
  fl a i j x X -> fl b k l y Y -> fl (a + b + 3) (i + k) (j + l) (Bmult mode_NE x y) (X * Y).
Proof.
  intros Ha Hb Hab Hi Hj (F1 & N1 & B1) (F2 & N2 & B2). pose proof (bpow_gt_0 radix2 i). pose proof (bpow_gt_0 radix2 k).
  assert (N : near (a + b + 1) (B2R x * B2R y) (X * Y)) by (apply near_mul; auto; lra).
  assert (B : bpow radix2 (i + k) <= X * Y <= bpow radix2 (j + l)).
  { rewrite !bpow_plus. split; apply Rmult_le_compat; lra. }
  assert (IJ : (i + k <= j + l)%Z) by (apply (le_bpow radix2); lra).
  pose proof (Bmult_correct 24 128 _ _ mode_NE x y) as C. cbn [round_mode] in C.
  change (round radix2 (SpecFloat.fexp 24 128) ZnearestE (B2R x * B2R y)) with (rnd (B2R x * B2R y)) in C.
  rewrite (no_overflow _ (j + l + 1)) in C; [|lia|eapply fl_upper; eauto; lra].
  destruct C as (C1 & C2 & _). rewrite F1, F2 in C2. apply (fl_weaken (a + b + 1 + 2) _ (i + k) (j + l)); try lia; [lra|].
  eapply fl_round; eauto. lra.
Qed.

Lemma fl_div a b i j k l x y X Y : 0 <= a -> 0 <= b -> a + b <= 40 -> (-120 <= i - l)%Z -> (j - k <= 120)%Z ->
  fl a i j x X -> fl b k l y Y -> fl (a + b + 4) (i - l) (j - k) (Bdiv mode_NE x y) (X / Y).
Proof.
  intros Ha Hb Hab Hi Hj (F1 & N1 & B1) (F2 & N2 & B2). pose proof (bpow_gt_0 radix2 i). pose proof (bpow_gt_0 radix2 k).
  assert (N : near (a + b + 2) (B2R x / B2R y) (X / Y)) by (apply near_div; auto; lra).
  assert (B : bpow radix2 (i - l) <= X / Y <= bpow radix2 (j - k)).
  { unfold Zminus. rewrite !bpow_plus, !bpow_opp. pose proof (bpow_gt_0 radix2 l). unfold Rdiv. split; apply Rmult_le_compat; try lra.
    - apply Rlt_le, Rinv_0_lt_compat; lra.
    - apply Rinv_le; lra.
    - apply Rlt_le, Rinv_0_lt_compat; lra.
    - apply Rinv_le; lra. }
  assert (IJ : (i - l <= j - k)%Z) by (apply (le_bpow radix2); lra).
  assert (Hy0 : B2R y <> 0) by (pose proof (near_bounds b (B2R y) Y ltac:(lra) ltac:(lra) N2); lra).
  pose proof (Bdiv_correct 24 128 _ _ mode_NE x y Hy0) as C. cbn [round_mode] in C.
  change (round radix2 (SpecFloat.fexp 24 128) ZnearestE (B2R x / B2R y)) with (rnd (B2R x / B2R y)) in C.
  rewrite (no_overflow _ (j - k + 1)) in C; [|lia|eapply fl_upper; eauto; lra].
  destruct C as (C1 & C2 & _). rewrite F1 in C2. apply (fl_weaken (a + b + 2 + 2) _ (i - l) (j - k)); try lia; [lra|].
  eapply fl_round; eauto. lra.
Qed.

Lemma fl_add n i j x y X Y : 0 <= n <= 50 -> (-120 <= i)%Z -> (j <= 120)%Z ->
  fl n i j x X -> fl n i j y Y -> fl (n + 2) i (j + 1) (Bplus mode_NE x y) (X + Y).
Proof.
  intros Hn Hi Hj (F1 & N1 & B1) (F2 & N2 & B2). pose proof (bpow_gt_0 radix2 i).
  assert (N : near n (B2R x + B2R y) (X + Y)) by (apply near_add; auto).
  assert (B : bpow radix2 i <= X + Y <= bpow radix2 (j + 1)) by (rewrite <- double_bpow; lra).
  assert (IJ : (i <= j + 1)%Z) by (apply (le_bpow radix2); lra).
  pose proof (Bplus_correct 24 128 _ _ mode_NE x y F1 F2) as C. cbn [round_mode] in C.
  change (round radix2 (SpecFloat.fexp 24 128) ZnearestE (B2R x + B2R y)) with (rnd (B2R x + B2R y)) in C.
  rewrite (no_overflow _ (j + 1 + 1)) in C; [|lia|eapply fl_upper; eauto; lra].
  destruct C as (C1 & C2 & _). eapply fl_round; eauto. lra.
Qed.

Lemma fl_sqrt n j x X : 0 <= n <= 50 -> (0 <= j <= 50)%Z -> fl n 0 (2 * j) x X -> fl (n + 2) 0 j (Bsqrt mode_NE x) (sqrt X).
Proof.
  intros Hn Hj (F & N & B). change (bpow radix2 0) with 1 in B.
  pose proof (near_bounds n (B2R x) X ltac:(lra) ltac:(lra) N) as HB.
  pose proof (Bsqrt_correct 24 128 _ _ mode_NE x) as (SR & SF & _). cbn [round_mode] in SR.
  change (round radix2 (SpecFloat.fexp 24 128) ZnearestE (sqrt (B2R x))) with (rnd (sqrt (B2R x))) in SR.
  assert (B' : bpow radix2 0 <= sqrt X <= bpow radix2 j).
  { change (bpow radix2 0) with 1. split.
    - rewrite <- sqrt_1. apply sqrt_le_1; lra.
    - assert (S : sqrt (bpow radix2 j * bpow radix2 j) = bpow radix2 j) by (apply sqrt_square, Rlt_le, bpow_gt_0).
      rewrite <- S, <- bpow_plus. apply sqrt_le_1; try lra; [apply Rlt_le, bpow_gt_0|]. replace (j + j)%Z with (2 * j)%Z by lia. lra. }
  eapply (fl_round n 0 j _ (sqrt (B2R x))); eauto; [lra|lia|apply near_sqrt; auto; lra|].
  rewrite SF. destruct x as [s|s| |s m e He]; try discriminate; auto. destruct s; auto.
  exfalso. assert (B2R (B754_finite true m e He : f32) < 0); [|lra]. cbn [B2R cond_Zopp]. apply F2R_lt_0. cbn. lia.
Qed.

Lemma fl_ofZ z : (1 <= z < 2 ^ 40)%Z -> fl 2 0 40 (f32_of_Z z) (IZR z).
Proof.
  intros Hz. unfold f32_of_Z.
  pose proof (binary_normalize_correct 24 128 _ _ mode_NE z 0 false) as H. cbv zeta in H.
  assert (HF : F2R (Float radix2 z 0) = IZR z) by (unfold F2R; cbn; ring).
  rewrite HF in H. cbn [round_mode] in H.
  assert (B : bpow radix2 0 <= IZR z <= bpow radix2 40).
  { change (bpow radix2 0) with 1. split; [apply IZR_le; lia|]. change (bpow radix2 40) with (IZR (2 ^ 40)). apply IZR_le; lia. }
  assert (N : near 0 (IZR z) (IZR z)) by (unfold near; rewrite Rminus_eq_0, Rabs_R0; lra).
  change (round radix2 (SpecFloat.fexp 24 128) ZnearestE (IZR z)) with (rnd (IZR z)) in H.
  rewrite (no_overflow _ 41) in H; [|lia|change 41%Z with (40 + 1)%Z; eapply fl_upper; eauto; [lra|lia]].
  destruct H as (H1 & H2 & _). apply (fl_weaken (0 + 2) 2 0 40); try lia; [lra|]. eapply fl_round; eauto; [lra|lia].
Qed.

Lemma fl_ofZ_exact z : (1 <= z <= 2 ^ 24)%Z -> fl 0 0 24 (f32_of_Z z) (IZR z).
Proof.
  intros Hz. destruct (ofZ_finite z) as (F & E); [lia|]. rewrite <- E. apply fl_exact; [exact F|]. rewrite E.
  change (bpow radix2 0) with 1. change (bpow radix2 24) with (IZR (2 ^ 24)). split; apply IZR_le; lia.
Qed.

(** Comparison with a threshold that is clear. *)
Lemma clear_lt n i j (p t : f32) T : 0 <= n < 32 -> is_finite p = true -> fl n i j t T -> clear_of T (B2R p) ->
  Bltb t p = Rlt_bool T (B2R p) /\ Bltb p t = Rlt_bool (B2R p) T.
Proof.
  intros Hn Fp (Ft & N & B) C. pose proof (bpow_gt_0 radix2 i).
  rewrite !Bltb_ext, !ext_finite by (auto using finite_num). unfold near in N. unfold clear_of in C.
  assert (D : Rabs (B2R t - T) < Rabs (B2R p - T)).
  { eapply Rle_lt_trans; [exact N|]. eapply Rle_lt_trans; [|exact C]. apply Rmult_le_compat_r; [lra|]. unfold u24. lra. }
  apply Rabs_def2b in D || idtac. revert D. unfold Rabs. destruct (Rcase_abs (B2R t - T)), (Rcase_abs (B2R p - T)); intros D;
    split; repeat (match goal with |- context [Rlt_bool ?a ?b] => destruct (Rlt_bool_spec a b) end); try reflexivity; exfalso; lra.
Qed.

Section Mask.
  Context (lm : libm) (as_ : bool) (sh : R -> String.string) (as' : bool).
  Local Notation I := (ieee lm as_).
  Local Notation E := (exact sh as').
  Local Notation real := (real_record lm as_ sh as').
  Context (dev : f32) (Fdev : is_finite dev = true) (Hdev : 0 <= B2R dev <= 1024).

  Definition duration (prev r : @price_record I) : f32 :=
    @fmax I (fofZ 1) (fdiv (fofZ (pr_timestamp_sec r - pr_timestamp_sec prev)) (fofZ 60)).
  Definition real_duration (prev r : @price_record I) : R :=
    @fmax E 1 (IZR (pr_timestamp_sec r - pr_timestamp_sec prev) / 60).

  Lemma duration_fl prev r : (Z.abs (pr_timestamp_sec r - pr_timestamp_sec prev) < 2 ^ 40)%Z ->
    fl 6 0 40 (duration prev r) (real_duration prev r).
  Proof.
    unfold duration, real_duration, fmax. cbn [ieee exact fltb fdiv fofZ].
    set (d := (pr_timestamp_sec r - pr_timestamp_sec prev)%Z). intros Hd.
    destruct (ofZ_finite 1) as (F1 & E1); [lia|]. destruct (ofZ_finite 60) as (F60 & E60); [lia|].
    destruct (Z_le_gt_dec d 60) as [Hs|Hl].
    - (* at most a minute *)
      assert (HR : Rlt_bool 1 (IZR d / 60) = false).
      { apply Rlt_bool_false. assert (IZR d <= 60) by (apply IZR_le; lia). lra. }
      rewrite HR.
      assert (HB : Bltb (f32_of_Z 1) (Bdiv mode_NE (f32_of_Z d) (f32_of_Z 60)) = false).
      { assert (Hd' : (d <= 0 \/ 1 <= d <= 60)%Z) by lia. destruct Hd' as [Hd'|Hd'].
        - (* not positive: the quotient is not above 1 *)
          pose proof (binary_normalize_correct 24 128 _ _ mode_NE d 0 false) as H. cbv zeta in H.
          assert (HF : F2R (Float radix2 d 0) = IZR d) by (unfold F2R; cbn; ring).
          rewrite HF in H. cbn [round_mode] in H. fold (f32_of_Z d) in H.
          change (round radix2 (SpecFloat.fexp 24 128) ZnearestE (IZR d)) with (rnd (IZR d)) in H.
          assert (Hab : Rabs (IZR d) <= bpow radix2 40).
          { rewrite <- abs_IZR. change (bpow radix2 40) with (IZR (2 ^ 40)). apply IZR_le. lia. }
          rewrite (no_overflow _ 40) in H; [|lia|exact Hab].
          destruct H as (H1 & H2 & _).
          assert (Hneg : B2R (f32_of_Z d) <= 0).
          { rewrite H1. rewrite <- rnd_0. apply rnd_mono. apply (IZR_le d 0). exact Hd'. }
          assert (Hq : B2R (f32_of_Z d) / B2R (f32_of_Z 60) <= 0) by (rewrite E60; lra).
          pose proof (Bdiv_correct 24 128 _ _ mode_NE (f32_of_Z d) (f32_of_Z 60) ltac:(rewrite E60; lra)) as C. cbn [round_mode] in C.
          change (round radix2 (SpecFloat.fexp 24 128) ZnearestE (B2R (f32_of_Z d) / B2R (f32_of_Z 60))) with (rnd (B2R (f32_of_Z d) / B2R (f32_of_Z 60))) in C.
          rewrite (no_overflow _ 40) in C; [|lia|].
          2: { rewrite E60. unfold Rdiv. rewrite Rabs_mult, (Rabs_pos_eq (/ 60)) by lra.
               assert (Rabs (B2R (f32_of_Z d)) <= bpow radix2 40) by (rewrite H1; apply rnd_abs_le; [lia|exact Hab]).
               pose proof (Rabs_pos (B2R (f32_of_Z d))). lra. }
          destruct C as (C1 & C2 & _). rewrite H2 in C2.
          set (q := Bdiv mode_NE (f32_of_Z d) (f32_of_Z 60)) in *. assert (Fq : is_finite q = true) by (exact C2).
          rewrite Bltb_ext, !ext_finite by (auto using finite_num). apply Rlt_bool_false. rewrite E1. eapply Rle_trans; [apply Req_le; exact C1|].
          apply Rle_trans with (rnd 0); [apply rnd_mono; exact Hq|]. rewrite rnd_0. lra.
        - destruct (ofZ_finite d) as (Fd & Ed); [lia|].
          destruct (Bdiv_nneg 0 6 (f32_of_Z d) (f32_of_Z 60)) as (N & Q); [lia| |exact F60|rewrite E60; change (bpow radix2 (- 0)) with 1; lra|].
          { split; [exact Fd|]. rewrite Ed. change (bpow radix2 6) with 64. assert (1 <= IZR d <= 60) by (split; apply IZR_le; lia). lra. }
          set (q := Bdiv mode_NE (f32_of_Z d) (f32_of_Z 60)) in *. assert (Fq : is_finite q = true) by apply N.
          rewrite Bltb_ext, !ext_finite by (auto using finite_num). apply Rlt_bool_false. rewrite E1. eapply Rle_trans; [apply Req_le; exact Q|]. rewrite Ed, E60.
          apply rnd_le_1. assert (IZR d <= 60) by (apply IZR_le; lia). lra. }
      rewrite HB. apply (fl_weaken 0 6 0 24); try lia; [lra|]. apply fl_ofZ_exact. lia.
    - (* more than a minute *)
      assert (HD : 61 <= IZR d) by (apply IZR_le; lia).
      assert (HR : Rlt_bool 1 (IZR d / 60) = true) by (apply Rlt_bool_true; lra).
      rewrite HR.
      pose proof (fl_ofZ d ltac:(lia)) as A. assert (A6 : fl 0 0 24 (f32_of_Z 60) 60) by (apply fl_ofZ_exact; lia).
      assert (Q : fl (2 + 0 + 4) (0 - 24) (40 - 0) (Bdiv mode_NE (f32_of_Z d) (f32_of_Z 60)) (IZR d / 60)) by (apply fl_div; try lia; try lra; assumption).
      replace (2 + 0 + 4) with 6 in Q by lra.
      destruct Q as (QF & QN & QB).
      assert (HB : Bltb (f32_of_Z 1) (Bdiv mode_NE (f32_of_Z d) (f32_of_Z 60)) = true).
      { set (q := Bdiv mode_NE (f32_of_Z d) (f32_of_Z 60)) in *.
        rewrite Bltb_ext, !ext_finite by (auto using finite_num). apply Rlt_bool_true. rewrite E1.
        unfold near in QN. apply Rabs_le_inv in QN. unfold u24 in QN.
        assert (6 * / 16777216 * (IZR d / 60) <= / 1000 * (IZR d / 60)) by (apply Rmult_le_compat_r; lra). lra. }
      rewrite HB. split; [exact QF|]. split; [exact QN|]. split; [change (bpow radix2 0) with 1; lra|apply QB].
  Qed.

  (** Price within [2^-40, 2^40]. *)
  Definition priced (r : @price_record I) : Prop := fl 0 (-40) 40 (pr_price r : f32) (B2R (pr_price r : f32)).

  Lemma factor_fl prev r : (Z.abs (pr_timestamp_sec r - pr_timestamp_sec prev) < 2 ^ 40)%Z ->
    fl 13 0 31 (@jump_factor I dev prev r) (@jump_factor E (B2R dev) (real prev) (real r)).
  Proof.
    intros Hd. pose proof (duration_fl prev r Hd) as D.
    assert (S : fl (6 + 2) 0 20 (Bsqrt mode_NE (duration prev r)) (sqrt (real_duration prev r))) by (apply fl_sqrt; try lia; [lra|exact D]).
    assert (O : fl 2 0 11 (Bplus mode_NE (f32_of_Z 1) dev) (1 + B2R dev)).
    { destruct (ofZ_finite 1) as (F1 & E1); [lia|].
      pose proof (Bplus_correct 24 128 _ _ mode_NE (f32_of_Z 1) dev F1 Fdev) as C. cbn [round_mode] in C.
      rewrite E1 in C. change (round radix2 (SpecFloat.fexp 24 128) ZnearestE (1 + B2R dev)) with (rnd (1 + B2R dev)) in C.
      assert (B : bpow radix2 0 <= 1 + B2R dev <= bpow radix2 11) by (change (bpow radix2 0) with 1; change (bpow radix2 11) with 2048; lra).
      assert (N : near 0 (1 + B2R dev) (1 + B2R dev)) by (unfold near; rewrite Rminus_eq_0, Rabs_R0; lra).
      rewrite (no_overflow _ 12) in C; [|lia|change 12%Z with (11 + 1)%Z; eapply fl_upper; eauto; [lra|lia]].
      destruct C as (C1 & C2 & _). apply (fl_weaken (0 + 2) 2 0 11); try lia; [lra|]. eapply fl_round; eauto; [lra|lia]. }
    apply (fl_weaken (2 + (6 + 2) + 3) 13 (0 + 0) (11 + 20)); try lia; [lra|].
    apply fl_mul; try lia; try lra; assumption.
  Qed.

  Section Pair.
    Context (prev r : @price_record I) (Hd : (Z.abs (pr_timestamp_sec r - pr_timestamp_sec prev) < 2 ^ 40)%Z)
            (Pp : priced prev).

    Lemma upper_fl : fl 16 (-40) 71 (@upper_edge I dev prev r) (@upper_edge E (B2R dev) (real prev) (real r)).
    Proof.
      apply (fl_weaken (0 + 13 + 3) 16 (-40 + 0) (40 + 31)); try lia; [lra|].
      apply (fl_mul 0 13 (-40) 40 0 31); try lia; try lra; [exact Pp|apply factor_fl; exact Hd].
    Qed.
    Lemma lower_fl : fl 17 (-71) 40 (@lower_edge I dev prev r) (@lower_edge E (B2R dev) (real prev) (real r)).
    Proof.
      apply (fl_weaken (0 + 13 + 4) 17 (-40 - 31) (40 - 0)); try lia; [lra|].
      apply (fl_div 0 13 (-40) 40 0 31); try lia; try lra; [exact Pp|apply factor_fl; exact Hd].
    Qed.

    Lemma lit_fl n : (1 <= n <= 9)%Z -> fl 4 (-24) 24 (@flit I n 10) (@flit E n 10).
    Proof.
      intros Hn. apply (fl_weaken (0 + 0 + 4) 4 (0 - 24) (24 - 0)); try lia; [lra|].
      apply (fl_div 0 0 0 24 0 24); try lia; try lra; apply fl_ofZ_exact; lia.
    Qed.

    Lemma toward_fl e X : fl 17 (-71) 71 e X ->
      fl 26 (-95) 96 (@toward I e prev) (@toward E X (real prev)).
    Proof.
      intros H. unfold toward. cbn [ieee fadd fmul].
      assert (A : fl 24 (-95) 95 (Bmult mode_NE (@flit I 8 10) e) (@flit E 8 10 * X)).
      { apply (fl_weaken (4 + 17 + 3) 24 (-24 + -71) (24 + 71)); try lia; [lra|]. apply fl_mul; try lia; try lra; [apply lit_fl; lia|exact H]. }
      assert (B : fl 24 (-95) 95 (Bmult mode_NE (@flit I 2 10) (pr_price prev)) (@flit E 2 10 * B2R (pr_price prev : f32))).
      { apply (fl_weaken (4 + 0 + 3) 24 (-24 + -40) (24 + 40)); try lia; [lra|]. apply fl_mul; try lia; try lra; [apply lit_fl; lia|exact Pp]. }
      apply (fl_weaken (24 + 2) 26 (-95) (95 + 1)); try lia; [lra|]. apply fl_add; try lia; try lra; assumption.
    Qed.
  End Pair.

  Lemma zero_real : is_finite (f32_of_Z 0) = true /\ B2R (f32_of_Z 0) = 0.
  Proof. split; reflexivity. Qed.

  Lemma bad_real r : sane_record lm as_ r -> @bad_record I r = @bad_record E (real r).
  Proof.
    intros (F1 & F2 & _). destruct zero_real as (F0 & E0). unfold bad_record. cbn [ieee exact fleb fltb fofZ real_record pr_price pr_volume].
    rewrite Bleb_ext, Bltb_ext, !ext_finite by (auto using finite_num). rewrite E0. reflexivity.
  Qed.

  Lemma good_priced r : sane_record lm as_ r -> @bad_record I r = false -> priced r.
  Proof.
    intros S B. rewrite (bad_real r S) in B. destruct S as (F1 & _ & H & _). unfold bad_record in B. cbn [exact fleb fltb fofZ real_record pr_price pr_volume] in B.
    apply orb_false_iff in B as (B & _). assert (0 < B2R (pr_price r : f32)) by (destruct (Rle_bool_spec (B2R (pr_price r : f32)) 0); [discriminate|assumption]).
    apply fl_exact; [exact F1|]. specialize (H H0).
    change (bpow radix2 (-40)) with (/ IZR (2 ^ 40)). change (bpow radix2 40) with (IZR (2 ^ 40)). rewrite (pow_IZR 2 40) in H. exact H.
  Qed.

  Lemma firstn_filter_real l : Forall (sane_record lm as_) l ->
    firstn 10 (filter (fun x => negb (@bad_record E x)) (map real l)) = map real (firstn 10 (filter (fun x => negb (@bad_record I x)) l)).
  Proof.
    intros H. rewrite <- firstn_map. f_equal. induction H as [|x l Hx H IH]; [reflexivity|]. cbn [map filter].
    rewrite <- (bad_real x Hx), IH. destruct (@bad_record I x); reflexivity.
  Qed.

  Lemma count_ext {A B} (f : A -> bool) (g : B -> bool) (h : A -> B) l : (forall x, In x l -> f x = g (h x)) ->
    length (filter f l) = length (filter g (map h l)).
  Proof.
    intros H. induction l as [|x l IH]; [reflexivity|]. cbn [filter map]. rewrite <- (H x (or_introl eq_refl)).
    specialize (IH (fun y Hy => H y (or_intror Hy))). destruct (f x); cbn [length]; rewrite IH; reflexivity.
  Qed.

  Lemma firstn_in {A} n (l : list A) x : In x (firstn n l) -> In x l.
  Proof. intros H. rewrite <- (firstn_skipn n l). apply in_or_app. left. exact H. Qed.

  Lemma jump_real prev r later : sane_record lm as_ prev -> sane_record lm as_ r -> Forall (sane_record lm as_) later ->
    @bad_record I prev = false -> @bad_record I r = false ->
    clear_decision sh as' (B2R dev) (real prev) (real r) (map real later) ->
    @unsupported_jump I dev prev r later = @unsupported_jump E (B2R dev) (real prev) (real r) (map real later).
  Proof.
    intros Sp Sr Sl Bp Br (C1 & C2 & C3).
    assert (Hd : (Z.abs (pr_timestamp_sec r - pr_timestamp_sec prev) < 2 ^ 40)%Z) by (destruct Sp as (_ & _ & _ & Tp), Sr as (_ & _ & _ & Tr); lia).
    pose proof (good_priced prev Sp Bp) as Pp.
    assert (JU : @jumps_up I dev prev r = @jumps_up E (B2R dev) (real prev) (real r)).
    { apply (clear_lt 16 (-40) 71 (pr_price r : f32) (@upper_edge I dev prev r) (@upper_edge E (B2R dev) (real prev) (real r))); [lra|apply Sr|apply upper_fl; assumption|exact C1]. }
    assert (JD : @jumps_down I dev prev r = @jumps_down E (B2R dev) (real prev) (real r)).
    { apply (clear_lt 17 (-71) 40 (pr_price r : f32) (@lower_edge I dev prev r) (@lower_edge E (B2R dev) (real prev) (real r))); [lra|apply Sr|apply lower_fl; assumption|exact C2]. }
    unfold unsupported_jump. rewrite JU, JD. f_equal. f_equal.
    rewrite firstn_filter_real by exact Sl. apply count_ext. intros x Hx.
    assert (Sx : sane_record lm as_ x).
    { rewrite Forall_forall in Sl. apply Sl. apply firstn_in in Hx. apply filter_In in Hx. apply Hx. }
    rewrite firstn_filter_real in C3 by exact Sl. destruct (C3 (real x) (in_map real _ x Hx)) as (CU & CD).
    unfold confirms. rewrite JU, JD. f_equal.
    - destruct (@jumps_up E (B2R dev) (real prev) (real r)) eqn:EU; [|reflexivity]. cbn [andb].
      apply (clear_lt 26 (-95) 96 (pr_price x : f32) (@toward I (@upper_edge I dev prev r) prev) (@toward E (@upper_edge E (B2R dev) (real prev) (real r)) (real prev))); [lra|apply Sx| |apply CU; reflexivity].
      apply (toward_fl prev r Pp). apply (fl_weaken 16 17 (-40) 71); try lia; [lra|]. apply upper_fl; assumption.
    - destruct (@jumps_down E (B2R dev) (real prev) (real r)) eqn:EU; [|reflexivity]. cbn [andb].
      apply (clear_lt 26 (-95) 96 (pr_price x : f32) (@toward I (@lower_edge I dev prev r) prev) (@toward E (@lower_edge E (B2R dev) (real prev) (real r)) (real prev))); [lra|apply Sx| |apply CD; reflexivity].
      apply (toward_fl prev r Pp). apply (fl_weaken 17 17 (-71) 40); try lia; [lra|]. apply lower_fl; assumption.
  Qed.

  (** The two masks agree. *)
  Lemma mask_real l : forall clean : list (@price_record I), Forall (sane_record lm as_) l -> Forall (sane_record lm as_) clean ->
    Forall (fun r => @bad_record I r = false) clean ->
    (forall i r prev, nth_error (map real l) i = Some r -> @bad_record E r = false ->
      hd_error (rev (select (firstn i (@mask_of E (B2R dev) (map real clean) (map real l))) (firstn i (map real l))) ++ map real clean) = Some prev ->
      clear_decision sh as' (B2R dev) prev r (skipn (S i) (map real l))) ->
    @mask_of I dev clean l = @mask_of E (B2R dev) (map real clean) (map real l).
  Proof.
    induction l as [|r l IH]; intros clean Sl Sc Gc HC; [reflexivity|].
    apply Forall_cons_iff in Sl as (Sr & Sl). cbn [map mask_of].
    set (kI := negb (@bad_record I r) && _). set (kE := negb (@bad_record E (real r)) && _).
    assert (K : kI = kE).
    { unfold kI, kE. rewrite <- (bad_real r Sr). destruct (@bad_record I r) eqn:Br; [reflexivity|]. cbn [negb andb].
      destruct clean as [|prev clean]; [reflexivity|]. cbn [map]. f_equal.
      apply Forall_cons_iff in Sc as (Sp & Sc). apply Forall_cons_iff in Gc as (Gp & Gc).
      apply jump_real; auto.
      specialize (HC 0%nat (real r) (real prev)). cbn [map nth_error firstn select rev app hd_error skipn] in HC.
      apply HC; auto. rewrite <- (bad_real r Sr). exact Br. }
    fold kE. rewrite <- K. f_equal.
    assert (MC : (if kI then real r :: map real clean else map real clean) = map real (if kI then r :: clean else clean)) by (destruct kI; reflexivity).
    rewrite MC. apply IH.
    - exact Sl.
    - destruct kI; auto.
    - destruct kI eqn:EK; auto. constructor; auto. unfold kI in EK. apply andb_true_iff in EK as (EK & _). apply negb_true_iff. exact EK.
    - intros i r' prev Hi Hb Hp. specialize (HC (S i) r' prev). cbn [map nth_error skipn] in HC. apply HC; auto.
      rewrite <- Hp. f_equal. cbn [mask_of map firstn]. fold kE. rewrite <- K, MC. destruct kI; cbn [select rev map]; [rewrite <- app_assoc; reflexivity|reflexivity].
  Qed.

  Theorem outliers_real l mask : Forall (sane_record lm as_) l ->
    @right_mask E (B2R dev) (map real l) mask -> clear_history sh as' (B2R dev) (map real l) mask ->
    forall idx, @RemoveOutliers I l dev idx = (select mask l, match idx with None => None | Some v => Some (v ++ dropped 0 mask) end).
  Proof.
    intros Sl HM HC.
    assert (EM : mask = @mask_of E (B2R dev) [] (map real l)).
    { eapply right_mask_unique; [exact HM|]. split; [apply mask_length|]. intros i r Hi. rewrite (@mask_nth E (B2R dev) (map real l) [] i r Hi), app_nil_r. reflexivity. }
    assert (EI : @mask_of I dev [] l = mask).
    { rewrite EM. apply (mask_real l []); auto. intros i r prev Hi Hb Hp. rewrite app_nil_r in Hp. cbn [map] in Hp. rewrite <- EM in Hp.
      apply (HC i r prev Hi Hb Hp). }
    intros idx. unfold RemoveOutliers. rewrite loop_mask, app_nil_r, rev_involutive, EI. reflexivity.
  Qed.
End Mask.
