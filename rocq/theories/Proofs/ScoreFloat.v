(** The rounding error of the score. *)
From Coq Require Import Reals ZArith Bool List Lia Lra.
From Flocq Require Import Core BinarySingleNaN Relative.
From Verif.Model Require Import Outcome Machine Types MachineIEEE Eval.
From Verif.Spec Require Import ScoreSpec.
From Verif.Proofs Require Import Base FloatLemmas FloatErr EvalFloat.
Import ListNotations.
Local Open Scope R_scope.

Notation fexp64 := (SpecFloat.fexp 53 1024).
Notation rnd64 := (round radix2 fexp64 ZnearestE).
Lemma valid_exp64 : Valid_exp fexp64.
Proof. exact (fexp_correct 53 1024 (eq_refl _)). Qed.
#[global] Existing Instance valid_exp64.

Lemma format64_bpow k : (-1074 <= k)%Z -> generic_format radix2 fexp64 (bpow radix2 k).
Proof.
  intros H. apply generic_format_bpow. unfold SpecFloat.fexp, SpecFloat.emin. lia.
Qed.

Lemma no_overflow64 x k : (-1074 <= k < 1024)%Z -> Rabs x <= bpow radix2 k ->
  Rlt_bool (Rabs (rnd64 x)) (bpow radix2 1024) = true.
Proof.
  intros Hk H. apply Rlt_bool_true. apply Rle_lt_trans with (bpow radix2 k).
  - apply abs_round_le_generic; try exact _; [apply format64_bpow; lia|exact H].
  - apply bpow_lt. lia.
Qed.

Lemma f2d_exact (x : f32) : is_finite x = true ->
  is_finite (f32_to_f64 x) = true /\ B2R (f32_to_f64 x) = B2R x.
Proof.
  intros F. destruct x as [s|s| |s m e He]; try discriminate; [split; reflexivity|].
  cbn [f32_to_f64].
  pose proof (binary_normalize_correct 53 1024 (eq_refl _) (eq_refl _) mode_NE (cond_Zopp s (Zpos m)) e s) as H. cbn [round_mode] in H.
  assert (G : generic_format radix2 fexp64 (B2R (B754_finite s m e He))).
  { apply generic_inclusion_ge with (fexp1 := fexp32) (e1 := (-200)%Z).
    - intros z Hz. unfold SpecFloat.fexp, SpecFloat.emin. lia.
    - apply Rle_trans with (bpow radix2 (-149)); [apply bpow_le; lia|].
      apply (abs_B2R_ge_emin 24 128 (B754_finite s m e He)). reflexivity.
    - apply generic_format_B2R. }
  cbn [B2R] in G. set (v := F2R (Float radix2 (cond_Zopp s (Zpos m)) e)) in *.
  rewrite round_generic in H; [|exact _|exact G].
  pose proof (abs_B2R_lt_emax 24 128 (B754_finite s m e He)) as K. cbn [B2R] in K. fold v in K.
  rewrite Rlt_bool_true in H by (eapply Rlt_trans; [exact K|apply bpow_lt; lia]).
  destruct H as (HR & HF & _). split; [exact HF|]. exact HR.
Qed.

Lemma d2f_rnd (y : f64) k : (-149 <= k < 128)%Z -> is_finite y = true -> Rabs (B2R y) <= bpow radix2 k ->
  is_finite (f64_to_f32 y) = true /\ B2R (f64_to_f32 y) = rnd (B2R y).
Proof.
  intros Hk F H. destruct y as [s|s| |s m e He]; try discriminate.
  { split; [reflexivity|]. cbn [B2R f64_to_f32]. symmetry. apply rnd_0. }
  cbn [f64_to_f32].
  pose proof (binary_normalize_correct 24 128 (eq_refl _) (eq_refl _) mode_NE (cond_Zopp s (Zpos m)) e s) as K. cbn [round_mode] in K.
  cbn [B2R] in H |- *. set (v := F2R (Float radix2 (cond_Zopp s (Zpos m)) e)) in *.
  rewrite (no_overflow _ k) in K; [|exact Hk|exact H]. destruct K as (HR & HF & _). split; [exact HF|exact HR].
Qed.

(** Relative errors away from underflow. *)
Lemma rel32 x : bpow radix2 (-126) <= Rabs x -> exists d, Rabs d <= / 16777216 /\ rnd x = x * (1 + d).
Proof.
  intros H. destruct (relative_error_N_FLT_ex radix2 (-149) 24 ltac:(lia) (fun x => negb (Z.even x)) x H) as (d & Hd & E).
  exists d. split; [|exact E]. eapply Rle_trans; [exact Hd|]. change (- (24) + 1)%Z with (-23)%Z.
  change (bpow radix2 (-23)) with (/ 8388608). lra.
Qed.

Definition e53 : R := / 9007199254740992.
Lemma rel64 x : bpow radix2 (-1022) <= Rabs x -> exists d, Rabs d <= e53 /\ rnd64 x = x * (1 + d).
Proof.
  intros H. destruct (relative_error_N_FLT_ex radix2 (-1074) 53 ltac:(lia) (fun x => negb (Z.even x)) x H) as (d & Hd & E).
  exists d. split; [|exact E]. eapply Rle_trans; [exact Hd|]. change (- (53) + 1)%Z with (-52)%Z.
  change (bpow radix2 (-52)) with (/ 4503599627370496). unfold e53. lra.
Qed.

(** The ratio of two gains. *)
Lemma ratio_err j (g b : f32) : (0 <= j <= 100)%Z -> is_finite g = true -> is_finite b = true -> 0 < B2R b ->
  bpow radix2 (- j) <= B2R g / B2R b <= bpow radix2 j ->
  let q := Bdiv mode_NE g b in
  is_finite q = true /\ exists d, Rabs d <= / 16777216 /\ B2R q = B2R g / B2R b * (1 + d).
Proof.
  intros Hj Fg Fb Hb H q.
  pose proof (bpow_gt_0 radix2 (- j)) as P.
  pose proof (Bdiv_correct 24 128 _ _ mode_NE g b ltac:(lra)) as K. cbn [round_mode] in K.
  rewrite (no_overflow _ j) in K; [|lia|rewrite Rabs_pos_eq by lra; apply H].
  destruct K as (HR & HF & _). rewrite Fg in HF. split; [exact HF|].
  destruct (rel32 (B2R g / B2R b)) as (d & Hd & E).
  { rewrite Rabs_pos_eq by lra. eapply Rle_trans; [|apply H]. apply bpow_le. lia. }
  exists d. split; [exact Hd|]. change (Bdiv mode_NE g b) with q in HR. rewrite HR. exact E.
Qed.

(** The float product of the ratios. *)
Definition prod (l : list R) : R := fold_right Rmult 1 l.
Lemma prod_snoc l x : prod (l ++ [x]) = prod l * x.
Proof. unfold prod. induction l as [|y l IH]; cbn [app fold_right]; [ring|]. rewrite IH. ring. Qed.

(** Rounding 1 + 2^-23: the factor of one ratio and one product. *)
Definition lo1 : R := 1 - / 8388608.
Definition hi1 : R := 1 + / 8388608.

Lemma prod_range j l : (0 <= j)%Z -> Forall (fun r => bpow radix2 (- j) <= r <= bpow radix2 j) l ->
  bpow radix2 (- (j * Z.of_nat (length l))) <= prod l <= bpow radix2 (j * Z.of_nat (length l)).
Proof.
  intros Hj. induction l as [|x l IH] using rev_ind; intros HF.
  - cbn [length]. rewrite Z.mul_0_r. cbn. unfold prod. cbn. lra.
  - apply Forall_app in HF as (HF & Hx). apply Forall_cons_iff in Hx as (Hx & _). specialize (IH HF).
    rewrite prod_snoc, app_length. cbn [length].
    replace (j * Z.of_nat (length l + 1))%Z with (j * Z.of_nat (length l) + j)%Z by lia.
    rewrite Z.opp_add_distr, !bpow_plus.
    pose proof (bpow_gt_0 radix2 (- j)). pose proof (bpow_gt_0 radix2 (- (j * Z.of_nat (length l)))).
    split; apply Rmult_le_compat; lra.
Qed.

Lemma pow_range n : bpow radix2 (- Z.of_nat n) <= lo1 ^ n /\ hi1 ^ n <= bpow radix2 (Z.of_nat n).
Proof.
  unfold lo1, hi1. induction n as [|n (IH1 & IH2)]; [cbn; lra|].
  replace (Z.of_nat (S n)) with (1 + Z.of_nat n)%Z by lia. rewrite Z.opp_add_distr, !bpow_plus. cbn [pow].
  change (bpow radix2 (- (1))) with (/ 2). change (bpow radix2 1) with 2.
  split; apply Rmult_le_compat; try lra; try apply bpow_ge_0. apply pow_le. lra.
Qed.

Lemma product_err j (l : list (f32 * f32)) : (0 <= j <= 100)%Z -> ((j + 1) * Z.of_nat (length l) <= 1000)%Z ->
  Forall (fun gb => is_finite (fst gb) = true /\ is_finite (snd gb) = true /\ 0 < B2R (snd gb) /\
                    bpow radix2 (- j) <= B2R (fst gb) / B2R (snd gb) <= bpow radix2 j) l ->
  let P := fold_left (fun m gb => Bmult mode_NE m (f32_to_f64 (Bdiv mode_NE (fst gb) (snd gb)))) l (f64_of_Z 1) in
  let X := prod (map (fun gb => B2R (fst gb) / B2R (snd gb)) l) in
  is_finite P = true /\ exists F, lo1 ^ length l <= F <= hi1 ^ length l /\ B2R P = X * F.
Proof.
  intros Hj Hn HF. induction l as [|gb l IH] using rev_ind; cbv zeta.
  - cbn [fold_left]. assert (E1 : is_finite (f64_of_Z 1) = true /\ B2R (f64_of_Z 1) = 1) by (split; vm_compute; [reflexivity|lra]).
    destruct E1 as (F1 & R1). split; [exact F1|]. exists 1. cbn [length pow map]. split; [lra|]. rewrite R1. unfold prod. cbn. ring.
  - apply Forall_app in HF as (HF & Hg). apply Forall_cons_iff in Hg as (Hg & _).
    rewrite app_length in Hn. cbn [length] in Hn. specialize (IH ltac:(lia) HF). cbv zeta in IH.
    rewrite fold_left_app. cbn [fold_left].
    match type of IH with is_finite ?e = true /\ _ => set (P := e) in * end.
    destruct IH as (FP & F & HFr & EP). destruct gb as [g b]. cbn [fst snd] in *. destruct Hg as (Fg & Fb & Pb & Hr).
    destruct (ratio_err j g b Hj Fg Fb Pb Hr) as (Fq & d & Hd & Eq).
    destruct (f2d_exact _ Fq) as (Fq6 & Eq6).
    rewrite map_app. cbn [map]. rewrite prod_snoc, app_length. cbn [length fst snd].
    set (X := prod (map (fun gb => B2R (fst gb) / B2R (snd gb)) l)) in *.
    assert (HX : bpow radix2 (- (j * Z.of_nat (length l))) <= X <= bpow radix2 (j * Z.of_nat (length l))).
    { unfold X. rewrite <- (map_length (fun gb : f32 * f32 => B2R (fst gb) / B2R (snd gb)) l). apply prod_range; [lia|].
      apply Forall_map. eapply Forall_impl; [|exact HF]. intros a Ha. apply Ha. }
    set (r := B2R g / B2R b) in *. set (n := length l) in *.
    destruct (pow_range n) as (Pl & Ph).
    assert (HPv : bpow radix2 (- ((j + 1) * Z.of_nat n)) <= B2R P <= bpow radix2 ((j + 1) * Z.of_nat n)).
    { rewrite EP. replace ((j + 1) * Z.of_nat n)%Z with (j * Z.of_nat n + Z.of_nat n)%Z by lia.
      rewrite Z.opp_add_distr, !bpow_plus.
      pose proof (bpow_gt_0 radix2 (- (j * Z.of_nat n))). pose proof (bpow_gt_0 radix2 (- Z.of_nat n)).
      split; apply Rmult_le_compat; lra. }
    assert (Hq2 : bpow radix2 (- (j + 1)) <= B2R (f32_to_f64 (Bdiv mode_NE g b)) <= bpow radix2 (j + 1)).
    { rewrite Eq6, Eq. rewrite Z.opp_add_distr, !bpow_plus. change (bpow radix2 (- (1))) with (/ 2). change (bpow radix2 1) with 2.
      apply Rabs_le_inv in Hd. pose proof (bpow_gt_0 radix2 (- j)). split; apply Rmult_le_compat; lra. }
    set (q := f32_to_f64 (Bdiv mode_NE g b)) in *.
    pose proof (bpow_gt_0 radix2 (- ((j + 1) * Z.of_nat n))) as G1. pose proof (bpow_gt_0 radix2 (- (j + 1))) as G2.
    assert (HPq : bpow radix2 (- ((j + 1) * Z.of_nat (n + 1))) <= B2R P * B2R q <= bpow radix2 ((j + 1) * Z.of_nat (n + 1))).
    { replace ((j + 1) * Z.of_nat (n + 1))%Z with ((j + 1) * Z.of_nat n + (j + 1))%Z by lia.
      rewrite Z.opp_add_distr, (bpow_plus radix2 (- ((j + 1) * Z.of_nat n)) (- (j + 1))), (bpow_plus radix2 ((j + 1) * Z.of_nat n) (j + 1)).
      split; apply Rmult_le_compat; lra. }
    pose proof (Bmult_correct 53 1024 _ _ mode_NE P q) as K. cbn [round_mode] in K.
    assert (HPq0 : 0 < B2R P * B2R q) by (apply Rmult_lt_0_compat; lra).
    rewrite (no_overflow64 _ 1000) in K; [|lia|].
    2: { rewrite Rabs_pos_eq by lra. eapply Rle_trans; [apply HPq|]. apply bpow_le. lia. }
    destruct K as (KR & KF & _). rewrite FP, Fq6 in KF. split; [exact KF|].
    destruct (rel64 (B2R P * B2R q)) as (e & He & Ee).
    { rewrite Rabs_pos_eq by lra. eapply Rle_trans; [|apply HPq]. apply bpow_le. lia. }
    exists (F * ((1 + d) * (1 + e))). split.
    + rewrite Nat.add_1_r. cbn [pow]. rewrite !(Rmult_comm _ (_ ^ n)). unfold e53 in He.
      apply Rabs_le_inv in Hd, He.
      assert (D1 : lo1 <= (1 + d) * (1 + e) <= hi1).
      { unfold lo1, hi1. split.
        - apply Rle_trans with ((1 - / 16777216) * (1 - / 9007199254740992)); [lra|]. apply Rmult_le_compat; lra.
        - apply Rle_trans with ((1 + / 16777216) * (1 + / 9007199254740992)); [|lra]. apply Rmult_le_compat; lra. }
      assert (0 <= lo1 ^ n) by (apply pow_le; unfold lo1; lra).
      assert (0 <= lo1) by (unfold lo1; lra).
      split; apply Rmult_le_compat; lra.
    + etransitivity; [exact KR|]. etransitivity; [exact Ee|]. rewrite EP, Eq6, Eq. fold r.
      match goal with |- _ = prod ?m * _ * _ => change (prod m) with X end. ring.
Qed.

(** ** Real powers *)
Lemma Rpower_bounds x y k : 0 < x -> 0 <= y <= 1 -> (0 <= k)%Z -> bpow radix2 (- k) <= x <= bpow radix2 k ->
  bpow radix2 (- k) <= Rpower x y <= bpow radix2 k.
Proof.
  intros Hx Hy Hk H. unfold Rpower.
  assert (Hln : Rabs (ln x) <= ln (bpow radix2 k)).
  { assert (L1 : ln (bpow radix2 (- k)) <= ln x).
    { destruct (proj1 H) as [L|E]; [left; apply ln_increasing; [apply bpow_gt_0|exact L]|rewrite E; lra]. }
    assert (L2 : ln x <= ln (bpow radix2 k)).
    { destruct (proj2 H) as [L|E]; [left; apply ln_increasing; assumption|rewrite E; lra]. }
    rewrite bpow_opp, ln_Rinv in L1 by apply bpow_gt_0. apply Rabs_le. lra. }
  set (L := ln (bpow radix2 k)) in *.
  assert (E1 : Rabs (y * ln x) <= L).
  { rewrite Rabs_mult, (Rabs_pos_eq y) by lra. rewrite <- (Rmult_1_l L). apply Rmult_le_compat; try lra; apply Rabs_pos. }
  apply Rabs_le_inv in E1.
  assert (EL : exp L = bpow radix2 k) by (apply exp_ln, bpow_gt_0).
  assert (M : forall a b, a <= b -> exp a <= exp b).
  { intros a b [Hab| ->]; [left; apply exp_increasing; exact Hab|lra]. }
  split.
  - rewrite bpow_opp, <- EL, <- exp_Ropp. apply M. lra.
  - rewrite <- EL. apply M. lra.
Qed.

Lemma exp_near x : Rabs x <= / 4 -> 1 - 2 * Rabs x <= exp x <= 1 + 2 * Rabs x.
Proof.
  intros H. pose proof (exp_ineq1_le x) as L. pose proof (exp_ineq1_le (- x)) as L2.
  pose proof (exp_pos x) as P. rewrite exp_Ropp in L2.
  assert (Hx := Rabs_le_inv _ _ (Rle_refl (Rabs x))). pose proof (Rabs_pos x) as A.
  split; [lra|].
  (* exp x <= 1 / (1 - x) *)
  assert (Hm : exp x * (1 - x) <= 1).
  { replace 1 with (exp x * / exp x) at 2 by (field; lra). apply Rmult_le_compat_l; lra. }
  apply Rmult_le_reg_r with (1 - x); [lra|]. eapply Rle_trans; [exact Hm|].
  destruct (Rle_or_lt 0 x) as [X|X].
  - rewrite Rabs_pos_eq in * by lra. assert (0 <= x * (1 - 2 * x)) by (apply Rmult_le_pos; lra).
    replace ((1 + 2 * x) * (1 - x)) with (1 + x * (1 - 2 * x)) by ring. lra.
  - rewrite Rabs_left in * by lra. assert (0 <= (- x) * (1 + 2 * (1 - x))) by (apply Rmult_le_pos; lra).
    replace ((1 + 2 * - x) * (1 - x)) with (1 + (- x) * (1 + 2 * (1 - x))) by ring. lra.
Qed.

Lemma root_mono F n a b : (1 <= n)%nat -> 0 < a -> 0 < b -> a ^ n <= F <= b ^ n ->
  a <= Rpower F (/ INR n) <= b.
Proof.
  intros Hn Ha Hb H. assert (N : 1 <= INR n) by (change 1 with (INR 1); apply le_INR; lia).
  assert (FP : 0 < F) by (eapply Rlt_le_trans; [apply pow_lt; exact Ha|apply H]).
  assert (Hi : 0 < / INR n) by (apply Rinv_0_lt_compat; lra).
  assert (E : forall x, 0 < x -> Rpower (x ^ n) (/ INR n) = x).
  { intros x Hx. rewrite <- Rpower_pow by exact Hx. rewrite Rpower_mult, Rinv_r by lra. apply Rpower_1. exact Hx. }
  split.
  - rewrite <- (E a Ha) at 1. apply Rle_Rpower_l; [lra|]. split; [apply pow_lt; exact Ha|apply H].
  - rewrite <- (E b Hb). apply Rle_Rpower_l; [lra|]. split; [exact FP|apply H].
Qed.

Lemma ln_bpow k : ln (bpow radix2 k) = IZR k * ln 2.
Proof.
  rewrite bpow_powerRZ. change (IZR radix2) with 2. rewrite powerRZ_Rpower by lra. unfold Rpower. apply ln_exp.
Qed.
Lemma ln2_le : 0 < ln 2 <= 1.
Proof.
  split; [rewrite <- ln_1; apply ln_increasing; lra|].
  pose proof (exp_ineq1_le 1) as H. apply Rle_trans with (ln (exp 1)); [|rewrite ln_exp; lra].
  destruct H as [H|H]; [left; apply ln_increasing; lra|]. replace 2 with (1 + 1) by lra. rewrite H. lra.
Qed.
Lemma ln_range x k : (0 <= k)%Z -> bpow radix2 (- k) <= x <= bpow radix2 k -> Rabs (ln x) <= IZR k.
Proof.
  intros Hk H. pose proof (bpow_gt_0 radix2 (- k)) as P. pose proof ln2_le as L.
  assert (K : 0 <= IZR k) by (apply IZR_le; exact Hk).
  assert (KL : IZR k * ln 2 <= IZR k) by (rewrite <- (Rmult_1_r (IZR k)) at 2; apply Rmult_le_compat_l; lra).
  assert (L1 : ln (bpow radix2 (- k)) <= ln x).
  { destruct (proj1 H) as [L1|E]; [left; apply ln_increasing; [apply bpow_gt_0|exact L1]|rewrite E; lra]. }
  assert (L2 : ln x <= ln (bpow radix2 k)).
  { destruct (proj2 H) as [L2|E]; [left; apply ln_increasing; [lra|assumption]|rewrite E; lra]. }
  rewrite ln_bpow in L1, L2. rewrite opp_IZR in L1. apply Rabs_le. lra.
Qed.

(** The exponent 1.0 / n. *)
Lemma ofZ64_exact n : (1 <= n <= 1000)%Z -> is_finite (f64_of_Z n) = true /\ B2R (f64_of_Z n) = IZR n.
Proof.
  intros Hn. unfold f64_of_Z.
  pose proof (binary_normalize_correct 53 1024 (eq_refl _) (eq_refl _) mode_NE n 0 false) as H. cbn [round_mode] in H.
  assert (E : F2R (Float radix2 n 0) = IZR n) by (unfold F2R; cbn; ring).
  rewrite E in H.
  assert (G : generic_format radix2 fexp64 (IZR n)).
  { rewrite <- E. apply generic_format_F2R. intros _. unfold cexp. rewrite E.
    assert (M : (mag radix2 (IZR n) <= 10)%Z).
    { apply mag_le_bpow; [apply not_0_IZR; lia|]. rewrite Rabs_pos_eq by (apply IZR_le; lia).
      change (bpow radix2 10) with (IZR 1024). apply IZR_lt. lia. }
    unfold SpecFloat.fexp, SpecFloat.emin. lia. }
  rewrite round_generic in H; [|exact _|exact G].
  rewrite Rlt_bool_true in H.
  - destruct H as (HR & HF & _). split; assumption.
  - rewrite Rabs_pos_eq by (apply IZR_le; lia). apply Rlt_trans with (bpow radix2 10); [|apply bpow_lt; lia].
    change (bpow radix2 10) with (IZR 1024). apply IZR_lt. lia.
Qed.

Lemma inv_err n : (1 <= n <= 1000)%Z ->
  let y := Bdiv mode_NE (f64_of_Z 1) (f64_of_Z n) in
  is_finite y = true /\ exists e, Rabs e <= e53 /\ B2R y = / IZR n * (1 + e).
Proof.
  intros Hn y. destruct (ofZ64_exact 1 ltac:(lia)) as (F1 & R1). destruct (ofZ64_exact n Hn) as (Fn & Rn).
  assert (N : 1 <= IZR n <= 1000) by (split; apply IZR_le; lia).
  pose proof (Bdiv_correct 53 1024 (eq_refl _) (eq_refl _) mode_NE (f64_of_Z 1) (f64_of_Z n) ltac:(rewrite Rn; lra)) as K.
  cbn [round_mode] in K. rewrite R1, Rn in K. unfold Rdiv in K. rewrite Rmult_1_l in K.
  assert (I1 : / 1000 <= / IZR n <= 1).
  { split; [apply Rinv_le; lra|]. rewrite <- Rinv_1. apply Rinv_le; lra. }
  rewrite (no_overflow64 _ 0) in K; [|lia|rewrite Rabs_pos_eq by lra; cbn; lra].
  destruct K as (HR & HF & _). rewrite F1 in HF. split; [exact HF|].
  destruct (rel64 (/ IZR n)) as (e & He & Ee).
  { rewrite Rabs_pos_eq by lra. eapply Rle_trans; [|apply I1]. apply Rle_trans with (bpow radix2 (-10)); [apply bpow_le; lia|].
    change (bpow radix2 (-10)) with (/ 1024). lra. }
  exists e. split; [exact He|]. etransitivity; [exact HR|exact Ee].
Qed.

(** The whole score. *)
Lemma score_err lm j (l : list (f32 * f32)) : pow_accurate lm -> l <> [] ->
  (0 <= j <= 100)%Z -> ((j + 1) * Z.of_nat (length l) <= 1000)%Z ->
  Forall (fun gb => is_finite (fst gb) = true /\ is_finite (snd gb) = true /\ 0 < B2R (snd gb) /\
                    bpow radix2 (- j) <= B2R (fst gb) / B2R (snd gb) <= bpow radix2 j) l ->
  let P := fold_left (fun m gb => Bmult mode_NE m (f32_to_f64 (Bdiv mode_NE (fst gb) (snd gb)))) l (f64_of_Z 1) in
  let X := prod (map (fun gb => B2R (fst gb) / B2R (snd gb)) l) in
  let s := f64_to_f32 (libm_pow lm P (Bdiv mode_NE (f64_of_Z 1) (f64_of_Z (Z.of_nat (length l))))) in
  is_finite s = true /\
  Rabs (B2R s - Rpower X (/ INR (length l))) <= / 2 ^ 22 * Rpower X (/ INR (length l)).
Proof.
  intros HL Hne Hj Hn HF P X s.
  destruct (product_err j l Hj Hn HF) as (FP & F & HFr & EP). fold P in FP, EP. 
  match type of EP with _ = ?x * _ => change x with X in EP end.
  set (n := length l) in *. assert (N0 : (1 <= n)%nat) by (destruct l; [congruence|unfold n; cbn; lia]).
  assert (Hn1 : (1 <= Z.of_nat n <= 1000)%Z).
  { split; [lia|]. apply Z.le_trans with ((j + 1) * Z.of_nat n)%Z; [|exact Hn]. apply Z.le_trans with (1 * Z.of_nat n)%Z; [lia|].
    apply Z.mul_le_mono_nonneg_r; lia. }
  destruct (inv_err _ Hn1) as (Fy & e & He & Ey). rewrite <- INR_IZR_INZ in Ey.
  set (y := Bdiv mode_NE (f64_of_Z 1) (f64_of_Z (Z.of_nat n))) in *.
  assert (NR : 1 <= INR n) by (change 1 with (INR 1); apply le_INR; exact N0).
  assert (NI : 0 < / INR n <= 1).
  { split; [apply Rinv_0_lt_compat; lra|]. rewrite <- Rinv_1. apply Rinv_le; lra. }
  assert (HX : bpow radix2 (- (j * Z.of_nat n)) <= X <= bpow radix2 (j * Z.of_nat n)).
  { unfold X, n. rewrite <- (map_length (fun gb : f32 * f32 => B2R (fst gb) / B2R (snd gb)) l). apply prod_range; [lia|].
    apply Forall_map. eapply Forall_impl; [|exact HF]. intros a Ha. apply Ha. }
  destruct (pow_range n) as (Pl & Ph).
  pose proof (bpow_gt_0 radix2 (- (j * Z.of_nat n))) as G1. pose proof (bpow_gt_0 radix2 (- Z.of_nat n)) as G2.
  assert (X0 : 0 < X) by lra. assert (F0 : 0 < F) by lra.
  assert (HPv : bpow radix2 (- ((j + 1) * Z.of_nat n)) <= B2R P <= bpow radix2 ((j + 1) * Z.of_nat n)).
  { rewrite EP. replace ((j + 1) * Z.of_nat n)%Z with (j * Z.of_nat n + Z.of_nat n)%Z by lia.
    rewrite Z.opp_add_distr, !bpow_plus. split; apply Rmult_le_compat; lra. }
  assert (HPv1 : bpow radix2 (- (1000)) <= B2R P <= bpow radix2 1000).
  { split; [eapply Rle_trans; [|apply HPv]|eapply Rle_trans; [apply HPv|]]; apply bpow_le; lia. }
  assert (P0 : 0 < B2R P) by (rewrite EP; apply Rmult_lt_0_compat; assumption).
  (* the geometric mean of the exact ratios *)
  set (G := Rpower X (/ INR n)).
  assert (HG : bpow radix2 (- j) <= G <= bpow radix2 j).
  { apply root_mono; auto; try apply bpow_gt_0.
    assert (Q : forall k, (bpow radix2 k) ^ n = bpow radix2 (k * Z.of_nat n)).
    { intros k. clear. induction n as [|m IH]; [rewrite Z.mul_0_r; reflexivity|].
      cbn [pow]. rewrite IH, <- bpow_plus. f_equal. lia. }
    rewrite !Q. rewrite Z.mul_opp_l. exact HX. }
  pose proof (bpow_gt_0 radix2 (- j)) as G3. assert (G0 : 0 < G) by lra.
  (* the power the program asks for *)
  assert (R1 : Rpower (B2R P) (B2R y) = G * Rpower F (/ INR n) * exp (e * (/ INR n * ln (B2R P)))).
  { rewrite Ey. unfold G, Rpower. rewrite <- !exp_plus. f_equal. rewrite EP, ln_mult by assumption. ring. }
  assert (HFn : lo1 <= Rpower F (/ INR n) <= hi1) by (apply root_mono; auto; unfold lo1, hi1; lra).
  set (H := Rpower F (/ INR n)) in *.
  pose proof (ln_range _ 1000 ltac:(lia) HPv1) as Hln.
  unfold e53 in He.
  assert (HE : Rabs (e * (/ INR n * ln (B2R P))) <= / 9000000000000).
  { rewrite !Rabs_mult. rewrite (Rabs_pos_eq (/ INR n)) by lra.
    apply Rle_trans with (/ 9007199254740992 * (1 * 1000)); [|lra].
    pose proof (Rabs_pos e). pose proof (Rabs_pos (ln (B2R P))).
    apply Rmult_le_compat; try lra; [apply Rmult_le_pos; lra|]. apply Rmult_le_compat; lra. }
  pose proof (exp_near (e * (/ INR n * ln (B2R P))) ltac:(lra)) as HX2.
  set (Z := exp (e * (/ INR n * ln (B2R P)))) in *.
  set (D := H * Z).
  assert (HD : 1 - / 8388000 <= D <= 1 + / 8388000).
  { unfold D, lo1, hi1 in *. split.
    - apply Rle_trans with ((1 - / 8388608) * (1 - 2 * / 9000000000000)); [lra|]. apply Rmult_le_compat; lra.
    - apply Rle_trans with ((1 + / 8388608) * (1 + 2 * / 9000000000000)); [|lra]. apply Rmult_le_compat; lra. }
  assert (R2 : Rpower (B2R P) (B2R y) = G * D) by (rewrite R1; unfold D; ring).
  assert (HGD : bpow radix2 (- (101)) <= G * D <= bpow radix2 101).
  { assert (A : bpow radix2 (- (100)) <= G <= bpow radix2 100).
    { split; [eapply Rle_trans; [|apply HG]|eapply Rle_trans; [apply HG|]]; apply bpow_le; lia. }
    pose proof (bpow_gt_0 radix2 (- (100))).
    change (- (101))%Z with (- (100) + - (1))%Z. change (101)%Z with (100 + 1)%Z.
    rewrite (bpow_plus radix2 (- (100))), (bpow_plus radix2 100). change (bpow radix2 (- (1))) with (/ 2). change (bpow radix2 1) with 2.
    split; apply Rmult_le_compat; lra. }
  destruct (HL P y FP Fy P0) as (Fpow & Epow).
  { rewrite R2. split; [eapply Rle_trans; [|apply HGD]|eapply Rle_trans; [apply HGD|]]; apply bpow_le; lia. }
  rewrite R2 in Epow. set (w := libm_pow lm P y) in *.
  replace (/ 2 ^ 40) with (/ 1099511627776) in Epow by (f_equal; lra).
  assert (HGD0 : 0 < G * D) by (apply Rmult_lt_0_compat; lra).
  assert (Hw : G * D / 2 <= B2R w <= G * D * 2) by (apply Rabs_le_inv in Epow; lra).
  assert (Hwb : bpow radix2 (- (102)) <= B2R w <= bpow radix2 102).
  { change (- (102))%Z with (- (101) + - (1))%Z. change (102)%Z with (101 + 1)%Z.
    rewrite (bpow_plus radix2 (- (101))), (bpow_plus radix2 101). change (bpow radix2 (- (1))) with (/ 2). change (bpow radix2 1) with 2. lra. }
  pose proof (bpow_gt_0 radix2 (- (102))) as G4.
  destruct (d2f_rnd w 102 ltac:(lia) Fpow) as (Fs & Es); [rewrite Rabs_pos_eq by lra; apply Hwb|].
  split; [exact Fs|].
  destruct (rel32 (B2R w)) as (d & Hd & Ed).
  { rewrite Rabs_pos_eq by lra. eapply Rle_trans; [|apply Hwb]. apply bpow_le. lia. }
  unfold s. rewrite Es, Ed. replace (/ 2 ^ 22) with (/ 4194304) by (f_equal; lra).
  apply Rabs_le_inv in Epow. apply Rabs_le_inv in Hd.
  assert (GD : G * (1 - / 8388000) <= G * D <= G * (1 + / 8388000)) by (split; apply Rmult_le_compat_l; lra).
  assert (W : G * (1 - / 8387000) <= B2R w <= G * (1 + / 8387000)) by lra.
  apply Rabs_le. split.
  - apply Rle_trans with (G * (1 - / 8387000) * (1 - / 16777216) - G); [lra|]. apply Rplus_le_compat_r.
    apply Rmult_le_compat; lra.
  - apply Rle_trans with (G * (1 + / 8387000) * (1 + / 16777216) - G); [|lra]. apply Rplus_le_compat_r.
    apply Rmult_le_compat; lra.
Qed.
