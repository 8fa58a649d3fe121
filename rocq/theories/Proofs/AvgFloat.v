(** The rounding errors of the averages and of the score of an evaluation. *)
From Coq Require Import Reals ZArith Bool List Lia Lra.
From Flocq Require Import Core BinarySingleNaN Relative Plus_error.
From Verif.Model Require Import Outcome Machine Types MachineIEEE Eval.
From Verif.Spec Require Import IndicatorSpec.
From Verif.Proofs Require Import Base FloatLemmas FloatErr MeanProofs DriftProofs EmaDrift.
Import ListNotations.
Local Open Scope R_scope.

(** A sum of two floats has only a relative error. *)
Lemma plus_rel (x y : f32) : exists d, Rabs d <= u24 /\ rnd (B2R x + B2R y) = (B2R x + B2R y) * (1 + d).
Proof.
  destruct (FLT_plus_error_N_ex radix2 (-149) 24 (fun x => negb (Z.even x)) (B2R x) (B2R y)) as (d & Hd & E).
  - apply (generic_format_B2R 24 128).
  - apply (generic_format_B2R 24 128).
  - exists d. split; [|exact E]. eapply Rle_trans; [exact Hd|].
    assert (U : u_ro radix2 24 = u24).
    { unfold u_ro, u24. change (- (24) + 1)%Z with (-23)%Z. change (bpow radix2 (-23)) with (/ 8388608). lra. }
    rewrite U. assert (0 < u24) by (unfold u24; lra).
    apply Rmult_le_reg_r with (1 + u24); [lra|]. unfold Rdiv. rewrite Rmult_assoc, Rinv_l by lra.
    unfold u24. lra.
Qed.

Lemma fold_left_plus (l : list R) a : fold_left Rplus l a = a + Rsum l.
Proof.
  revert a. induction l as [|x l IH]; intros a; cbn [fold_left]; [unfold Rsum; cbn; ring|].
  rewrite IH. unfold Rsum. cbn [fold_right]. ring.
Qed.

Lemma Rsum_nonneg (l : list R) : Forall (fun x => 0 <= x) l -> 0 <= Rsum l.
Proof. unfold Rsum. induction 1; cbn [fold_right]; lra. Qed.

Lemma Rsum_le (l : list R) B : Forall (fun x => x <= B) l -> Rsum l <= INR (length l) * B.
Proof. unfold Rsum. induction 1 as [|x l Hx _ IH]; cbn [fold_right length]; [cbn; lra|]. rewrite S_INR. lra. Qed.

(** The float sum of non-negative floats. *)
Lemma sum_err k (l : list f32) : (-100 <= k <= 100)%Z -> (Z.of_nat (length l) <= 2 ^ 20)%Z -> Forall (nneg k) l ->
  let s := fold_left (fun a x => Bplus mode_NE a x) l (f32_of_Z 0) in
  is_finite s = true /\ Rabs (B2R s - Rsum (map B2R l)) <= INR (length l) * (2 * u24) * Rsum (map B2R l).
Proof.
  intros Hk. destruct (ofZ_finite 0 ltac:(lia)) as (F0 & R0).
  induction l as [|x l IH] using rev_ind; intros Hn HF; cbv zeta.
  - cbn [fold_left map length]. split; [exact F0|]. rewrite R0. unfold Rsum. cbn [fold_right].
    rewrite Rminus_0_r, Rabs_R0, Rmult_0_r. lra.
  - apply Forall_app in HF as (HF & Hx). apply Forall_cons_iff in Hx as (Hx & _).
    rewrite app_length in Hn. cbn [length] in Hn.
    destruct (IH ltac:(lia) HF) as (Fs & Es). clear IH.
    rewrite fold_left_app. cbn [fold_left].
    match type of Fs with is_finite ?e = true => change (fold_left (fun a x => Bplus mode_NE a x) l (f32_of_Z 0)) with e; set (s := e) in * end.
    rewrite map_app, Rsum_app, app_length. cbn [map length].
    replace (Rsum [B2R x]) with (B2R x) by (unfold Rsum; cbn; ring).
    assert (HS0 : 0 <= Rsum (map B2R l)).
    { apply Rsum_nonneg. apply Forall_map. eapply Forall_impl; [|exact HF]. intros a Ha. apply Ha. }
    assert (HS1 : Rsum (map B2R l) <= INR (length l) * bpow radix2 k).
    { assert (K : Rsum (map B2R l) <= INR (length (map B2R l)) * bpow radix2 k); [|rewrite map_length in K; exact K].
      apply Rsum_le. apply Forall_map. eapply Forall_impl; [|exact HF]. intros a Ha. apply Ha. }
    destruct Hx as (Fx & Hx). pose proof (bpow_gt_0 radix2 k) as HB.
    change (@length (binary_float 24 128) l) with (@length f32 l) in *.
    assert (Hlen : INR (length l) + 1 <= 1048576).
    { rewrite INR_IZR_INZ, <- plus_IZR. apply IZR_le. lia. }
    pose proof (pos_INR (length l)) as HL.
    set (n := INR (length l)) in *. set (S0 := Rsum (map B2R l)) in *.
    repeat match goal with |- context [Rsum ?e] => change (Rsum e) with S0 end. set (B := bpow radix2 k) in *.
    unfold u24 in *.
    assert (HnB : n * B <= 1048576 * B) by (apply Rmult_le_compat_r; lra).
    assert (Hrel : n * (2 * / 16777216) * S0 <= / 8 * S0).
    { apply Rmult_le_compat_r; lra. }
    assert (Hrel0 : 0 <= n * (2 * / 16777216) * S0) by (apply Rmult_le_pos; [|lra]; apply Rmult_le_pos; lra).
    assert (Hsum : Rabs (B2R s + B2R x) <= S0 + B2R x + n * (2 * / 16777216) * S0).
    { apply Rabs_le_inv in Es. apply Rabs_le. lra. }
    destruct (plus_rel s x) as (d & Hd & Er). unfold u24 in Hd.
    pose proof (Bplus_correct 24 128 _ _ mode_NE s x Fs Fx) as H. cbn [round_mode] in H.
    rewrite (no_overflow _ (k + 22)) in H; [|lia|].
    2: { rewrite bpow_plus. change (bpow radix2 22) with 4194304. fold B. lra. }
    destruct H as (HR & HFi & _). split; [exact HFi|].
    change (round radix2 (SpecFloat.fexp 24 128) (round_mode mode_NE)) with rnd in HR. rewrite HR, Er.
    rewrite Nat.add_1_r, S_INR. fold n.
    replace ((B2R s + B2R x) * (1 + d) - (S0 + B2R x)) with ((B2R s - S0) + (B2R s + B2R x) * d) by ring.
    eapply Rle_trans; [apply Rabs_triang|].
    assert (Hp : Rabs ((B2R s + B2R x) * d) <= (S0 + B2R x + n * (2 * / 16777216) * S0) * / 16777216).
    { apply Rabs_mult_le; assumption. }
    assert (Hx2 : 0 <= n * (2 * / 16777216) * B2R x) by (apply Rmult_le_pos; [|lra]; apply Rmult_le_pos; lra).
    replace ((n + 1) * (2 * / 16777216) * (S0 + B2R x))
      with (n * (2 * / 16777216) * S0 + n * (2 * / 16777216) * B2R x + 2 * / 16777216 * (S0 + B2R x)) by ring.
    lra.
Qed.

Section Averages.
  Context (lm : libm) (as_ : bool).
  Local Notation I := (ieee lm as_).

  Lemma average_err {A} k (l : list A) (f : A -> f32) : l <> [] ->
    (-100 <= k <= 100)%Z -> (Z.of_nat (length l) <= 2 ^ 20)%Z -> Forall (fun a => nneg k (f a)) l ->
    let q : f32 := @GetAverage I A l f in
    let m := mean (map (fun a => B2R (f a)) l) in
    is_finite q = true /\ Rabs (B2R q - m) <= (INR (length l) + 1) * / 8388608 * m + bpow radix2 (-150).
  Proof.
    intros Hne Hk Hn HF q m.
    assert (Eq : q = Bdiv mode_NE (fold_left (fun a x => Bplus mode_NE a x) (map f l) (f32_of_Z 0)) (f32_of_Z (Z.of_nat (length l)))).
    { unfold q, GetAverage. destruct l as [|a l]; [congruence|].
      match goal with |- _ = ?r => change (Bdiv mode_NE (fold_left (fun sum e => Bplus mode_NE sum (f e)) (a :: l) (f32_of_Z 0)) (f32_of_Z (Z.of_nat (length (a :: l)))) = r) end.
      apply (f_equal (fun z => Bdiv mode_NE z (f32_of_Z (Z.of_nat (length (a :: l)))))).
      generalize (f32_of_Z 0) as z. generalize (a :: l) as l0.
      induction l0 as [|b l0 IH]; intros z; [reflexivity|]. apply IH. }
    destruct (sum_err k (map f l) Hk ltac:(rewrite map_length; exact Hn)) as (Fs & Es).
    { apply Forall_map. exact HF. }
    rewrite map_length in Es. rewrite map_map in Es. rewrite Eq. clear Eq q.
    match type of Fs with is_finite ?e = true => change (fold_left (fun a x => Bplus mode_NE a x) (map f l) (f32_of_Z 0)) with e; set (s := e) in * end.
    destruct (ofZ_finite (Z.of_nat (length l)) ltac:(lia)) as (Fn & Rn). rewrite <- INR_IZR_INZ in Rn.
    assert (N1 : 1 <= INR (length l)).
    { change 1 with (INR 1). apply le_INR. destruct l; [congruence|cbn; lia]. }
    assert (N2 : INR (length l) <= 1048576) by (rewrite INR_IZR_INZ; apply IZR_le; lia).
    assert (Em : m = Rsum (map (fun a => B2R (f a)) l) / INR (length l)).
    { unfold m. rewrite mean_eq by (destruct l; [congruence|discriminate]). rewrite map_length. reflexivity. }
    set (S0 := Rsum (map (fun a => B2R (f a)) l)) in *. set (n := INR (length l)) in *.
    assert (HS0 : 0 <= S0).
    { apply Rsum_nonneg. apply Forall_map. eapply Forall_impl; [|exact HF]. intros a Ha. apply Ha. }
    assert (HS1 : S0 <= n * bpow radix2 k).
    { assert (K : S0 <= INR (length (map (fun a => B2R (f a)) l)) * bpow radix2 k); [|rewrite map_length in K; exact K].
      apply Rsum_le. apply Forall_map. eapply Forall_impl; [|exact HF]. intros a Ha. apply Ha. }
    pose proof (bpow_gt_0 radix2 k) as HB. set (B := bpow radix2 k) in *.
    assert (Hinv : 0 < / n) by (apply Rinv_0_lt_compat; lra).
    assert (Hm : 0 <= m <= B).
    { rewrite Em. split; [apply Rle_mult_inv_pos; lra|]. apply Rmult_le_reg_r with n; [lra|].
      unfold Rdiv. rewrite Rmult_assoc, Rinv_l by lra. lra. }
    unfold u24 in Es.
    assert (Hq : Rabs (B2R s / n - m) <= n * (2 * / 16777216) * m).
    { rewrite Em. unfold Rdiv. rewrite <- Rmult_minus_distr_r, Rabs_mult, (Rabs_pos_eq (/ n)) by lra.
      replace (n * (2 * / 16777216) * (S0 * / n)) with (n * (2 * / 16777216) * S0 * / n) by ring.
      apply Rmult_le_compat_r; [lra|exact Es]. }
    assert (Hrel : n * (2 * / 16777216) * m <= / 8 * m) by (apply Rmult_le_compat_r; lra).
    assert (Hq2 : Rabs (B2R s / n) <= 9 / 8 * m).
    { apply Rabs_le_inv in Hq. apply Rabs_le. lra. }
    assert (Hn0 : B2R (f32_of_Z (Z.of_nat (length l))) <> 0) by (rewrite Rn; fold n; lra).
    pose proof (Bdiv_correct 24 128 _ _ mode_NE s (f32_of_Z (Z.of_nat (length l))) Hn0) as H. cbn [round_mode] in H.
    rewrite Rn in H. fold n in H. rewrite (no_overflow _ (k + 1)) in H; [|lia|].
    2: { rewrite bpow_plus_1. simpl (IZR radix2). fold B. lra. }
    destruct H as (HR & HFi & _). rewrite Fs in HFi. split; [exact HFi|].
    change (round radix2 (SpecFloat.fexp 24 128) (round_mode mode_NE)) with rnd in HR. rewrite HR.
    pose proof (rnd_abs_err _ _ Hq2) as Er. unfold u24 in Er.
    replace (rnd (B2R s / n) - m) with ((rnd (B2R s / n) - B2R s / n) + (B2R s / n - m)) by ring.
    eapply Rle_trans; [apply Rabs_triang|].
    replace ((n + 1) * / 8388608 * m) with (n * (2 * / 16777216) * m + 2 * / 16777216 * m) by lra. lra.
  Qed.
End Averages.
