(** Signed float operations and their rounding errors. *)
From Coq Require Import Reals ZArith Bool Lia Lra.
From Flocq Require Import Core BinarySingleNaN Relative.
From Verif.Model Require Import MachineIEEE.
From Verif.Proofs Require Import FloatLemmas.
Local Open Scope R_scope.

(** x is a number in [-2^k, 2^k]. *)
Definition bnd (k : Z) (x : f32) : Prop := is_finite x = true /\ Rabs (B2R x) <= bpow radix2 k.

Lemma nneg_bnd k x : nneg k x -> bnd k x.
Proof. intros [F H]. split; auto. rewrite Rabs_pos_eq; lra. Qed.

Lemma bnd_weaken j k x : (j <= k)%Z -> bnd j x -> bnd k x.
Proof. intros Hjk [F H]. split; auto. eapply Rle_trans; [exact H|]. apply bpow_le; exact Hjk. Qed.

Lemma Bplus_bnd k x y : (-149 <= k < 127)%Z -> bnd k x -> bnd k y ->
  bnd (k + 1) (Bplus mode_NE x y) /\ B2R (Bplus mode_NE x y) = rnd (B2R x + B2R y).
Proof.
  intros Hk [Fx Hx] [Fy Hy].
  assert (Hs : Rabs (B2R x + B2R y) <= bpow radix2 (k + 1)).
  { rewrite bpow_plus_1. simpl (IZR radix2). eapply Rle_trans; [apply Rabs_triang|]. lra. }
  pose proof (Bplus_correct 24 128 _ _ mode_NE x y Fx Fy) as H. cbn [round_mode] in H.
  rewrite (no_overflow _ (k + 1)) in H by (try lia; exact Hs).
  destruct H as (HR & HF & _). split; [|exact HR]. split; [exact HF|]. rewrite HR.
  apply rnd_abs_le; [lia|exact Hs].
Qed.

Lemma Bminus_bnd k x y : (-149 <= k < 127)%Z -> bnd k x -> bnd k y ->
  bnd (k + 1) (Bminus mode_NE x y) /\ B2R (Bminus mode_NE x y) = rnd (B2R x - B2R y).
Proof.
  intros Hk [Fx Hx] [Fy Hy].
  assert (Hs : Rabs (B2R x - B2R y) <= bpow radix2 (k + 1)).
  { rewrite bpow_plus_1. simpl (IZR radix2). unfold Rminus. eapply Rle_trans; [apply Rabs_triang|].
    rewrite Rabs_Ropp. lra. }
  pose proof (Bminus_correct 24 128 _ _ mode_NE x y Fx Fy) as H. cbn [round_mode] in H.
  rewrite (no_overflow _ (k + 1)) in H by (try lia; exact Hs).
  destruct H as (HR & HF & _). split; [|exact HR]. split; [exact HF|]. rewrite HR.
  apply rnd_abs_le; [lia|exact Hs].
Qed.

Lemma Bmult_bnd j k x y : (-149 <= j + k < 128)%Z -> bnd j x -> bnd k y ->
  bnd (j + k) (Bmult mode_NE x y) /\ B2R (Bmult mode_NE x y) = rnd (B2R x * B2R y).
Proof.
  intros Hk [Fx Hx] [Fy Hy].
  assert (Hs : Rabs (B2R x * B2R y) <= bpow radix2 (j + k)).
  { rewrite Rabs_mult, bpow_plus. apply Rmult_le_compat; auto; apply Rabs_pos. }
  pose proof (Bmult_correct 24 128 _ _ mode_NE x y) as H. cbn [round_mode] in H.
  rewrite (no_overflow _ (j + k)) in H by (try lia; exact Hs).
  destruct H as (HR & HF & _). rewrite Fx, Fy in HF. split; [|exact HR]. split; [exact HF|]. rewrite HR.
  apply rnd_abs_le; [lia|exact Hs].
Qed.

Lemma rnd_ge_bpow x k : (-149 <= k)%Z -> bpow radix2 k <= x -> bpow radix2 k <= rnd x.
Proof. intros Hk H. apply round_ge_generic; auto; try exact _. apply format_bpow; exact Hk. Qed.

Lemma rnd_1_le x : 1 <= x -> 1 <= rnd x.
Proof. intros. change 1 with (bpow radix2 0). apply rnd_ge_bpow; [lia|]. exact H. Qed.
Lemma rnd_le_1 x : x <= 1 -> rnd x <= 1.
Proof. intros. change 1 with (bpow radix2 0). apply rnd_le_bpow; [lia|]. exact H. Qed.

(** The error of one rounding: relative 2^-24 plus absolute 2^-150. *)
Lemma rnd_err x : exists d e, rnd x = x * (1 + d) + e /\
  Rabs d <= bpow radix2 (-24) /\ Rabs e <= bpow radix2 (-150).
Proof.
  destruct (error_N_FLT radix2 (-149) 24 ltac:(lia) (fun x => negb (Z.even x)) x) as (d & e & H1 & H2 & _ & H4).
  exists d, e. split; [exact H4|]. split.
  - eapply Rle_trans; [exact H1|]. change (/ 2) with (bpow radix2 (-1)). rewrite <- bpow_plus.
    apply bpow_le. lia.
  - eapply Rle_trans; [exact H2|]. change (/ 2) with (bpow radix2 (-1)). rewrite <- bpow_plus.
    apply bpow_le. lia.
Qed.

(** A float below 1 is at most 1 - 2^-24. *)
Lemma below_1 (x : f32) : B2R x < 1 -> B2R x <= 1 - bpow radix2 (-24).
Proof.
  intros H.
  assert (P : B2R x <= pred radix2 fexp32 1).
  { apply pred_ge_gt; try exact _; auto.
    - apply generic_format_B2R.
    - change 1 with (bpow radix2 0). apply format_bpow. lia. }
  change 1 with (bpow radix2 0) in P. rewrite pred_bpow in P. exact P.
Qed.

Lemma one_minus (x : f32) : is_finite x = true -> 0 <= B2R x < 1 ->
  is_finite (Bminus mode_NE (f32_of_Z 1) x) = true /\
  bpow radix2 (-24) <= B2R (Bminus mode_NE (f32_of_Z 1) x) <= 1 /\
  B2R (Bminus mode_NE (f32_of_Z 1) x) = rnd (1 - B2R x).
Proof.
  intros F H. destruct (ofZ_finite 1 ltac:(lia)) as [F1 V1].
  pose proof (below_1 x (proj2 H)) as B.
  destruct (Bminus_nneg 0 (f32_of_Z 1) x) as ((FM & HM) & E); try lia.
  - split; [exact F1|]. rewrite V1. cbn. lra.
  - split; [exact F|]. cbn. lra.
  - rewrite V1. lra.
  - rewrite V1 in E. split; [exact FM|]. split; [|exact E]. split; [|exact (proj2 HM)].
    rewrite E. apply rnd_ge_bpow; [lia|]. lra.
Qed.

Lemma Bmult_ge a b j k x y : (-149 <= a + b)%Z -> (-149 <= j + k < 128)%Z -> nneg j x -> nneg k y ->
  bpow radix2 a <= B2R x -> bpow radix2 b <= B2R y ->
  nneg (j + k) (Bmult mode_NE x y) /\ bpow radix2 (a + b) <= B2R (Bmult mode_NE x y) /\
  B2R (Bmult mode_NE x y) = rnd (B2R x * B2R y).
Proof.
  intros Hab Hjk Hx Hy Ha Hb. destruct (Bmult_nneg j k x y Hjk Hx Hy) as [H1 H2]. split; [exact H1|].
  split; [|exact H2]. rewrite H2. apply rnd_ge_bpow; [lia|]. rewrite bpow_plus.
  pose proof (bpow_gt_0 radix2 a). pose proof (bpow_gt_0 radix2 b). apply Rmult_le_compat; lra.
Qed.
