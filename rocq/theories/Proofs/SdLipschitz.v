(** The standard deviation changes by at most the largest change of a value. *)
From Coq Require Import Reals ZArith List Lia Lra.
From Verif.Spec Require Import IndicatorSpec.
From Verif.Proofs Require Import MeanProofs.
Import ListNotations.
Local Open Scope R_scope.

Definition pairs_sum (f : R * R -> R) (l : list (R * R)) : R := Rsum (map f l).

Lemma pairs_sum_lin (f g : R * R -> R) a b l :
  pairs_sum (fun x => a * f x + b * g x) l = a * pairs_sum f l + b * pairs_sum g l.
Proof. unfold pairs_sum, Rsum. induction l as [|x l IH]; cbn in *; lra. Qed.

Lemma pairs_sum_ext f g l : (forall x, f x = g x) -> pairs_sum f l = pairs_sum g l.
Proof. intros H. unfold pairs_sum. f_equal. apply map_ext. exact H. Qed.

Lemma pairs_sum_nonneg f l : (forall x, 0 <= f x) -> 0 <= pairs_sum f l.
Proof. intros H. apply Rsum_nonneg. intros y Hy. apply in_map_iff in Hy as (x & <- & _). apply H. Qed.

(** Cauchy and Schwarz. *)
Lemma cauchy_schwarz (f g : R * R -> R) l :
  pairs_sum (fun x => f x * g x) l * pairs_sum (fun x => f x * g x) l
  <= pairs_sum (fun x => f x * f x) l * pairs_sum (fun x => g x * g x) l.
Proof.
  set (A := pairs_sum (fun x => f x * f x) l). set (B := pairs_sum (fun x => g x * g x) l).
  set (C := pairs_sum (fun x => f x * g x) l).
  assert (H : forall s t, 0 <= s * s * A + 2 * s * t * C + t * t * B).
  { intros s t. replace (s * s * A + 2 * s * t * C + t * t * B)
      with (pairs_sum (fun x => (s * f x + t * g x) * (s * f x + t * g x)) l).
    - apply pairs_sum_nonneg. intros x. apply (Rle_0_sqr (s * f x + t * g x)).
    - rewrite (pairs_sum_ext _ (fun x => 1 * (s * s * (f x * f x) + 2 * s * t * (f x * g x)) + t * t * (g x * g x))) by (intros x; ring).
      rewrite pairs_sum_lin, pairs_sum_lin. fold A B C. ring. }
  assert (HA : 0 <= A) by (apply pairs_sum_nonneg; intros x; apply (Rle_0_sqr (f x))).
  pose proof (H B (- C)) as H1. pose proof (H C (- A)) as H2.
  destruct (Req_dec A 0) as [E|E].
  - pose proof (H 1 (- C * 1)) as H3. pose proof (H (B + 1) (- C)) as H4. rewrite E in *. nra.
  - assert (0 < A) by lra. nra.
Qed.

Lemma sum_le_const (l : list R) c : (forall x, In x l -> x <= c) -> Rsum l <= INR (length l) * c.
Proof.
  intros H. induction l as [|x l IH]; [cbn; lra|]. cbn [length]. rewrite S_INR.
  unfold Rsum in *. cbn [fold_right]. pose proof (H x (or_introl eq_refl)).
  specialize (IH (fun y Hy => H y (or_intror Hy))). lra.
Qed.

(** The variance is at most the mean square. *)
Lemma variance_le_square l d : 0 <= d -> (forall x, In x l -> Rabs x <= d) -> variance l <= d * d.
Proof.
  intros Hd H. destruct l as [|x l]; [cbn [variance map mean]; apply Rmult_le_pos; exact Hd|].
  rewrite variance_eq by discriminate. pose proof (INR_length_pos (x :: l) ltac:(discriminate)) as Hp.
  pose proof (Rle_0_sqr (mean (x :: l))) as Hm. unfold Rsqr in Hm.
  assert (K : Rsum (map (fun x => x * x) (x :: l)) <= INR (length (x :: l)) * (d * d)).
  { rewrite <- (map_length (fun x => x * x)). apply sum_le_const. intros y Hy. apply in_map_iff in Hy as (z & <- & Hz).
    specialize (H z Hz). rewrite <- (Rabs_pos_eq (z * z)) by apply (Rle_0_sqr z). rewrite Rabs_mult.
    apply Rmult_le_compat; auto using Rabs_pos. }
  assert (Rsum (map (fun x => x * x) (x :: l)) / INR (length (x :: l)) <= d * d).
  { apply Rmult_le_reg_r with (INR (length (x :: l))); [exact Hp|]. unfold Rdiv. rewrite Rmult_assoc, Rinv_l by lra. lra. }
  lra.
Qed.

Theorem sd_lipschitz (l : list (R * R)) d : 0 <= d -> (forall x, In x l -> Rabs (fst x - snd x) <= d) ->
  Rabs (sqrt (variance (map fst l)) - sqrt (variance (map snd l))) <= d.
Proof.
  intros Hd H. destruct l as [|x0 l0] eqn:El.
  { cbn [map]. rewrite Rminus_diag_eq by reflexivity. rewrite Rabs_R0. exact Hd. }
  rewrite <- El in *. assert (Hl : l <> []) by (rewrite El; discriminate). clear El x0 l0.
  pose proof (INR_length_pos l Hl) as Hn. set (n := INR (length l)) in *.
  set (mx := mean (map fst l)). set (my := mean (map snd l)).
  set (A := variance (map fst l)). set (B := variance (map snd l)).
  assert (Hne : forall f : R * R -> R, map f l <> []) by (intros f E; apply map_eq_nil in E; auto).
  assert (EA : A * n = pairs_sum (fun x => (fst x - mx) * (fst x - mx)) l).
  { unfold A, variance. fold mx. rewrite mean_eq by (rewrite map_map; apply Hne). rewrite !map_map, map_length. fold n.
    unfold pairs_sum. unfold Rdiv. rewrite Rmult_assoc, Rinv_l, Rmult_1_r by lra. f_equal. apply map_ext. intros x. ring. }
  assert (EB : B * n = pairs_sum (fun x => (snd x - my) * (snd x - my)) l).
  { unfold B, variance. fold my. rewrite mean_eq by (rewrite map_map; apply Hne). rewrite !map_map, map_length. fold n.
    unfold pairs_sum. unfold Rdiv. rewrite Rmult_assoc, Rinv_l, Rmult_1_r by lra. f_equal. apply map_ext. intros x. ring. }
  assert (HD : variance (map (fun x => fst x - snd x) l) <= d * d).
  { apply variance_le_square; [exact Hd|]. intros y Hy. apply in_map_iff in Hy as (x & <- & Hx). apply H. exact Hx. }
  assert (Em : mean (map (fun x => fst x - snd x) l) = mx - my).
  { unfold mx, my. rewrite !mean_eq by apply Hne. rewrite !map_length. fold n.
    replace (Rsum (map (fun x => fst x - snd x) l)) with (Rsum (map fst l) - Rsum (map snd l)); [field; lra|].
    change (pairs_sum fst l - pairs_sum snd l = pairs_sum (fun x => fst x - snd x) l).
    rewrite (pairs_sum_ext (fun x => fst x - snd x) (fun x => 1 * fst x + -1 * snd x)) by (intros x; ring).
    rewrite pairs_sum_lin. ring. }
  set (D := variance (map (fun x => fst x - snd x) l)) in *.
  set (C := pairs_sum (fun x => (fst x - mx) * (snd x - my)) l).
  assert (ED : D * n = A * n + B * n - 2 * C).
  { unfold D, variance. rewrite Em. rewrite mean_eq by (rewrite map_map; apply Hne). rewrite !map_map, map_length. fold n.
    unfold Rdiv. rewrite Rmult_assoc, Rinv_l, Rmult_1_r by lra. rewrite EA, EB. unfold C.
    change (Rsum (map (fun x => (fst x - snd x - (mx - my)) ^ 2) l)) with (pairs_sum (fun x => (fst x - snd x - (mx - my)) ^ 2) l).
    rewrite (pairs_sum_ext _ (fun x => 1 * (1 * ((fst x - mx) * (fst x - mx)) + 1 * ((snd x - my) * (snd x - my)))
                                        + -2 * ((fst x - mx) * (snd x - my)))) by (intros x; ring).
    rewrite pairs_sum_lin, pairs_sum_lin. ring. }
  pose proof (cauchy_schwarz (fun x => fst x - mx) (fun x => snd x - my) l) as CS. cbv beta in CS. fold C in CS. rewrite <- EA, <- EB in CS.
  pose proof (variance_nonneg (map fst l)) as PA. fold A in PA. pose proof (variance_nonneg (map snd l)) as PB. fold B in PB.
  set (a := sqrt A). set (b := sqrt B). assert (Ha : 0 <= a) by apply sqrt_pos. assert (Hb : 0 <= b) by apply sqrt_pos.
  assert (Ea : A = a * a) by (symmetry; apply sqrt_sqrt; exact PA). assert (Eb : B = b * b) by (symmetry; apply sqrt_sqrt; exact PB).
  assert (HC : C <= a * b * n).
  { apply Rle_trans with (Rabs C); [apply Rle_abs|]. apply Rsqr_incr_0_var; [|apply Rmult_le_pos; [apply Rmult_le_pos|]; lra].
    rewrite <- Rsqr_abs. unfold Rsqr. rewrite Ea, Eb in CS. lra. }
  assert (Hab : (a - b) * (a - b) <= d * d).
  { apply Rmult_le_reg_r with n; [exact Hn|]. apply Rle_trans with (D * n).
    - rewrite ED, Ea, Eb. lra.
    - apply Rmult_le_compat_r; lra. }
  fold a b. rewrite <- (Rabs_pos_eq d Hd). apply Rsqr_le_abs_0. unfold Rsqr. exact Hab.
Qed.
