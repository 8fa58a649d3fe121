(** printf "%.3f" prints the nearest thousandth. *)
From Coq Require Import ZArith Reals Bool String Ascii Lia Lra DecimalString DecimalZ Decimal.
From Coq Require Import List.
From Flocq Require Import Core BinarySingleNaN.
From Verif.Model Require Import Machine Traders MachineIEEE.
From Verif.Spec Require Import LogSpec DecimalSpec.
From Verif.Proofs Require Import LogProofs.
Import ListNotations.
Local Open Scope string_scope.

Lemma uint_free_dot d : free "." (NilEmpty.string_of_uint d).
Proof. induction d; cbn; (exact I || (split; [discriminate|assumption])). Qed.
Lemma uint_free_dot0 d : free "." (NilZero.string_of_uint d).
Proof. destruct d; try apply uint_free_dot. cbn. split; [discriminate|exact I]. Qed.
Lemma fmt_d_free_dot z : free "." (fmt_d z).
Proof.
  unfold fmt_d. destruct (Z.to_int z); cbn; [apply uint_free_dot0|split; [discriminate|apply uint_free_dot0]].
Qed.

(** A non-negative number does not start with a minus sign. *)
Lemma uint_head d rest s : NilEmpty.string_of_uint d ++ String "." rest = String "-" s -> False.
Proof. destruct d; cbn; discriminate. Qed.
Lemma fmt_d_head z rest s : (0 <= z)%Z -> fmt_d z ++ String "." rest = String "-" s -> False.
Proof.
  intros Hz. unfold fmt_d. destruct z as [|p|p]; [cbn; discriminate| |lia].
  cbn [Z.to_int NilZero.string_of_int]. unfold NilZero.string_of_uint.
  destruct (Pos.to_uint p); try apply (uint_head (D0 _)); cbn; discriminate.
Qed.

Lemma three_digits_nat a b c : (a < 10)%nat -> (b < 10)%nat -> (c < 10)%nat ->
  number (String (ascii_of_nat (48 + a)) (String (ascii_of_nat (48 + b)) (String (ascii_of_nat (48 + c)) "")))
  = Some (Z.of_nat (100 * a + 10 * b + c)).
Proof.
  intros Ha Hb Hc.
  assert (H : forallb (fun a => forallb (fun b => forallb (fun c =>
     match number (String (ascii_of_nat (48 + a)) (String (ascii_of_nat (48 + b)) (String (ascii_of_nat (48 + c)) "")))
     with Some z => (z =? Z.of_nat (100 * a + 10 * b + c))%Z | None => false end)
     (seq 0 10)) (seq 0 10)) (seq 0 10) = true) by (vm_compute; reflexivity).
  rewrite forallb_forall in H. specialize (H a ltac:(apply in_seq; lia)).
  rewrite forallb_forall in H. specialize (H b ltac:(apply in_seq; lia)).
  rewrite forallb_forall in H. specialize (H c ltac:(apply in_seq; lia)).
  destruct (number _); [|discriminate]. apply Z.eqb_eq in H. rewrite H. reflexivity.
Qed.

Lemma three_digits n :
  number (String (digit (n / 100 mod 10)) (String (digit (n / 10 mod 10)) (String (digit (n mod 10)) "")))
  = Some (n mod 1000)%Z.
Proof.
  assert (D : forall z, digit (z mod 10) = ascii_of_nat (48 + Z.to_nat (z mod 10))).
  { intros z. pose proof (Z.mod_pos_bound z 10 ltac:(lia)). unfold digit, ascii_of_nat. f_equal. lia. }
  rewrite !D.
  pose proof (Z.mod_pos_bound (n / 100) 10 ltac:(lia)).
  pose proof (Z.mod_pos_bound (n / 10) 10 ltac:(lia)).
  pose proof (Z.mod_pos_bound n 10 ltac:(lia)).
  rewrite three_digits_nat by lia. f_equal.
  assert (E : (n mod 1000 = 100 * (n / 100 mod 10) + 10 * (n / 10 mod 10) + n mod 10)%Z)
    by (Z.div_mod_to_equations; lia).
  rewrite E. lia.
Qed.

Lemma unsigned3_thousandths n : (0 <= n)%Z ->
  unsigned3 (fmt_d (n / 1000) ++ String "." (String (digit (n / 100 mod 10)) (String (digit (n / 10 mod 10))
        (String (digit (n mod 10)) "")))) = Some (IZR n / 1000)%R.
Proof.
  intros Hn. unfold unsigned3. rewrite split_app by apply fmt_d_free_dot.
  rewrite split_free.
  2:{ repeat split; (destruct (digit_cases (n / 100)) as (a & La & Ea); destruct (digit_cases (n / 10)) as (b & Lb & Eb);
      destruct (digit_cases n) as (c & Lc & Ec); rewrite ?Ea, ?Eb, ?Ec);
      match goal with |- ascii_of_nat (48 + ?k) <> _ =>
        do 10 (destruct k as [|k]; [cbn; discriminate|]); lia end. }
  cbn [String.length Nat.eqb]. rewrite number_fmt_d, three_digits. f_equal.
  rewrite (Z.div_mod n 1000) at 3 by lia. rewrite plus_IZR, mult_IZR. field.
Qed.

Lemma decimal3_thousandths s n : (0 <= n)%Z ->
  decimal3 (fmt3_thousandths s n) = Some ((if s then -1 else 1) * (IZR n / 1000))%R.
Proof.
  intros Hn. unfold fmt3_thousandths. fold (fmt_d (n / 1000)).
  set (tl := String _ (String _ (String _ ""))). destruct s.
  - change ("-" ++ fmt_d (n / 1000) ++ "." ++ tl) with (String "-" (fmt_d (n / 1000) ++ String "." tl)).
    cbn [decimal3]. subst tl. rewrite unsigned3_thousandths by exact Hn. cbn [option_map]. f_equal. lra.
  - change ("" ++ fmt_d (n / 1000) ++ "." ++ tl) with (fmt_d (n / 1000) ++ String "." tl).
    assert (E : decimal3 (fmt_d (n / 1000) ++ String "." tl) = unsigned3 (fmt_d (n / 1000) ++ String "." tl)).
    { destruct (fmt_d (n / 1000) ++ String "." tl) as [|[[] [] [] [] [] [] [] []] s'] eqn:E0; try reflexivity.
      exfalso. eapply (fmt_d_head (n / 1000)); [apply Z.div_pos; lia|exact E0]. }
    rewrite E. subst tl. rewrite unsigned3_thousandths by exact Hn. f_equal. lra.
Qed.

(** Integer division, rounding half to even. *)
Lemma div_half_even_near n d : (0 < d)%Z -> (2 * Z.abs (d * div_half_even n d - n) <= d)%Z.
Proof.
  intros Hd. unfold div_half_even. pose proof (Z.div_mod n d ltac:(lia)). pose proof (Z.mod_pos_bound n d Hd).
  set (q := (n / d)%Z) in *. set (r := (n mod d)%Z) in *.
  destruct (Z.compare_spec (2 * r) d); [destruct (Z.even q)|..]; nia.
Qed.
Lemma div_half_even_exact k d : (0 < d)%Z -> div_half_even (k * d) d = k.
Proof.
  intros Hd. unfold div_half_even. rewrite Z.div_mul, Z.mod_mul by lia.
  destruct (Z.compare_spec (2 * 0) d); [lia|reflexivity|lia].
Qed.
Lemma div_half_even_pos n d : (0 < d)%Z -> (0 <= n)%Z -> (0 <= div_half_even n d)%Z.
Proof.
  intros Hd Hn. pose proof (div_half_even_near n d Hd). nia.
Qed.

(** The thousandths printed for a finite float. *)
Definition thousandths (m : positive) (e : Z) : Z :=
  if (0 <=? e)%Z then (Zpos m * 2 ^ e * 1000)%Z else div_half_even (Zpos m * 1000) (2 ^ (- e)).

Lemma thousandths_pos m e : (0 <= thousandths m e)%Z.
Proof.
  unfold thousandths. destruct (Z.leb_spec 0 e).
  - apply Z.mul_nonneg_nonneg; [apply Z.mul_nonneg_nonneg; [lia|apply Z.pow_nonneg; lia]|lia].
  - apply div_half_even_pos; [apply Z.pow_pos_nonneg; lia|lia].
Qed.

Lemma bpow_neg e : (e < 0)%Z -> (bpow radix2 e = / IZR (2 ^ (- e)))%R.
Proof.
  intros He. rewrite <- (Z.opp_involutive e) at 1. rewrite bpow_opp. f_equal.
  rewrite <- (IZR_Zpower radix2) by lia. reflexivity.
Qed.

Lemma thousandths_near m e :
  (Rabs (IZR (thousandths m e) / 1000 - IZR (Zpos m) * bpow radix2 e) <= 1 / 2000)%R.
Proof.
  unfold thousandths. destruct (Z.leb_spec 0 e) as [He|He].
  - rewrite <- IZR_Zpower by lia. change (radix2 ^ e)%Z with (2 ^ e)%Z. rewrite !mult_IZR.
    replace (_ - _)%R with 0%R by field. rewrite Rabs_R0. lra.
  - rewrite (bpow_neg e He). set (d := (2 ^ (- e))%Z).
    assert (Hd : (0 < d)%Z) by (apply Z.pow_pos_nonneg; lia).
    pose proof (div_half_even_near (Zpos m * 1000) d Hd) as H. set (k := div_half_even _ _) in *.
    assert (Hdr : (0 < IZR d)%R) by (apply IZR_lt; exact Hd).
    apply IZR_le in H. rewrite mult_IZR, abs_IZR, minus_IZR, !mult_IZR in H.
    replace (IZR k / 1000 - IZR (Zpos m) * / IZR d)%R
      with ((IZR d * IZR k - IZR (Zpos m) * 1000) * (/ (1000 * IZR d)))%R by (field; lra).
    rewrite Rabs_mult, (Rabs_pos_eq (/ _)) by (left; apply Rinv_0_lt_compat; lra).
    apply Rmult_le_reg_r with (1000 * IZR d)%R; [lra|].
    rewrite Rmult_assoc, Rinv_l by lra. lra.
Qed.

Lemma thousandths_exact m e k : (IZR (Zpos m) * bpow radix2 e * 1000 = IZR k)%R -> thousandths m e = k.
Proof.
  unfold thousandths. destruct (Z.leb_spec 0 e) as [He|He]; intros H.
  - rewrite <- IZR_Zpower in H by lia. change (radix2 ^ e)%Z with (2 ^ e)%Z in H.
    rewrite <- !mult_IZR in H. apply eq_IZR in H. exact H.
  - rewrite (bpow_neg e He) in H. set (d := (2 ^ (- e))%Z) in *.
    assert (Hd : (0 < d)%Z) by (apply Z.pow_pos_nonneg; lia).
    assert (Hdr : (0 < IZR d)%R) by (apply IZR_lt; exact Hd).
    assert (E : (Zpos m * 1000 = k * d)%Z).
    { apply eq_IZR. rewrite !mult_IZR, <- H. field. lra. }
    rewrite E. apply div_half_even_exact, Hd.
Qed.

(** What is printed for a finite float. *)
Definition printed (x : f32) : R :=
  match x with
  | B754_finite s m e _ => (if s then -1 else 1) * (IZR (thousandths m e) / 1000)
  | _ => 0
  end%R.

Lemma printed_decimal x : is_finite x = true -> decimal3 (f32_fmt3 x) = Some (printed x).
Proof.
  destruct x as [s|s| |s m e He]; intros H; try discriminate H; cbn [f32_fmt3 printed].
  - rewrite decimal3_thousandths by lia. f_equal. destruct s; lra.
  - fold (thousandths m e). rewrite decimal3_thousandths by apply thousandths_pos. reflexivity.
Qed.

Lemma B2R_finite s m e He : B2R (B754_finite s m e He : f32) = ((if s then -1 else 1) * (IZR (Zpos m) * bpow radix2 e))%R.
Proof. destruct s; cbn [B2R cond_Zopp]; unfold F2R; cbn [Fnum Fexp]; [change (Z.neg m) with (- Zpos m)%Z; rewrite opp_IZR|]; lra. Qed.

Lemma printed_near x : is_finite x = true -> (Rabs (printed x - B2R x) <= 1 / 2000)%R.
Proof.
  destruct x as [s|s| |s m e He]; intros H; try discriminate H.
  - cbn. rewrite Rminus_0_r, Rabs_R0. lra.
  - rewrite B2R_finite. cbn [printed]. pose proof (thousandths_near m e) as N. destruct s.
    + match goal with |- (Rabs ?a <= _)%R => replace a with (- (IZR (thousandths m e) / 1000 - IZR (Z.pos m) * bpow radix2 e))%R by lra end.
      rewrite Rabs_Ropp. exact N.
    + rewrite !Rmult_1_l. exact N.
Qed.

Lemma printed_thousandth x : exists k, printed x = (IZR k / 1000)%R.
Proof.
  destruct x as [s|s| |s m e He]; try (exists 0%Z; cbn; lra).
  exists (if s then - thousandths m e else thousandths m e)%Z. cbn [printed]. destruct s; rewrite ?opp_IZR; lra.
Qed.

Lemma printed_exact x k : is_finite x = true -> (B2R x = IZR k / 1000)%R -> printed x = B2R x.
Proof.
  destruct x as [s|s| |s m e He]; intros H; try discriminate H; [reflexivity|].
  rewrite B2R_finite. cbn [printed]. intros Hk. f_equal.
  destruct s.
  - rewrite (thousandths_exact m e (- k)); [rewrite opp_IZR; lra|rewrite opp_IZR; lra].
  - rewrite (thousandths_exact m e k); lra.
Qed.

(** Rounding to the nearest thousandth keeps the order. *)
Lemma near_mono (a b x y : R) (i j : Z) :
  (a = IZR i / 1000 -> b = IZR j / 1000 -> x < y ->
   Rabs (a - x) <= 1 / 2000 -> Rabs (b - y) <= 1 / 2000 -> a <= b)%R.
Proof.
  intros -> -> Hxy Ha Hb. apply Rabs_le_inv in Ha, Hb.
  destruct (Z_le_gt_dec i j) as [L|G]; [apply IZR_le in L; lra|].
  assert (j + 1 <= i)%Z by lia. apply IZR_le in H. rewrite plus_IZR in H. lra.
Qed.

Lemma finite_inj (x y : f32) : is_finite x = true -> is_finite y = true -> B2R x = B2R y -> printed x = printed y.
Proof.
  intros Hx Hy E. destruct (Req_dec (B2R x) 0) as [Z0|N0].
  - rewrite (printed_exact x 0), (printed_exact y 0); auto; lra.
  - rewrite (B2R_inj 24 128 x y); auto; apply is_finite_strict_B2R; auto. rewrite <- E. exact N0.
Qed.

Lemma printed_mono (x y : f32) : is_finite x = true -> is_finite y = true -> (B2R x <= B2R y)%R -> (printed x <= printed y)%R.
Proof.
  intros Hx Hy [L|E].
  - destruct (printed_thousandth x) as [i Ei], (printed_thousandth y) as [j Ej].
    apply (near_mono _ _ (B2R x) (B2R y) i j); auto using printed_near.
  - right. apply finite_inj; assumption.
Qed.
