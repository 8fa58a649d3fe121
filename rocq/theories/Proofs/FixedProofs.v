(** printf "%.pf" prints the nearest multiple of 10^-p. *)
From Coq Require Import ZArith Reals Bool String Ascii Lia Lra DecimalString DecimalZ Decimal.
From Coq Require Import List.
From Flocq Require Import Core BinarySingleNaN.
From Verif.Model Require Import Machine Traders MachineIEEE Console.
From Verif.Spec Require Import LogSpec DecimalSpec ConsoleSpec.
From Verif.Proofs Require Import LogProofs DecimalProofs.
Import ListNotations.
Local Open Scope string_scope.

Lemma digit_value z : (Z.of_nat (nat_of_ascii (digit (z mod 10))) - 48 = z mod 10)%Z.
Proof.
  pose proof (Z.mod_pos_bound z 10 ltac:(lia)). unfold digit, nat_of_ascii.
  rewrite N_ascii_embedding by lia. lia.
Qed.

Lemma digits_from_app s : forall acc t,
  digits_from acc (s ++ t) = match digits_from acc s with Some a => digits_from a t | None => None end.
Proof.
  induction s as [|c s IH]; intros acc t; [reflexivity|]. cbn [append digits_from].
  destruct (_ && _); [apply IH|reflexivity].
Qed.

Lemma digits_from_digit acc z : digits_from acc (String (digit (z mod 10)) "") = Some (10 * acc + z mod 10)%Z.
Proof.
  unfold digits_from. cbv zeta. rewrite digit_value. pose proof (Z.mod_pos_bound z 10 ltac:(lia)).
  destruct (Z.leb_spec 0 (z mod 10)), (Z.leb_spec (z mod 10) 9); try lia. reflexivity.
Qed.

Lemma pow10_S p : (10 ^ Z.of_nat (S p) = 10 * 10 ^ Z.of_nat p)%Z.
Proof. rewrite Nat2Z.inj_succ, Z.pow_succ_r by lia. reflexivity. Qed.
Lemma pow10_pos p : (0 < 10 ^ Z.of_nat p)%Z.
Proof. apply Z.pow_pos_nonneg; lia. Qed.

Lemma digits_from_last p : forall acc n,
  digits_from acc (last_digits p n) = Some (acc * 10 ^ Z.of_nat p + n mod 10 ^ Z.of_nat p)%Z.
Proof.
  induction p as [|p IH]; intros acc n.
  - cbn [last_digits digits_from Z.of_nat]. rewrite Z.pow_0_r, Z.mod_1_r. f_equal. lia.
  - cbn [last_digits]. rewrite digits_from_app, IH, digits_from_digit. f_equal. rewrite pow10_S.
    pose proof (pow10_pos p). rewrite (Z.rem_mul_r n 10 (10 ^ Z.of_nat p)) by lia. ring.
Qed.

Lemma append_length_s a b : String.length (a ++ b) = (String.length a + String.length b)%nat.
Proof. induction a; cbn; congruence. Qed.

Lemma last_digits_length p : forall n, String.length (last_digits p n) = p.
Proof.
  induction p as [|p IH]; intros n; [reflexivity|]. cbn [last_digits].
  rewrite append_length_s, IH. cbn [String.length]. lia.
Qed.

Lemma free_app c a b : free c a -> free c b -> free c (a ++ b).
Proof.
  induction a as [|x a IH]; intros Ha Hb; [exact Hb|]. destruct Ha as [H1 H2]. split; [exact H1|]. apply IH; assumption.
Qed.

Lemma digit_not z c : (nat_of_ascii c < 48 \/ 57 < nat_of_ascii c)%nat -> digit (z mod 10) <> c.
Proof.
  intros H E. pose proof (digit_value z) as D. rewrite E in D.
  pose proof (Z.mod_pos_bound z 10 ltac:(lia)). lia.
Qed.

Lemma last_digits_free c p : (nat_of_ascii c < 48 \/ 57 < nat_of_ascii c)%nat -> forall n, free c (last_digits p n).
Proof.
  intros Hc. induction p as [|p IH]; intros n; [exact I|]. cbn [last_digits].
  apply free_app; [apply IH|]. split; [apply digit_not, Hc|exact I].
Qed.

(** The digits of a number, as printed by "%d". *)
Fixpoint uval (d : uint) (acc : Z) : Z :=
  match d with
  | Nil => acc | D0 d => uval d (10 * acc) | D1 d => uval d (10 * acc + 1) | D2 d => uval d (10 * acc + 2)
  | D3 d => uval d (10 * acc + 3) | D4 d => uval d (10 * acc + 4) | D5 d => uval d (10 * acc + 5)
  | D6 d => uval d (10 * acc + 6) | D7 d => uval d (10 * acc + 7) | D8 d => uval d (10 * acc + 8)
  | D9 d => uval d (10 * acc + 9)
  end.
Lemma digits_from_uint d : forall acc, digits_from acc (NilEmpty.string_of_uint d) = Some (uval d acc).
Proof.
  induction d; intros acc; [reflexivity|..]; cbn [NilEmpty.string_of_uint digits_from uval];
    cbv zeta; match goal with |- (if ?b then _ else _) = _ => change b with true end;
    cbv iota; rewrite IHd; f_equal; f_equal;
    match goal with |- context [Z.of_nat (nat_of_ascii ?c)] =>
      let n := eval vm_compute in (Z.of_nat (nat_of_ascii c)) in change (Z.of_nat (nat_of_ascii c)) with n end; ring.
Qed.
Lemma uval_acc d : forall p, Zpos (Pos.of_uint_acc d p) = uval d (Zpos p).
Proof. induction d; intros p; cbn [uval Pos.of_uint_acc]; [reflexivity|..]; rewrite IHd; f_equal; lia. Qed.
Lemma uval_spec d : Z.of_uint d = uval d 0.
Proof.
  unfold Z.of_uint. induction d; cbn [Pos.of_uint uval]; [reflexivity| |..]; cbn [Z.mul Z.add];
    try (rewrite <- uval_acc; reflexivity). exact IHd.
Qed.
Lemma digits_value_fmt_d n : (0 <= n)%Z -> digits_value (fmt_d n) = Some n.
Proof.
  intros Hn. unfold fmt_d.
  assert (E : exists d, Z.to_int n = Pos d /\ d <> Nil /\ Z.of_uint d = n).
  { destruct n as [|p|p]; [exists (D0 Nil); repeat split; discriminate| |lia].
    exists (Pos.to_uint p). split; [reflexivity|]. split; [|change (Z.of_int (Pos (Pos.to_uint p)) = Z.pos p); apply (of_to (Zpos p))].
    intros E. pose proof (of_to (Zpos p)) as H. cbn [Z.to_int] in H. rewrite E in H. discriminate H. }
  destruct E as (d & -> & Hd & Hv). cbn [NilZero.string_of_int].
  assert (E : NilZero.string_of_uint d = NilEmpty.string_of_uint d) by (destruct d; [congruence|reflexivity..]).
  rewrite E. assert (K : digits_value (NilEmpty.string_of_uint d) = digits_from 0 (NilEmpty.string_of_uint d))
    by (destruct d; [congruence|reflexivity..]).
  rewrite K, digits_from_uint, <- uval_spec, Hv. reflexivity.
Qed.

Lemma unsigned_scaled p n : (0 < p)%nat -> (0 <= n)%Z ->
  unsigned p (fmt_d (n / 10 ^ Z.of_nat p) ++ "." ++ last_digits p n) = Some n.
Proof.
  intros Hp Hn. unfold unsigned.
  change ("." ++ last_digits p n) with (String "." (last_digits p n)).
  rewrite split_app by apply fmt_d_free_dot.
  rewrite split_free by (apply last_digits_free; cbn; lia).
  rewrite last_digits_length, Nat.eqb_refl.
  pose proof (pow10_pos p) as Hpos.
  rewrite digits_value_fmt_d by (apply Z.div_pos; lia).
  assert (E : digits_value (last_digits p n) = digits_from 0 (last_digits p n)).
  { pose proof (last_digits_length p n). destruct (last_digits p n); [cbn in *; lia|reflexivity]. }
  rewrite E, digits_from_last. f_equal. rewrite Z.mul_0_l, Z.add_0_l.
  rewrite (Z.div_mod n (10 ^ Z.of_nat p)) at 3 by lia. ring.
Qed.

Lemma decimal_scaled p s n : (0 < p)%nat -> (0 <= n)%Z ->
  decimal p (fmt_scaled p s n) = Some (if s then - n else n)%Z.
Proof.
  intros Hp Hn. unfold fmt_scaled. pose proof (unsigned_scaled p n Hp Hn) as U.
  set (w := fmt_d (n / 10 ^ Z.of_nat p) ++ "." ++ last_digits p n) in *. destruct s.
  - change ("-" ++ w) with (String "-" w). cbn [decimal]. rewrite U. reflexivity.
  - change ("" ++ w) with w. rewrite <- U. unfold decimal.
    destruct w as [|[[] [] [] [] [] [] [] []] s'] eqn:E0; try reflexivity.
    exfalso. eapply (fmt_d_head (n / 10 ^ Z.of_nat p)); [apply Z.div_pos; [lia|apply pow10_pos]|].
    subst w. exact E0.
Qed.

(** The number of units of the p-th decimal that is printed for a finite float. *)
Definition units (p : nat) (m : positive) (e : Z) : Z :=
  if (0 <=? e)%Z then (Zpos m * 2 ^ e * 10 ^ Z.of_nat p)%Z
  else div_half_even (Zpos m * 10 ^ Z.of_nat p) (2 ^ (- e)).

Lemma units_pos p m e : (0 <= units p m e)%Z.
Proof.
  unfold units. pose proof (pow10_pos p). destruct (Z.leb_spec 0 e).
  - apply Z.mul_nonneg_nonneg; [apply Z.mul_nonneg_nonneg; [lia|apply Z.pow_nonneg; lia]|lia].
  - apply div_half_even_pos; [apply Z.pow_pos_nonneg; lia|lia].
Qed.

Lemma units_near p m e :
  (Rabs (IZR (units p m e) / IZR (10 ^ Z.of_nat p) - IZR (Zpos m) * bpow radix2 e)
   <= / (2 * IZR (10 ^ Z.of_nat p)))%R.
Proof.
  unfold units. set (t := (10 ^ Z.of_nat p)%Z). assert (Ht : (0 < IZR t)%R) by (apply IZR_lt, pow10_pos).
  destruct (Z.leb_spec 0 e) as [He|He].
  - rewrite <- IZR_Zpower by lia. change (radix2 ^ e)%Z with (2 ^ e)%Z. rewrite !mult_IZR.
    replace (_ - _)%R with 0%R by (field; lra). rewrite Rabs_R0. left. apply Rinv_0_lt_compat. lra.
  - rewrite (bpow_neg e He). set (d := (2 ^ (- e))%Z).
    assert (Hd : (0 < d)%Z) by (apply Z.pow_pos_nonneg; lia).
    pose proof (div_half_even_near (Zpos m * t) d Hd) as H. set (k := div_half_even _ _) in *.
    assert (Hdr : (0 < IZR d)%R) by (apply IZR_lt; exact Hd).
    apply IZR_le in H. rewrite mult_IZR, abs_IZR, minus_IZR, !mult_IZR in H.
    replace (IZR k / IZR t - IZR (Zpos m) * / IZR d)%R
      with ((IZR d * IZR k - IZR (Zpos m) * IZR t) * (/ (IZR t * IZR d)))%R by (field; lra).
    rewrite Rabs_mult, (Rabs_pos_eq (/ _)) by (left; apply Rinv_0_lt_compat, Rmult_lt_0_compat; lra).
    apply Rmult_le_reg_r with (IZR t * IZR d)%R; [apply Rmult_lt_0_compat; lra|].
    rewrite Rmult_assoc, Rinv_l by (apply Rmult_integral_contrapositive_currified; lra).
    replace (/ (2 * IZR t) * (IZR t * IZR d))%R with (IZR d / 2)%R by (field; lra). lra.
Qed.

Lemma fmt_shows p x : (0 < p)%nat -> is_finite x = true -> shows_to p (f32_fmt p x) x.
Proof.
  intros Hp H. pose proof (pow10_pos p) as Hpos. apply IZR_lt in Hpos.
  destruct x as [s|s| |s m e He]; try discriminate H; cbn [f32_fmt].
  - exists 0%Z. rewrite decimal_scaled by lia. split; [destruct s; reflexivity|].
    cbn [B2R]. replace (_ - _)%R with 0%R by (field; lra). rewrite Rabs_R0. left. apply Rinv_0_lt_compat. lra.
  - fold (units p m e). exists (if s then - units p m e else units p m e)%Z.
    rewrite decimal_scaled by (try apply units_pos; exact Hp). split; [reflexivity|].
    rewrite B2R_finite. pose proof (units_near p m e) as N. destruct s.
    + rewrite opp_IZR.
      match goal with |- (Rabs ?a <= _)%R =>
        replace a with (- (IZR (units p m e) / IZR (10 ^ Z.of_nat p) - IZR (Z.pos m) * bpow radix2 e))%R by (field; lra) end.
      rewrite Rabs_Ropp. exact N.
    + rewrite !Rmult_1_l. exact N.
Qed.

Lemma fmt_column p x : (0 < p)%nat -> column p (f32_fmt p x) x.
Proof.
  intros Hp. unfold column. destruct (is_finite x) eqn:F; [apply fmt_shows; assumption|].
  destruct x as [s|[]| |s m e He]; try discriminate F; reflexivity.
Qed.

(** The columns of the log files ("%.3f" of Machine.v) are the same texts. *)
Lemma fmt_3 x : f32_fmt 3 x = f32_fmt3 x.
Proof.
  destruct x as [s|s| |s m e He]; [reflexivity..|]. cbn [f32_fmt f32_fmt3].
  change (10 ^ Z.of_nat 3)%Z with 1000%Z. set (n := if (0 <=? e)%Z then _ else _).
  unfold fmt_scaled, fmt3_thousandths. change (10 ^ Z.of_nat 3)%Z with 1000%Z. cbn [last_digits append].
  rewrite Z.div_div by lia. reflexivity.
Qed.

Lemma digit_word c z : digit (z mod 10) = c -> (48 <= nat_of_ascii c <= 57)%nat.
Proof. intros <-. pose proof (digit_value z). pose proof (Z.mod_pos_bound z 10 ltac:(lia)). lia. Qed.

(** No space in a number. *)
Lemma uint_free_space d : free " " (NilEmpty.string_of_uint d).
Proof. induction d; cbn; (exact I || (split; [discriminate|assumption])). Qed.
Lemma uint_free_space0 d : free " " (NilZero.string_of_uint d).
Proof. destruct d; try apply uint_free_space. cbn. split; [discriminate|exact I]. Qed.
Lemma fmt_d_free_space z : free " " (fmt_d z).
Proof.
  unfold fmt_d. destruct (Z.to_int z); cbn; [apply uint_free_space0|split; [discriminate|apply uint_free_space0]].
Qed.
Lemma fmt_free_space p x : free " " (f32_fmt p x).
Proof.
  assert (S : forall s n, free " " (fmt_scaled p s n)).
  { intros s n. unfold fmt_scaled. apply free_app; [destruct s; repeat split; discriminate|].
    apply free_app; [apply fmt_d_free_space|]. apply free_app; [repeat split; discriminate|].
    apply last_digits_free. cbn. lia. }
  destruct x as [s|[]| |s m e He]; cbn [f32_fmt]; try apply S; repeat split; discriminate.
Qed.
