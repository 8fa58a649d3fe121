(** Reading decimal numbers. *)
From Coq Require Import ZArith Reals String Ascii Bool Lia Lra.
From Coq Require Import List.
From Flocq Require Import Core BinarySingleNaN.
From Verif.Model Require Import Machine Types Convert MachineIEEE Scan.
From Verif.Spec Require Import ProtoSpec ConsoleSpec CsvTextSpec.
Import ListNotations.
Local Open Scope string_scope.

(** * The nearest float *)
Lemma powerRZ_bpow r e : powerRZ (IZR (radix_val r)) e = bpow r e.
Proof. symmetry. apply bpow_powerRZ. Qed.

Lemma powerRZ_10_pos e : (0 <= e)%Z -> powerRZ 10 e = IZR (10 ^ e).
Proof.
  intros He. rewrite <- (Z2Nat.id e He). rewrite <- pow_powerRZ. rewrite pow_IZR. reflexivity.
Qed.

Lemma f32_of_decimal_correct minus n e :
  (0 <= n)%Z ->
  (Rabs (round radix2 (FLT_exp (-149) 24) ZnearestE (decimal_real minus n e)) < bpow radix2 128)%R ->
  nearest (decimal_real minus n e) (f32_of_decimal minus n e) /\ Bsign (f32_of_decimal minus n e) = minus.
Proof.
  intros Hn H. destruct n as [|m|m]; [| |lia].
  - unfold f32_of_decimal, nearest, decimal_real. cbn [is_finite B2R Bsign]. split; [split; [reflexivity|]|reflexivity].
    replace (IZR (signed minus 0) * powerRZ 10 e)%R with 0%R by (destruct minus; cbn; lra).
    rewrite round_0; [reflexivity|apply valid_rnd_N].
  - assert (P : forall z : f32, (0 <= e)%Z ->
       z = binary_normalize 24 128 _ _ mode_NE (SpecFloat.cond_Zopp minus (Zpos m * 10 ^ e)) 0 minus ->
       nearest (decimal_real minus (Zpos m) e) z /\ Bsign z = minus).
    { intros z He ->.
      pose proof (binary_normalize_correct 24 128 _ _ mode_NE (SpecFloat.cond_Zopp minus (Zpos m * 10 ^ e)) 0 minus) as C.
      cbv zeta in C.
      replace (F2R {| Fnum := SpecFloat.cond_Zopp minus (Zpos m * 10 ^ e); Fexp := 0 |}) with (decimal_real minus (Zpos m) e) in C.
      2:{ unfold F2R, decimal_real. cbn [Fnum Fexp bpow]. rewrite powerRZ_10_pos by exact He.
          rewrite Rmult_1_r, <- mult_IZR. f_equal. destruct minus; cbn [signed SpecFloat.cond_Zopp]; lia. }
      rewrite Rlt_bool_true in C by exact H. destruct C as (C1 & C2 & C3). split; [split; [exact C2|exact C1]|].
      rewrite C3. unfold decimal_real.
      assert (Q : (0 < powerRZ 10 e)%R) by (apply powerRZ_lt; lra).
      assert (M : (0 < IZR (Zpos m))%R) by (apply IZR_lt; lia).
      destruct minus; cbn [signed].
      - rewrite Rcompare_Lt; [reflexivity|]. rewrite opp_IZR. nra.
      - rewrite Rcompare_Gt; [reflexivity|]. nra. }
    destruct e as [|k|k]; [apply P; [lia|reflexivity]|apply P; [lia|reflexivity]|]. clear P.
    unfold f32_of_decimal.
    pose proof (Bdiv_correct_aux 24 128 _ _ mode_NE minus m 0 false (10 ^ k) 0) as C. cbv zeta in C.
    set (pr := proj1 _). clearbody pr. revert pr C.
    set (z := let '(mz, ez, lz) := _ in _). clearbody z. intros pr [_ C].
    replace (F2R {| Fnum := SpecFloat.cond_Zopp minus (Zpos m); Fexp := 0 |} /
             F2R {| Fnum := SpecFloat.cond_Zopp false (Zpos (10 ^ k)); Fexp := 0 |})%R
      with (decimal_real minus (Zpos m) (Zneg k)) in C.
    2:{ unfold F2R, decimal_real. cbn [Fnum Fexp bpow SpecFloat.cond_Zopp]. rewrite !Rmult_1_r. unfold Rdiv. f_equal.
        cbn [powerRZ]. f_equal. rewrite Pos2Z.inj_pow. change (10 ^ Z.pos k)%Z with (10 ^ Zpos k)%Z.
        rewrite <- powerRZ_10_pos by lia. reflexivity. }
    rewrite Rlt_bool_true in C by exact H. destruct C as (C1 & C2 & C3). split; [split|].
    + rewrite is_finite_SF2B. exact C2.
    + rewrite B2R_SF2B. exact C1.
    + rewrite Bsign_SF2B. rewrite C3. destruct minus; reflexivity.
Qed.

Lemma nearest_small r x : nearest r x ->
  (Rabs (round radix2 (FLT_exp (-149) 24) ZnearestE r) < bpow radix2 128)%R.
Proof. intros [F E]. rewrite <- E. apply abs_B2R_lt_emax. Qed.

Lemma nearest_unique r x y : nearest r x -> nearest r y -> Bsign x = Bsign y -> x = y.
Proof. intros [F E] [F' E'] S. apply B2R_Bsign_inj; try assumption. congruence. Qed.

(** * Characters *)
Lemma blank_iff c : is_blank c = true <-> blank c.
Proof.
  unfold is_blank, blank. rewrite orb_true_iff, andb_true_iff, Nat.eqb_eq, !Nat.leb_le. split; intros [H|H]; auto.
  - left. rewrite <- (ascii_nat_embedding c), H. reflexivity.
  - left. subst. reflexivity.
Qed.

Definition digit_char (c : ascii) : Prop := (48 <= nat_of_ascii c <= 57)%nat.
Lemma digit_char_iff c :
  ((0 <=? Z.of_nat (nat_of_ascii c) - 48)%Z && (Z.of_nat (nat_of_ascii c) - 48 <=? 9)%Z)%bool = true <-> digit_char c.
Proof. unfold digit_char. rewrite andb_true_iff, !Z.leb_le. lia. Qed.

Lemma blank_not_digit c : blank c -> ~ digit_char c.
Proof. unfold digit_char. intros [->|H]; cbn; lia. Qed.

Lemma skip_blanks_app b s : blanks b -> skip_blanks (b ++ s) = skip_blanks s.
Proof.
  induction b as [|c b IH]; [reflexivity|]. intros [H1 H2]. cbn [append skip_blanks].
  apply blank_iff in H1. rewrite H1. auto.
Qed.
Lemma skip_blanks_all b : blanks b -> skip_blanks b = "".
Proof.
  induction b as [|c b IH]; [reflexivity|]. intros [H1 H2]. cbn [skip_blanks].
  apply blank_iff in H1. rewrite H1. auto.
Qed.

(** The text does not go on with a digit. *)
Definition no_digit (s : string) : Prop :=
  match s with EmptyString => True | String c _ => ~ digit_char c end.

Lemma take_digits_stop n k s : no_digit s -> take_digits n k s = (n, k, s).
Proof.
  destruct s as [|c s]; [reflexivity|]. cbn [no_digit take_digits]. intros H.
  destruct (_ && _)%bool eqn:E; [|reflexivity]. apply digit_char_iff in E. contradiction.
Qed.
Lemma take_digits_app w : forall n k v rest, digits_from n w = Some v -> no_digit rest ->
  take_digits n k (w ++ rest) = (v, (k + String.length w)%nat, rest).
Proof.
  induction w as [|c w IH]; intros n k v rest H Hr.
  - cbn in H. injection H as <-. cbn [append String.length]. rewrite Nat.add_0_r. apply take_digits_stop, Hr.
  - cbn [digits_from append take_digits String.length] in *. destruct (_ && _)%bool; [|discriminate].
    rewrite (IH _ _ _ _ H Hr). f_equal. f_equal. lia.
Qed.
Lemma digits_from_app w f : forall a, digits_from a (w ++ f) =
  match digits_from a w with Some b => digits_from b f | None => None end.
Proof.
  induction w as [|c w IH]; intros a; [reflexivity|]. cbn [append digits_from].
  destruct (_ && _)%bool; [apply IH|reflexivity].
Qed.
Lemma digits_from_nonneg w : forall a v, digits_from a w = Some v -> (0 <= a)%Z -> (0 <= v)%Z.
Proof.
  induction w as [|c w IH]; intros a v H Ha; cbn [digits_from] in H; [congruence|].
  destruct (_ && _)%bool eqn:E; [|discriminate]. apply andb_true_iff in E as [E _]. apply Z.leb_le in E.
  apply IH in H; lia.
Qed.
Lemma digits_value_from w v : digits_value w = Some v -> digits_from 0 w = Some v /\ (0 < String.length w)%nat /\ (0 <= v)%Z.
Proof.
  destruct w as [|c w]; [discriminate|]. intros H. change (digits_from 0 (String c w) = Some v) in H.
  split; [exact H|]. split; [cbn; lia|]. apply (digits_from_nonneg _ _ _ H). lia.
Qed.

Definition head_digit (s : string) : Prop :=
  match s with EmptyString => False | String c _ => digit_char c end.
Lemma digits_from_head a c w v : digits_from a (String c w) = Some v -> digit_char c.
Proof. cbn [digits_from]. destruct (_ && _)%bool eqn:E; [|discriminate]. intros _. apply digit_char_iff, E. Qed.

Lemma take_sign_app sg minus s : sign_text sg minus ->
  (match s with String c _ => digit_char c \/ c = "."%char | "" => False end) ->
  take_sign (sg ++ s) = (minus, s) /\ skip_blanks (sg ++ s) = sg ++ s.
Proof.
  intros H Hs. destruct H; cbn [append].
  - destruct s as [|c s]; [destruct Hs|]. assert (Ne : c <> "-"%char /\ c <> "+"%char /\ ~ blank c).
    { destruct Hs as [Hs| ->].
      - unfold digit_char in Hs. repeat split; [intros ->; cbn in Hs; lia|intros ->; cbn in Hs; lia|].
        intros B. apply (blank_not_digit _ B Hs).
      - repeat split; try discriminate. intros [B|B]; [discriminate|cbn in B; lia]. }
    destruct Ne as (N1 & N2 & N3). unfold take_sign. apply Ascii.eqb_neq in N1, N2. rewrite N1, N2. split; [reflexivity|].
    cbn [skip_blanks]. destruct (is_blank c) eqn:E; [apply blank_iff in E; contradiction|reflexivity].
  - split; reflexivity.
  - split; reflexivity.
Qed.

Lemma ends_no_digit s : ends s -> no_digit s.
Proof.
  destruct s as [|c s]; [trivial|]. intros [-> |B]; cbn; [unfold digit_char; cbn; lia|apply blank_not_digit, B].
Qed.

Lemma append_assoc' a b c : (a ++ b) ++ c = a ++ b ++ c.
Proof. induction a as [|x a IH]; [reflexivity|]. cbn [append]. f_equal. exact IH. Qed.

Lemma scan_signed_ok text t rest : integer_text text t -> no_digit rest ->
  scan_signed (text ++ rest) = Some (t, rest).
Proof.
  intros [sg minus digits n Hs Hd] Hr. apply digits_value_from in Hd as (Hd & Hl & Hn).
  unfold scan_signed. rewrite append_assoc'.
  destruct (take_sign_app sg minus (digits ++ rest) Hs) as [-> _].
  { destruct digits as [|c w]; [cbn in Hl; lia|]. cbn [append]. left. eapply digits_from_head, Hd. }
  rewrite (take_digits_app _ _ _ _ _ Hd Hr). cbn [Nat.add].
  destruct (String.length digits =? 0)%nat eqn:E; [apply Nat.eqb_eq in E; lia|]. reflexivity.
Qed.

Lemma integer_skip text t rest : integer_text text t -> skip_blanks (text ++ rest) = text ++ rest.
Proof.
  intros [sg minus digits n Hs Hd]. apply digits_value_from in Hd as (Hd & Hl & Hn). rewrite append_assoc'.
  apply (take_sign_app sg minus (digits ++ rest) Hs).
  destruct digits as [|c w]; [cbn in Hl; lia|]. cbn [append]. left. eapply digits_from_head, Hd.
Qed.

Lemma scan_lld_ok b text t rest : blanks b -> integer_text text t -> is_int64 t -> no_digit rest ->
  scan_lld (b ++ text ++ rest) = Some (t, rest).
Proof.
  intros Hb Ht Hi Hr. unfold scan_lld. rewrite skip_blanks_app by exact Hb. rewrite (integer_skip _ _ _ Ht).
  rewrite (scan_signed_ok _ _ _ Ht Hr). unfold clamp64, is_int64 in *. repeat f_equal. lia.
Qed.

(** After the mantissa. *)
Lemma exponent_ok ex e rest (g : Z -> f32) : exponent_text ex e -> ends rest ->
  match ex ++ rest with
  | String c s4 =>
    if Ascii.eqb c "e" || Ascii.eqb c "E" then
      match scan_signed s4 with Some (e, s5) => Some (g e, s5) | None => None end
    else Some (g 0%Z, ex ++ rest)
  | EmptyString => Some (g 0%Z, ex ++ rest)
  end = Some (g e, rest).
Proof.
  intros [|c text e' Hc Ht] Hr; cbn [append].
  - destruct rest as [|c rest]; [reflexivity|].
    destruct (Ascii.eqb c "e" || Ascii.eqb c "E")%bool eqn:E; [|reflexivity].
    apply orb_true_iff in E. rewrite !Ascii.eqb_eq in E. exfalso.
    destruct Hr as [Hr|[Hr|Hr]]; destruct E as [E|E]; subst; try discriminate; cbn in Hr; lia.
  - replace (Ascii.eqb c "e" || Ascii.eqb c "E")%bool with true.
    2:{ symmetry. apply orb_true_iff. rewrite !Ascii.eqb_eq. exact Hc. }
    rewrite (scan_signed_ok _ _ _ Ht (ends_no_digit _ Hr)). reflexivity.
Qed.

Lemma ex_no_digit ex e rest : exponent_text ex e -> ends rest -> no_digit (ex ++ rest).
Proof.
  intros [|c text e' Hc Ht] Hr; [apply ends_no_digit, Hr|]. cbn. unfold digit_char. destruct Hc as [-> | ->]; cbn; lia.
Qed.
Lemma ex_no_dot ex e rest : exponent_text ex e -> ends rest ->
  match ex ++ rest with String c _ => Ascii.eqb c "." = false | "" => True end.
Proof.
  intros [|c text e' Hc Ht] Hr; cbn [append].
  - destruct rest as [|c rest]; [trivial|]. apply Ascii.eqb_neq. intros ->.
    destruct Hr as [Hr|[Hr|Hr]]; try discriminate; cbn in Hr; lia.
  - destruct Hc as [-> | ->]; reflexivity.
Qed.

Lemma scan_f_ok b text minus n e rest : blanks b -> decimal_text text minus n e -> ends rest ->
  scan_f (b ++ text ++ rest) = Some (f32_of_decimal minus n e, rest) /\ (0 <= n)%Z.
Proof.
  intros Hb Ht Hr. unfold scan_f. rewrite skip_blanks_app by exact Hb.
  destruct Ht as [sg minus digits n ex e Hs Hd He|sg minus before after n ex e Hs Hd He].
  - apply digits_value_from in Hd as (Hd & Hl & Hn). split; [|exact Hn]. rewrite !append_assoc'.
    destruct (take_sign_app sg minus (digits ++ ex ++ rest) Hs) as [T S].
    { destruct digits as [|c w]; [cbn in Hl; lia|]. cbn [append]. left. eapply digits_from_head, Hd. }
    rewrite S, T. rewrite (take_digits_app _ _ _ _ _ Hd (ex_no_digit _ _ _ He Hr)). cbn [Nat.add].
    pose proof (ex_no_dot _ _ _ He Hr) as Nd.
    replace (match ex ++ rest with
             | "" => (n, String.length digits, 0%nat, ex ++ rest)
             | String c s2' => if Ascii.eqb c "." then let '(n2, k2, s3) := take_digits n 0 s2' in
                                  (n2, (String.length digits + k2)%nat, k2, s3)
                               else (n, String.length digits, 0%nat, ex ++ rest)
             end) with (n, String.length digits, 0%nat, ex ++ rest).
    2:{ destruct (ex ++ rest); [reflexivity|]. rewrite Nd. reflexivity. }
    destruct (String.length digits =? 0)%nat eqn:E; [apply Nat.eqb_eq in E; lia|].
    change (Z.of_nat 0) with 0%Z.
    pose proof (exponent_ok ex e rest (fun e => f32_of_decimal minus n (e - 0)) He Hr) as X. cbv beta in X.
    rewrite (Z.sub_0_r e) in X. exact X.
  - apply digits_value_from in Hd as (Hd & Hl & Hn). split; [|exact Hn]. rewrite !append_assoc'. cbn [append].
    destruct (take_sign_app sg minus (before ++ String "." (after ++ ex ++ rest)) Hs) as [T S].
    { destruct before as [|c w]; cbn [append]; [right; reflexivity|]. left. eapply digits_from_head, Hd. }
    rewrite digits_from_app in Hd. destruct (digits_from 0 before) as [n1|] eqn:E1; [|discriminate].
    rewrite S, T. rewrite (take_digits_app _ _ _ _ _ E1); [|cbn; unfold digit_char; cbn; lia].
    cbn [Ascii.eqb Bool.eqb andb]. change (Ascii.eqb "." ".") with true. cbv iota.
    rewrite (take_digits_app _ _ _ _ _ Hd (ex_no_digit _ _ _ He Hr)). cbn [Nat.add]. cbv iota beta.
    assert (Hl' : (0 < String.length before + String.length after)%nat).
    { clear - Hl. destruct before; cbn [append String.length] in *; lia. }
    destruct (String.length before + String.length after =? 0)%nat eqn:E; [apply Nat.eqb_eq in E; lia|].
    exact (exponent_ok ex e rest (fun e => f32_of_decimal minus n (e - Z.of_nat (String.length after))) He Hr).
Qed.

(** The model scanner does what is required. *)
Lemma decimal_scanner_reads lm as_ : reads_numbers (decimal_scanner lm as_).
Proof.
  split.
  - intros b text t rest Hb Ht Hi Hr. apply scan_lld_ok; auto. apply ends_no_digit, Hr.
  - intros b text x rest Hb (r & minus & n & e & Hd & Hv & Hx & Hs) Hr.
    cbn [scan_float decimal_scanner]. change (@flt (ieee lm as_)) with f32.
    destruct (scan_f_ok b text minus n e rest Hb Hd Hr) as [-> Hn]. repeat f_equal. subst r.
    destruct (f32_of_decimal_correct minus n e Hn (nearest_small _ _ Hx)) as [C1 C2].
    apply (nearest_unique _ _ _ C1 Hx). congruence.
  - intros b Hb. cbn [scan_float decimal_scanner]. unfold scan_f. rewrite skip_blanks_all by exact Hb. reflexivity.
Qed.

(** Reading takes at least one character. *)
Lemma take_digits_length s : forall n k n' k' s', take_digits n k s = (n', k', s') ->
  (String.length s' + k' = String.length s + k)%nat.
Proof.
  induction s as [|c s IH]; intros n k n' k' s' H; cbn [take_digits] in H.
  - injection H as <- <- <-. lia.
  - destruct (_ && _)%bool; [|injection H as <- <- <-; lia]. apply IH in H. cbn [String.length]. lia.
Qed.
Lemma skip_blanks_length s : (String.length (skip_blanks s) <= String.length s)%nat.
Proof. induction s as [|c s IH]; cbn [skip_blanks]; [lia|]. destruct (is_blank c); cbn [String.length] in *; lia. Qed.
Lemma take_sign_length s m s' : take_sign s = (m, s') -> (String.length s' <= String.length s)%nat.
Proof.
  destruct s as [|c s]; cbn [take_sign]; intros H; [injection H as <- <-; lia|].
  destruct (Ascii.eqb c "-"); [injection H as <- <-; cbn; lia|].
  destruct (Ascii.eqb c "+"); injection H as <- <-; cbn; lia.
Qed.
Lemma scan_signed_length s t s' : scan_signed s = Some (t, s') -> (String.length s' < String.length s)%nat.
Proof.
  unfold scan_signed. destruct (take_sign s) as [m s1] eqn:E1. destruct (take_digits 0 0 s1) as [[n k] s2] eqn:E2.
  destruct (k =? 0)%nat eqn:E; [discriminate|]. apply Nat.eqb_neq in E. intros H. injection H as <- <-.
  apply take_sign_length in E1. apply take_digits_length in E2. lia.
Qed.
Lemma scan_f_length s x s' : scan_f s = Some (x, s') -> (String.length s' < String.length s)%nat.
Proof.
  unfold scan_f. destruct (take_sign (skip_blanks s)) as [m s1] eqn:E1. apply take_sign_length in E1.
  pose proof (skip_blanks_length s) as E0.
  destruct (take_digits 0 0 s1) as [[n1 k1] s2] eqn:E2. apply take_digits_length in E2.
  assert (X : forall n k after s3,
     (String.length s3 + k <= String.length s1)%nat ->
     (if (k =? 0)%nat then None else
      match s3 with
      | String c s4 =>
        if Ascii.eqb c "e" || Ascii.eqb c "E" then
          match scan_signed s4 with
          | Some (e, s5) => Some (f32_of_decimal m n (e - Z.of_nat after), s5)
          | None => None
          end
        else Some (f32_of_decimal m n (- Z.of_nat after), s3)
      | EmptyString => Some (f32_of_decimal m n (- Z.of_nat after), s3)
      end) = Some (x, s') -> (String.length s' < String.length s)%nat).
  { intros n k after s3 L H. destruct (k =? 0)%nat eqn:E; [discriminate|]. apply Nat.eqb_neq in E.
    destruct s3 as [|c s4]; [injection H as _ <-; cbn in *; lia|].
    destruct (_ || _)%bool; [|injection H as _ <-; lia].
    destruct (scan_signed s4) as [[e s5]|] eqn:E4; [|discriminate]. injection H as _ <-.
    apply scan_signed_length in E4. cbn [String.length] in L. lia. }
  destruct s2 as [|c s2'].
  - apply (X n1 k1 0%nat ""). cbn in *. lia.
  - destruct (Ascii.eqb c ".").
    + destruct (take_digits n1 0 s2') as [[n2 k2] s3] eqn:E3. apply take_digits_length in E3. cbn [String.length] in E2.
      apply (X n2 (k1 + k2)%nat k2 s3). lia.
    + apply (X n1 k1 0%nat (String c s2')). lia.
Qed.
