(** Parsing and printing of times. *)
From Coq Require Import ZArith String Ascii Bool Lia Decimal DecimalString DecimalFacts DecimalZ.
From Coq Require Import List.
From Verif.Model Require Import TimeUtil Traders Convert TimeText.
From Verif.Spec Require Import TimeSpec TimeTextSpec.
From Verif.Proofs Require Import TimeProofs.
From Verif.Proofs Require LogProofs.
Import ListNotations.
Local Open Scope Z_scope.
Local Open Scope string_scope.

Lemma below_100 (P : Z -> Prop) : (forall n, (n < 100)%nat -> P (Z.of_nat n)) -> forall n, 0 <= n <= 99 -> P n.
Proof. intros H n Hn. replace n with (Z.of_nat (Z.to_nat n)) by lia. apply H. lia. Qed.

Lemma two_eq n : two_digit_number n -> exists a b, 0 <= a <= 9 /\ 0 <= b <= 9 /\ n = 10 * a + b
  /\ two n = String (digit_char a) (String (digit_char b) "").
Proof.
  intros [H1 H2]. exists (n / 10), (n mod 10). unfold two.
  pose proof (Z.div_mod n 10 ltac:(lia)). pose proof (Z.mod_pos_bound n 10 ltac:(lia)).
  split; [|split; [|split; [lia|reflexivity]]]; lia.
Qed.

Lemma digit_below (P : Z -> Prop) : P 0 -> P 1 -> P 2 -> P 3 -> P 4 -> P 5 -> P 6 -> P 7 -> P 8 -> P 9 ->
  forall n, 0 <= n <= 9 -> P n.
Proof.
  intros. assert (E : n = 0 \/ n = 1 \/ n = 2 \/ n = 3 \/ n = 4 \/ n = 5 \/ n = 6 \/ n = 7 \/ n = 8 \/ n = 9) by lia.
  decompose [or] E; subst; assumption.
Qed.

Lemma digit_of_char n : 0 <= n <= 9 -> digit_of (digit_char n) = Some n.
Proof. apply (digit_below (fun n => digit_of (digit_char n) = Some n)); reflexivity. Qed.

Lemma digit_not_minus n : 0 <= n <= 9 -> Ascii.eqb (digit_char n) "-" = false.
Proof. apply (digit_below (fun n => Ascii.eqb (digit_char n) "-" = false)); reflexivity. Qed.

Lemma digit_not_space n : 0 <= n <= 9 -> is_space (digit_char n) = false.
Proof. apply (digit_below (fun n => is_space (digit_char n) = false)); reflexivity. Qed.

Lemma digit_not_char n c : 0 <= n <= 9 -> digit_of c = None -> Ascii.eqb (digit_char n) c = false.
Proof.
  intros H Hc. destruct (Ascii.eqb_spec (digit_char n) c) as [E|]; [|reflexivity].
  rewrite <- E, digit_of_char in Hc by exact H. discriminate.
Qed.

(** A two digit field. *)
Lemma parse_int_two lo hi n rest : two_digit_number n ->
  parse_int (Some 2%nat) (Some lo) (Some hi) (two n ++ rest)
  = if ((lo <=? n) && (n <=? hi))%Z then Some (n, rest) else None.
Proof.
  intros H. destruct (two_eq n H) as (a & b & Ha & Hb & -> & ->).
  cbn [append]. unfold parse_int. rewrite digit_not_minus by exact Ha.
  cbn [parse_digits]. rewrite !digit_of_char by assumption.
  replace (0 * 10 + a) with a by lia. replace (a * 10 + b) with (10 * a + b) by lia.
  destruct rest as [|c rest]; cbn [parse_digits]; [|destruct (digit_of c)]; cbn [Nat.eqb andb];
    destruct (_ && _)%bool; reflexivity.
Qed.

Lemma two_length n rest : String.length (two n ++ rest) = S (S (String.length rest)).
Proof. reflexivity. Qed.

Lemma parse_two_two hi n rest : two_digit_number n ->
  parse_two hi (two n ++ rest) = if (n <=? hi)%Z then Some (n, rest) else None.
Proof.
  intros H. unfold parse_two. rewrite parse_int_two by exact H.
  replace (0 <=? n)%Z with true by (symmetry; apply Z.leb_le; destruct H; lia). cbn [andb].
  destruct (n <=? hi)%Z; [|reflexivity]. rewrite two_length.
  replace (S (S (String.length rest)) - String.length rest)%nat with 2%nat by lia. reflexivity.
Qed.

(** The year. *)
Fixpoint uval (d : uint) (acc : Z) : Z :=
  match d with
  | Decimal.Nil => acc
  | D0 d => uval d (acc * 10 + 0) | D1 d => uval d (acc * 10 + 1) | D2 d => uval d (acc * 10 + 2)
  | D3 d => uval d (acc * 10 + 3) | D4 d => uval d (acc * 10 + 4) | D5 d => uval d (acc * 10 + 5)
  | D6 d => uval d (acc * 10 + 6) | D7 d => uval d (acc * 10 + 7) | D8 d => uval d (acc * 10 + 8)
  | D9 d => uval d (acc * 10 + 9)
  end.

Lemma uval_acc d : forall p, Zpos (Pos.of_uint_acc d p) = uval d (Zpos p).
Proof.
  induction d; intros p; cbn [Pos.of_uint_acc uval]; [reflexivity|..];
    rewrite IHd; f_equal; lia.
Qed.

Lemma uval_spec d : Z.of_uint d = uval d 0.
Proof.
  unfold Z.of_uint.
  induction d; cbn [Pos.of_uint uval]; [reflexivity|exact IHd|..]; cbn [Z.of_N]; rewrite uval_acc; reflexivity.
Qed.

Fixpoint ulen (d : uint) : nat :=
  match d with
  | Decimal.Nil => 0
  | D0 d | D1 d | D2 d | D3 d | D4 d | D5 d | D6 d | D7 d | D8 d | D9 d => S (ulen d)
  end.

Definition no_digit (rest : string) : Prop :=
  match rest with EmptyString => True | String c _ => digit_of c = None end.

Lemma parse_digits_uint d : forall rest v n, no_digit rest ->
  parse_digits None (NilEmpty.string_of_uint d ++ rest) v n = (uval d v, (n + ulen d)%nat, rest).
Proof.
  induction d; intros rest v n H; cbn [NilEmpty.string_of_uint append uval ulen].
  1: { rewrite Nat.add_0_r. destruct rest as [|c rest]; [reflexivity|].
    cbn in H |- *. rewrite H. reflexivity. }
  all: cbn [parse_digits];
      match goal with |- context [digit_of ?c] => let x := eval vm_compute in (digit_of c) in change (digit_of c) with x end;
      cbn iota; rewrite IHd by exact H; f_equal; f_equal; lia.
Qed.

Lemma ulen_zero d : ulen d = 0%nat -> d = Decimal.Nil.
Proof. destruct d; cbn; intros; [reflexivity|lia..]. Qed.

Lemma zero_string d : d <> Decimal.Nil -> NilZero.string_of_uint d = NilEmpty.string_of_uint d.
Proof. destruct d; [congruence|reflexivity..]. Qed.

Lemma uint_head d rest : d <> Decimal.Nil ->
  exists c s, NilEmpty.string_of_uint d ++ rest = String c s /\ Ascii.eqb c "-" = false /\ is_space c = false.
Proof. destruct d; [congruence|..]; intros _; cbn [NilEmpty.string_of_uint append]; eexists _, _; repeat split. Qed.

Lemma parse_digits_uint0 d rest : no_digit rest -> d <> Decimal.Nil ->
  parse_digits None (NilZero.string_of_uint d ++ rest) 0 0 = (Z.of_uint d, ulen d, rest) /\ ulen d <> 0%nat.
Proof.
  intros H Hd. rewrite zero_string by exact Hd. rewrite parse_digits_uint by exact H. split.
  - rewrite uval_spec. reflexivity.
  - intros E. apply Hd, ulen_zero, E.
Qed.

Lemma pos_uint p : Pos.to_uint p <> Decimal.Nil /\ Z.of_uint (Pos.to_uint p) = Zpos p.
Proof.
  pose proof (DecimalPos.Unsigned.of_to p) as E. split.
  - intros N. rewrite N in E. discriminate.
  - unfold Z.of_uint. rewrite E. reflexivity.
Qed.

Lemma parse_year y rest : no_digit rest -> parse_int None None None (decimal y ++ rest) = Some (y, rest).
Proof.
  intros H. unfold decimal, parse_int. destruct y as [|p|p]; cbn [Z.to_int NilZero.string_of_int].
  - destruct (parse_digits_uint0 (D0 Decimal.Nil) rest H ltac:(discriminate)) as [E _].
    cbn [NilZero.string_of_uint NilEmpty.string_of_uint append] in *.
    change (Ascii.eqb "0" "-") with false. cbn iota. rewrite E. reflexivity.
  - destruct (pos_uint p) as [Hn E]. destruct (parse_digits_uint0 _ rest H Hn) as [Ed Hl].
    rewrite zero_string in * by exact Hn.
    destruct (uint_head _ rest Hn) as (c & s & Es & Hm & _). rewrite Es in *. rewrite Hm. rewrite Ed.
    apply Nat.eqb_neq in Hl. rewrite Hl. cbn [andb]. rewrite E. reflexivity.
  - destruct (pos_uint p) as [Hn E]. destruct (parse_digits_uint0 _ rest H Hn) as [Ed Hl].
    cbn [append]. change (Ascii.eqb "-" "-") with true. cbn iota. rewrite Ed.
    apply Nat.eqb_neq in Hl. rewrite Hl. rewrite E. cbn [andb Z.eqb]. reflexivity.
Qed.

(** The calendar part. *)
Lemma at_civil_to t y m d s : at_civil days_from_civil t y m d s ->
  ToCivilSecond t = CivilSecond y m d (s / 3600) ((s / 60) mod 60) (s mod 60).
Proof.
  intros H. destruct (to_civil t) as (y' & m' & d' & s' & H' & E). rewrite E.
  assert (y = y' /\ m = m' /\ d = d' /\ s = s') as (<- & <- & <- & <-); [|reflexivity].
  destruct H as (V & Hs & E1), H' as (V' & Hs' & E2).
  assert (days_from_civil y m d = days_from_civil y' m' d' /\ s = s') as [Ed Es] by lia.
  pose proof (civil_of_days _ _ _ V) as C. rewrite Ed, (civil_of_days _ _ _ V') in C. injection C as <- <- <-. auto.
Qed.

Lemma from_civil_first y m d hh mm ss :
  FromCivil y m d hh mm ss = 86400 * (first_of (mu_of y m) + (d - 1)) + (hh * 3600 + mm * 60 + ss).
Proof.
  unfold FromCivil.
  assert (E : days_from_civil (y + (m - 1) / 12) ((m - 1) mod 12 + 1) 1 = first_of (mu_of y m)).
  { unfold first_of, mu_of. replace (12 * y + (m - 1)) with ((m - 1) + y * 12) by lia.
    rewrite Z.div_add, Z.mod_add by lia. f_equal. lia. }
  rewrite E. lia.
Qed.

Lemma finish_spec y m d hh mm ss off : 1 <= m <= 12 -> 1 <= d <= 31 -> valid_clock hh mm ss ->
  finish_time (ParsedTime y m d hh mm ss off)
  = if (d <=? month_length y m)%Z then Some (86400 * days_from_civil y m d + (hh * 3600 + mm * 60 + ss) - off)
    else None.
Proof.
  intros Hm Hd (Hh & Hmm & Hss). unfold finish_time.
  assert (G : forall ss off, 0 <= ss <= 59 ->
    (let t := FromCivil y m d hh mm ss in
     let cs := ToCivilSecond t in
     if ((cs_month cs =? m) && (cs_day cs =? d))%Z then Some (t - off) else None)
    = if (d <=? month_length y m)%Z then Some (86400 * days_from_civil y m d + (hh * 3600 + mm * 60 + ss) - off)
      else None).
  { clear ss off Hss. intros ss off Hss. cbv zeta.
    set (s := hh * 3600 + mm * 60 + ss). assert (Hs : 0 <= s < 86400) by (subst s; lia).
    rewrite from_civil_first. fold s.
    destruct (Z.leb_spec d (month_length y m)) as [Hl|Hl].
    - assert (A : at_civil days_from_civil (86400 * days_from_civil y m d + s) y m d s).
      { split; [split; [exact Hm|lia]|]. split; [exact Hs|reflexivity]. }
      rewrite (at_civil_first _ _ _ _ _ A) in A |- *. rewrite (at_civil_to _ _ _ _ _ A). cbn [cs_month cs_day].
      rewrite !Z.eqb_refl. reflexivity.
    - destruct (mu_month y m Hm) as [E1 E2].
      assert (Hlen : len_of (mu_of y m) = month_length y m) by (unfold len_of; rewrite E1, E2; reflexivity).
      pose proof (length_bounds y m). pose proof (len_bounds (mu_of y m + 1)).
      pose proof (civil_in_month (mu_of y m + 1) (d - len_of (mu_of y m)) s ltac:(lia) Hs) as A.
      rewrite first_next in A.
      replace (first_of (mu_of y m) + len_of (mu_of y m) + (d - len_of (mu_of y m) - 1))
        with (first_of (mu_of y m) + (d - 1)) in A by lia.
      rewrite (at_civil_to _ _ _ _ _ A). cbn [cs_month cs_day].
      destruct (Z.eqb_spec ((mu_of y m + 1) mod 12 + 1) m) as [E|]; [|reflexivity].
      exfalso. rewrite <- E2 in E at 2. set (mu := mu_of y m) in *. clearbody mu.
      Z.div_mod_to_equations; lia. }
  destruct (Z.eqb_spec ss 60) as [->|].
  - etransitivity; [apply (G 59 (off - 1)); lia|]. destruct (_ <=? _)%Z; [|reflexivity]. f_equal. lia.
  - apply G. lia.
Qed.

(** The format items. *)
Definition month_day_ok (m d : Z) : bool := ((1 <=? m) && (m <=? 12) && ((1 <=? d) && (d <=? 31)))%Z.
Definition clock_ok (hh mm ss : Z) : bool := ((hh <=? 23) && (mm <=? 59) && (ss <=? 60))%Z.

Lemma parse_ymd is y m d p rest : two_digit_number m -> two_digit_number d ->
  parse_items (fmt_ymd ++ is) p (date_text y m d ++ rest)
  = if month_day_ok m d
    then parse_items is (ParsedTime y m d (pt_hour p) (pt_minute p) (pt_second p) (pt_offset p)) rest
    else None.
Proof.
  intros Hm Hd. destruct p as [y0 m0 d0 hh mm ss off]. unfold date_text, fmt_ymd.
  rewrite !LogProofs.append_assoc_s. cbn [List.app parse_items parse_item pt_hour pt_minute pt_second pt_offset].
  rewrite parse_year by reflexivity. cbn [option_map fst snd append parse_item].
  rewrite Ascii.eqb_refl. cbn [parse_item]. rewrite parse_int_two by exact Hm. unfold month_day_ok.
  destruct ((1 <=? m) && (m <=? 12))%Z; cbn [option_map andb]; [|reflexivity]. cbn [fst snd append parse_item].
  rewrite Ascii.eqb_refl. cbn [parse_item]. rewrite parse_int_two by exact Hd.
  destruct ((1 <=? d) && (d <=? 31))%Z; cbn [option_map fst snd]; reflexivity.
Qed.

Lemma parse_hms is p hh mm ss rest : two_digit_number hh -> two_digit_number mm -> two_digit_number ss ->
  parse_items (fmt_hms ++ is) p (clock_text hh mm ss ++ rest)
  = if clock_ok hh mm ss
    then parse_items is (ParsedTime (pt_year p) (pt_month p) (pt_day p) hh mm ss (pt_offset p)) rest
    else None.
Proof.
  intros Hh Hm Hs. destruct p as [y0 m0 d0 hh0 mm0 ss0 off]. unfold clock_text, fmt_hms.
  rewrite !LogProofs.append_assoc_s. cbn [List.app parse_items parse_item pt_year pt_month pt_day pt_offset].
  rewrite parse_int_two by exact Hh. unfold clock_ok.
  assert (N : forall n, two_digit_number n -> (0 <=? n)%Z = true) by (intros n [A B]; apply Z.leb_le; lia).
  rewrite (N hh Hh). cbn [andb].
  destruct (hh <=? 23)%Z; cbn [option_map andb]; [|reflexivity]. cbn [fst snd append parse_item].
  rewrite Ascii.eqb_refl. cbn [parse_item]. rewrite parse_int_two by exact Hm. rewrite (N mm Hm). cbn [andb].
  destruct (mm <=? 59)%Z; cbn [option_map andb]; [|reflexivity]. cbn [fst snd append parse_item].
  rewrite Ascii.eqb_refl. cbn [parse_item]. rewrite parse_int_two by exact Hs. rewrite (N ss Hs). cbn [andb].
  destruct (ss <=? 60)%Z; cbn [option_map fst snd]; reflexivity.
Qed.

Lemma skip_separator sep n rest : separator sep -> two_digit_number n -> skip_colon (sep ++ two n ++ rest) = two n ++ rest.
Proof.
  intros [-> | ->] H; [|reflexivity]. destruct (two_eq n H) as (a & b & Ha & Hb & _ & ->). cbn [append skip_colon].
  rewrite digit_not_char by (exact Ha || reflexivity). reflexivity.
Qed.

Lemma parse_below hi n rest : 0 <= n <= hi -> hi <= 99 -> parse_two hi (two n ++ rest) = Some (n, rest).
Proof. intros H Hh. rewrite parse_two_two by (split; lia). destruct (Z.leb_spec n hi); [reflexivity|lia]. Qed.

Lemma parse_signed east rest h s1 m sec rest' :
  parse_two 23 rest = Some (h, s1) ->
  match parse_two 59 (skip_colon s1) with
  | None => (0, 0, s1)
  | Some (m, s2) => match parse_two 59 (skip_colon s2) with None => (m, 0, s2) | Some (sec, s3) => (m, sec, s3) end
  end = (m, sec, rest') ->
  parse_offset (sign_text east ++ rest) = Some (signed east (h * 3600 + m * 60 + sec), rest').
Proof.
  intros E1 E2. destruct east; cbn [sign_text append]; unfold parse_offset.
  - change (Ascii.eqb "+" "+" || Ascii.eqb "+" "-")%bool with true. cbn iota. rewrite E1, E2.
    change (Ascii.eqb "+" "-") with false. cbn iota. cbn [signed]. f_equal. f_equal. lia.
  - change (Ascii.eqb "-" "+" || Ascii.eqb "-" "-")%bool with true. cbn iota. rewrite E1, E2.
    change (Ascii.eqb "-" "-") with true. cbn iota. cbn [signed]. f_equal. f_equal. lia.
Qed.

Lemma parse_zone zone ahead : time_zone zone ahead -> parse_offset zone = Some (ahead, "").
Proof.
  assert (T : forall n, two n = two n ++ "") by (intros n; symmetry; apply LogProofs.append_nil_s).
  intros [s Hs|east hh Hh|east hh s1 mm Hh H1 Hm|east hh s1 mm s2 ss Hh H1 Hm H2 Hs].
  - destruct Hs as [-> | ->]; reflexivity.
  - rewrite (parse_signed east (two hh) hh "" 0 0 ""); [f_equal; f_equal; destruct east; cbn [signed]; lia| |reflexivity].
    rewrite T. apply parse_below; lia.
  - rewrite (parse_signed east (two hh ++ s1 ++ two mm) hh (s1 ++ two mm) mm 0 "").
    + f_equal. f_equal. destruct east; cbn [signed]; lia.
    + apply parse_below; lia.
    + rewrite (T mm), skip_separator by (auto; split; lia). rewrite parse_below by lia. reflexivity.
  - rewrite (parse_signed east (two hh ++ s1 ++ two mm ++ s2 ++ two ss) hh (s1 ++ two mm ++ s2 ++ two ss) mm ss "").
    + reflexivity.
    + apply parse_below; lia.
    + rewrite skip_separator by (auto; split; lia). rewrite parse_below by lia.
      rewrite (T ss), skip_separator by (auto; split; lia). rewrite parse_below by lia. reflexivity.
Qed.

(** The text of a date starts with a digit or a minus sign. *)
Lemma decimal_head y rest : exists c s, decimal y ++ rest = String c s /\ is_space c = false /\ Ascii.eqb "i" c = false.
Proof.
  assert (G : forall d rest, d <> Decimal.Nil ->
    exists c s, NilZero.string_of_uint d ++ rest = String c s /\ is_space c = false /\ Ascii.eqb "i" c = false).
  { intros d r Hd. rewrite zero_string by exact Hd.
    destruct d; [congruence|..]; cbn [NilEmpty.string_of_uint append]; eexists _, _; repeat split. }
  unfold decimal. destruct y as [|p|p]; cbn [Z.to_int NilZero.string_of_int].
  - apply G. discriminate.
  - apply G, pos_uint.
  - cbn [append]. eexists _, _. repeat split.
Qed.

Lemma absl_date is y m d rest : two_digit_number m -> two_digit_number d ->
  absl_ParseTime (fmt_ymd ++ is) (date_text y m d ++ rest)
  = if month_day_ok m d
    then match parse_items is (ParsedTime y m d 0 0 0 0) rest with
         | Some (p, rest) => if String.eqb (skip_spaces rest) "" then finish_time p else None
         | None => None
         end
    else None.
Proof.
  intros Hm Hd. unfold absl_ParseTime.
  assert (E : exists c s, date_text y m d ++ rest = String c s /\ is_space c = false /\ Ascii.eqb "i" c = false).
  { unfold date_text. rewrite LogProofs.append_assoc_s. apply decimal_head. }
  destruct E as (c & s & E & Hsp & Hi).
  assert (Es : skip_spaces (date_text y m d ++ rest) = date_text y m d ++ rest).
  { rewrite E. cbn [skip_spaces]. rewrite Hsp. reflexivity. }
  rewrite Es, parse_ymd by assumption. cbn [pt_hour pt_minute pt_second pt_offset parsed_init].
  assert (P : forall name, String.prefix (String "i" name) (date_text y m d ++ rest) = false).
  { intros name. rewrite E. cbn [String.prefix]. destruct (ascii_dec "i" c) as [<-|]; [|reflexivity].
    rewrite Ascii.eqb_refl in Hi. discriminate. }
  rewrite !P. cbn [andb]. destruct (month_day_ok m d); reflexivity.
Qed.
