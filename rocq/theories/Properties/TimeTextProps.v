(** Property C68: times as text (the --start_time and --end_time flags, and what the
    programs print). *)
From Coq Require Import ZArith String Ascii Bool Lia.
From Coq Require Import List.
From Verif.Model Require Import TimeUtil Traders Convert TimeText.
From Verif.Spec Require Import TimeSpec TimeTextSpec.
From Verif.Proofs Require Import TimeProofs TimeTextProofs.
From Verif.Proofs Require LogProofs.
From Verif.Properties Require Import TimeProps.
Import ListNotations.
Local Open Scope Z_scope.
Local Open Scope string_scope.

(** [accepts text ok t]: the text is read as time t if ok holds, and is refused otherwise. *)
Definition accepts (text : string) (ok : Prop) (t : Z) : Prop :=
  (ok -> ParseTime text = Some t) /\ (~ ok -> ParseTime text = None).

Lemma date_cases y m d : (month_day_ok m d = true /\ 1 <= m <= 12 /\ 1 <= d <= 31)
  \/ (month_day_ok m d = false /\ ~ valid_date y m d).
Proof.
  unfold month_day_ok. pose proof (length_bounds y m).
  destruct (Z.leb_spec 1 m), (Z.leb_spec m 12), (Z.leb_spec 1 d), (Z.leb_spec d 31); cbn [andb];
    try (left; split; [reflexivity|lia]); right; (split; [reflexivity|]); intros [A B]; lia.
Qed.

Lemma clock_cases hh mm ss : two_digit_number hh -> two_digit_number mm -> two_digit_number ss ->
  (clock_ok hh mm ss = true /\ valid_clock hh mm ss) \/ (clock_ok hh mm ss = false /\ ~ valid_clock hh mm ss).
Proof.
  intros [H1 H2] [H3 H4] [H5 H6]. unfold clock_ok, valid_clock.
  destruct (Z.leb_spec hh 23), (Z.leb_spec mm 59), (Z.leb_spec ss 60); cbn [andb];
    try (left; split; [reflexivity|lia]); right; (split; [reflexivity|]); lia.
Qed.

Lemma skip_digit n rest : two_digit_number n -> skip_spaces (two n ++ rest) = two n ++ rest.
Proof.
  intros H. destruct (two_eq n H) as (a & b & Ha & Hb & _ & ->). cbn [append skip_spaces].
  rewrite digit_not_space by exact Ha. reflexivity.
Qed.

Lemma no_offset n rest : two_digit_number n -> parse_offset (two n ++ rest) = None.
Proof.
  intros H. destruct (two_eq n H) as (a & b & Ha & Hb & _ & ->). cbn [append]. unfold parse_offset.
  rewrite !digit_not_char by (exact Ha || reflexivity). reflexivity.
Qed.

Lemma skip_clock hh mm ss rest : two_digit_number hh ->
  skip_spaces (clock_text hh mm ss ++ rest) = clock_text hh mm ss ++ rest.
Proof. intros H. unfold clock_text. rewrite LogProofs.append_assoc_s. apply skip_digit, H. Qed.

Lemma no_clock_offset hh mm ss rest : two_digit_number hh -> parse_offset (clock_text hh mm ss ++ rest) = None.
Proof. intros H. unfold clock_text. rewrite LogProofs.append_assoc_s. apply no_offset, H. Qed.

Lemma clock_not_empty hh mm ss rest : String.eqb (clock_text hh mm ss ++ rest) "" = false.
Proof. reflexivity. Qed.

Lemma skip_zone zone ahead : time_zone zone ahead -> skip_spaces zone = zone /\ String.eqb zone "" = false.
Proof. intros [s [-> | ->]|[] hh Hh|[] hh s1 mm Hh H1 Hm|[] hh s1 mm s2 ss Hh H1 Hm H2 Hs]; split; reflexivity. Qed.

(** A zone is not an hour: '+' is not a digit, and "-d..." is negative or "-0". *)
Lemma signed_not_hour east hh rest : 0 <= hh <= 99 ->
  parse_int (Some 2%nat) (Some 0) (Some 23) (sign_text east ++ two hh ++ rest) = None.
Proof.
  intros Hh. destruct (two_eq hh Hh) as (a & b & Ha & Hb & _ & E).
  destruct east; cbn [append sign_text]; rewrite E; cbn [append].
  - reflexivity.
  - unfold parse_int. change (Ascii.eqb "-" "-") with true. cbn iota. cbn [pred parse_digits].
    rewrite digit_of_char by exact Ha. destruct (digit_of (digit_char b)) eqn:Eb; cbn [Nat.eqb andb];
      (destruct (Z.eqb_spec (0 * 10 + a) 0); [reflexivity|];
       destruct (Z.leb_spec 0 (- (0 * 10 + a))); [lia|reflexivity]).
Qed.
Lemma zone_not_hour zone ahead : time_zone zone ahead -> forall rest,
  parse_int (Some 2%nat) (Some 0) (Some 23) (zone ++ rest) = None.
Proof.
  intros [s [-> | ->]|east hh Hh|east hh s1 mm Hh H1 Hm|east hh s1 mm s2 ss Hh H1 Hm H2 Hs] rest; try reflexivity;
    rewrite ?LogProofs.append_assoc_s; apply signed_not_hour; lia.
Qed.

(** "YYYY-MM-DD" is midnight UTC of that day; a text that is not a day of the calendar is
    refused. *)
Theorem C68_date : forall day, day_numbering day -> forall y m d,
  two_digit_number m -> two_digit_number d ->
  accepts (date_text y m d) (valid_date y m d) (86400 * day y m d).
Proof.
  intros day Hday y m d Hm Hd.
  assert (E : ParseTime (date_text y m d)
    = if month_day_ok m d then finish_time (ParsedTime y m d 0 0 0 0) else None).
  { unfold ParseTime, kAllowedTimeFormats. rewrite <- (LogProofs.append_nil_s (date_text y m d)).
    cbn [first_format]. change fmt_ymd with (fmt_ymd ++ [])%list at 5.
    rewrite !absl_date by assumption. destruct (month_day_ok m d); [|reflexivity].
    cbn -[finish_time]. destruct (finish_time _); reflexivity. }
  unfold accepts. rewrite E. destruct (date_cases y m d) as [(-> & Hm' & Hd')|(-> & Hn)]; [|split; [contradiction|reflexivity]].
  rewrite finish_spec by (try assumption; repeat split; lia).
  destruct (Z.leb_spec d (month_length y m)) as [Hl|Hl].
  - assert (V : valid_date y m d) by (split; lia). split; [intros _|contradiction].
    rewrite (numbering_unique day Hday _ _ _ V). f_equal. lia.
  - split; [intros [_ V]; lia|reflexivity].
Qed.

(** "YYYY-MM-DD hh:mm:ss" is that second of that day, UTC; second 60 is the second after
    second 59; anything else is refused. *)
Theorem C68_date_time : forall day, day_numbering day -> forall y m d hh mm ss,
  two_digit_number m -> two_digit_number d ->
  two_digit_number hh -> two_digit_number mm -> two_digit_number ss ->
  accepts (date_text y m d ++ " " ++ clock_text hh mm ss) (valid_date y m d /\ valid_clock hh mm ss)
          (86400 * day y m d + hh * 3600 + mm * 60 + ss).
Proof.
  intros day Hday y m d hh mm ss Hm Hd Hhh Hmm Hss.
  assert (E : ParseTime (date_text y m d ++ " " ++ clock_text hh mm ss)
    = if month_day_ok m d then if clock_ok hh mm ss then finish_time (ParsedTime y m d hh mm ss 0) else None else None).
  { unfold ParseTime, kAllowedTimeFormats. cbn [first_format]. change fmt_ymd with (fmt_ymd ++ [])%list at 5.
    rewrite !absl_date by assumption. destruct (month_day_ok m d); [|reflexivity].
    cbn [List.app parse_items parse_item append]. change (Ascii.eqb " " "T" || Ascii.eqb " " "t")%bool with false. cbn iota.
    cbn [skip_spaces]. change (is_space " ") with true. cbn iota.
    rewrite <- (LogProofs.append_nil_s (clock_text hh mm ss)).
    rewrite !skip_clock by exact Hhh. rewrite parse_hms by assumption.
    change (parse_items fmt_hms) with (parse_items (fmt_hms ++ [])%list). rewrite parse_hms by assumption.
    rewrite no_clock_offset by exact Hhh. cbn [option_map].
    destruct (clock_ok hh mm ss).
    - cbn [parse_items parse_item pt_year pt_month pt_day pt_offset skip_spaces].
      change (parse_offset "") with (@None (Z * string)). cbn [option_map].
      change (String.eqb "" "") with true. cbn iota.
      destruct (finish_time _); [reflexivity|].
      rewrite clock_not_empty. reflexivity.
    - rewrite clock_not_empty. reflexivity. }
  unfold accepts. rewrite E.
  destruct (date_cases y m d) as [(-> & Hm' & Hd')|(-> & Hn)]; [|split; [tauto|reflexivity]].
  destruct (clock_cases hh mm ss) as [(-> & Hc)|(-> & Hc)]; try assumption; [|split; [tauto|reflexivity]].
  rewrite finish_spec by assumption.
  destruct (Z.leb_spec d (month_length y m)) as [Hl|Hl].
  - assert (V : valid_date y m d) by (split; lia). split; [intros _|tauto].
    rewrite (numbering_unique day Hday _ _ _ V). f_equal. lia.
  - split; [intros [[_ V] _]; lia|reflexivity].
Qed.

(** With a time zone, in the RFC 3339 form and in the two forms with
    spaces: the local time minus what the zone is ahead of UTC. *)
Theorem C68_zone : forall day, day_numbering day -> forall y m d hh mm ss zone ahead,
  two_digit_number m -> two_digit_number d ->
  two_digit_number hh -> two_digit_number mm -> two_digit_number ss ->
  time_zone zone ahead ->
  let utc := (86400 * day y m d + hh * 3600 + mm * 60 + ss - ahead)%Z in
  accepts (date_text y m d ++ "T" ++ clock_text hh mm ss ++ zone)
          (valid_date y m d /\ valid_clock hh mm ss) utc
  /\ accepts (date_text y m d ++ " " ++ clock_text hh mm ss ++ " " ++ zone)
          (valid_date y m d /\ valid_clock hh mm ss) utc
  /\ accepts (date_text y m d ++ " " ++ zone) (valid_date y m d)
          (86400 * day y m d - ahead).
Proof.
  intros day Hday y m d hh mm ss zone ahead Hm Hd Hhh Hmm Hss Hz utc.
  assert (Z0 : forall rest, parse_int (Some 2%nat) (Some 0) (Some 23) (zone ++ rest) = None).
  { intros rest. eapply zone_not_hour. exact Hz. }
  destruct (skip_zone zone ahead Hz) as [Zs Zn].
  assert (Zo : parse_offset zone = Some (ahead, "")) by (apply parse_zone; assumption).
  assert (F : forall text off, ParseTime text
      = (if month_day_ok m d then if clock_ok hh mm ss then finish_time (ParsedTime y m d hh mm ss off) else None else None) ->
    accepts text (valid_date y m d /\ valid_clock hh mm ss) (86400 * day y m d + hh * 3600 + mm * 60 + ss - off)).
  { intros text off E. unfold accepts. rewrite E.
    destruct (date_cases y m d) as [(-> & Hm' & Hd')|(-> & Hn)]; [|split; [tauto|reflexivity]].
    destruct (clock_cases hh mm ss) as [(-> & Hc)|(-> & Hc)]; try assumption; [|split; [tauto|reflexivity]].
    rewrite finish_spec by assumption.
    destruct (Z.leb_spec d (month_length y m)) as [Hl|Hl].
    - assert (V : valid_date y m d) by (split; lia). split; [intros _|tauto].
      rewrite (numbering_unique day Hday _ _ _ V). f_equal. lia.
    - split; [intros [[_ V] _]; lia|reflexivity]. }
  split; [|split].
  - apply F. unfold ParseTime, kAllowedTimeFormats. cbn [first_format]. change fmt_ymd with (fmt_ymd ++ [])%list at 5.
    rewrite !absl_date by assumption. destruct (month_day_ok m d); [|reflexivity].
    cbn [List.app parse_items parse_item append]. change (Ascii.eqb "T" "T" || Ascii.eqb "T" "t")%bool with true. cbn iota.
    cbn [skip_spaces]. change (is_space "T") with false. cbn iota.
    rewrite parse_hms by assumption.
    assert (TH : forall is p r, parse_items (fmt_hms ++ is) p (String "T" r) = None).
    { intros is p r. destruct p. reflexivity. }
    change (parse_items fmt_hms) with (parse_items (fmt_hms ++ [])%list). rewrite !TH.
    change (parse_offset (String "T" (clock_text hh mm ss ++ zone))) with (@None (Z * string)). cbn [option_map].
    change (String.eqb (String "T" (clock_text hh mm ss ++ zone)) "") with false. cbn iota.
    destruct (clock_ok hh mm ss); [|reflexivity].
    cbn [parse_items parse_item pt_year pt_month pt_day pt_offset skip_spaces].
    rewrite Zo. cbn [option_map fst snd skip_spaces]. change (String.eqb "" "") with true. cbn iota.
    destruct (finish_time _); reflexivity.
  - apply F. unfold ParseTime, kAllowedTimeFormats. cbn [first_format]. change fmt_ymd with (fmt_ymd ++ [])%list at 5.
    rewrite !absl_date by assumption. destruct (month_day_ok m d); [|reflexivity].
    cbn [List.app parse_items parse_item append]. change (Ascii.eqb " " "T" || Ascii.eqb " " "t")%bool with false. cbn iota.
    cbn [skip_spaces]. change (is_space " ") with true. cbn iota.
    change (clock_text hh mm ss ++ String " " zone) with (clock_text hh mm ss ++ String " " zone).
    rewrite !skip_clock by exact Hhh. rewrite parse_hms by assumption.
    change (parse_items fmt_hms) with (parse_items (fmt_hms ++ [])%list). rewrite parse_hms by assumption.
    rewrite no_clock_offset by exact Hhh. cbn [option_map].
    destruct (clock_ok hh mm ss).
    + cbn [parse_items parse_item pt_year pt_month pt_day pt_offset skip_spaces].
      change (is_space " ") with true. cbn iota. rewrite Zs, Zo. cbn [option_map fst snd skip_spaces].
      change (String.eqb "" "") with true. cbn iota.
      destruct (finish_time _); [reflexivity|]. rewrite Zn, clock_not_empty. reflexivity.
    + rewrite clock_not_empty. reflexivity.
  - assert (E : ParseTime (date_text y m d ++ " " ++ zone)
      = if month_day_ok m d then finish_time (ParsedTime y m d 0 0 0 (ahead)) else None).
    { unfold ParseTime, kAllowedTimeFormats. cbn [first_format]. change fmt_ymd with (fmt_ymd ++ [])%list at 5.
      rewrite !absl_date by assumption. destruct (month_day_ok m d); [|reflexivity].
      assert (ZH : forall is p, parse_items (fmt_hms ++ is) p zone = None).
      { intros is p. destruct p. cbn [List.app fmt_hms parse_items parse_item].
        rewrite <- (LogProofs.append_nil_s zone), Z0. reflexivity. }
      cbn [List.app parse_items parse_item append]. change (Ascii.eqb " " "T" || Ascii.eqb " " "t")%bool with false. cbn iota.
      cbn [skip_spaces]. change (is_space " ") with true. cbn iota. rewrite !Zs.
      change (parse_items fmt_hms) with (parse_items (fmt_hms ++ [])%list). rewrite !ZH.
      rewrite Zo. cbn [option_map fst snd skip_spaces]. change (String.eqb "" "") with true. cbn iota.
      rewrite Zn. destruct (finish_time _); reflexivity. }
    unfold accepts. rewrite E. destruct (date_cases y m d) as [(-> & Hm' & Hd')|(-> & Hn)]; [|split; [contradiction|reflexivity]].
    rewrite finish_spec by (try assumption; repeat split; lia).
    destruct (Z.leb_spec d (month_length y m)) as [Hl|Hl].
    + assert (V : valid_date y m d) by (split; lia). split; [intros _|contradiction].
      rewrite (numbering_unique day Hday _ _ _ V). f_equal. lia.
    + split; [intros [_ V]; lia|reflexivity].
Qed.

Lemma fmt_02d_two n : two_digit_number n -> fmt_02d n = two n.
Proof.
  apply (below_100 (fun n => fmt_02d n = two n)). intros k Hk.
  do 100 (destruct k as [|k]; [reflexivity|]). lia.
Qed.

(** A time is printed as its UTC date and clock. *)
Theorem C68_printed : forall day, day_numbering day -> forall t y m d s, at_civil day t y m d s ->
  FormatTimeUTC t = date_text y m d ++ " " ++ clock_text (s / 3600) ((s / 60) mod 60) (s mod 60).
Proof.
  intros day Hday t y m d s H. rewrite (at_civil_any day Hday) in H. unfold FormatTimeUTC.
  rewrite (at_civil_to _ _ _ _ _ H). cbn [cs_year cs_month cs_day cs_hour cs_minute cs_second].
  destruct H as ([Hm Hd] & Hs & _). pose proof (length_bounds y m).
  rewrite !fmt_02d_two by (split; Z.div_mod_to_equations; lia).
  unfold date_text, clock_text. rewrite !LogProofs.append_assoc_s. reflexivity.
Qed.

(** What the programs print can be given to them as a flag: it is read as the same time. *)
Theorem C68_round_trip : forall t, ParseTime (FormatTimeUTC t) = Some t.
Proof.
  intros t. destruct (to_civil t) as (y & m & d & s & H & _).
  rewrite (C68_printed _ days_numbering _ _ _ _ _ H). destruct H as ([Hm Hd] & Hs & E). pose proof (length_bounds y m).
  assert (B : 0 <= s / 3600 <= 23 /\ 0 <= (s / 60) mod 60 <= 59 /\ 0 <= s mod 60 <= 59)
    by (Z.div_mod_to_equations; lia).
  destruct (C68_date_time _ days_numbering y m d (s / 3600) ((s / 60) mod 60) (s mod 60)) as [A _];
    try (split; lia).
  rewrite A.
  - f_equal. pose proof (tod_split s Hs). lia.
  - split; [split; lia|]. repeat split; lia.
Qed.

(** Hence two different times are never printed as the same text. *)
Theorem C68_printed_injective : forall t1 t2, FormatTimeUTC t1 = FormatTimeUTC t2 -> t1 = t2.
Proof.
  intros t1 t2 E. pose proof (C68_round_trip t1) as A. rewrite E, C68_round_trip in A. congruence.
Qed.

Lemma skip_blank s x : blank s -> skip_spaces (s ++ x) = skip_spaces x.
Proof.
  intros H. induction H as [|n s Hn H IH]; [reflexivity|]. cbn in Hn. rewrite <- IH.
  repeat (destruct Hn as [<-|Hn]; [reflexivity|]). contradiction.
Qed.

Lemma substring_app a b : substring (String.length a) (String.length (a ++ b)) (a ++ b) = b.
Proof.
  induction a as [|c a IH].
  - cbn [String.length append]. induction b as [|c b IH]; [reflexivity|]. cbn [String.length substring]. rewrite IH. reflexivity.
  - cbn [String.length append substring]. clear IH.
    assert (G : forall n a b, (String.length (a ++ b) <= n)%nat -> substring (String.length a) n (a ++ b) = b).
    { clear. intros n a. revert n. induction a as [|c a IH]; intros n b H.
      - cbn [String.length append] in *. revert n H. induction b as [|c b IH]; intros n H; [destruct n; reflexivity|].
        destruct n as [|n]; [cbn in H; lia|]. cbn [substring]. rewrite IH; [reflexivity|cbn in H; lia].
      - cbn [String.length append substring] in *. apply IH. lia. }
    apply G. lia.
Qed.

(** White space in front of a text does not matter. *)
Theorem C68_leading_blanks : forall s text, blank s -> ParseTime (s ++ text) = ParseTime text.
Proof.
  intros s text H. unfold ParseTime, kAllowedTimeFormats, first_format, absl_ParseTime.
  rewrite skip_blank by exact H. reflexivity.
Qed.

(** The words for unlimited times, with any white space around them, stand for the limits
    of the 64-bit times. *)
Theorem C68_unlimited : forall s1 s2, blank s1 -> blank s2 ->
  ParseTime (s1 ++ "infinite-future" ++ s2) = Some (2 ^ 63 - 1)
  /\ ParseTime (s1 ++ "infinite-past" ++ s2) = Some (- 2 ^ 63).
Proof.
  intros s1 s2 H1 H2. rewrite 2!(C68_leading_blanks s1) by exact H1.
  assert (SN : skip_spaces s2 = "").
  { rewrite <- (LogProofs.append_nil_s s2), skip_blank by exact H2. reflexivity. }
  assert (G : forall w, String.prefix w (w ++ s2) && String.eqb (skip_spaces (substring (String.length w) (String.length (w ++ s2)) (w ++ s2))) "" = true).
  { intros w. rewrite substring_app, SN. rewrite andb_true_r. induction w as [|c w IH]; [destruct s2; reflexivity|].
    cbn [append String.prefix]. destruct (ascii_dec c c); [exact IH|congruence]. }
  assert (A1 : forall f, absl_ParseTime f ("infinite-future" ++ s2) = Some (2 ^ 63 - 1)).
  { intros f. unfold absl_ParseTime. change (skip_spaces ("infinite-future" ++ s2)) with ("infinite-future" ++ s2).
    cbv zeta. rewrite (G "infinite-future"). reflexivity. }
  assert (A2 : forall f, absl_ParseTime f ("infinite-past" ++ s2) = Some (- 2 ^ 63)).
  { intros f. unfold absl_ParseTime. change (skip_spaces ("infinite-past" ++ s2)) with ("infinite-past" ++ s2).
    cbv zeta. rewrite (G "infinite-past"). change (String.prefix "infinite-future" ("infinite-past" ++ s2)) with false. reflexivity. }
  assert (FF : forall f fs x t, (forall f, absl_ParseTime f x = Some t) -> first_format (f :: fs) x = Some t).
  { intros f fs x t H. cbn [first_format]. rewrite H. reflexivity. }
  split; [exact (FF _ _ _ _ A1)|exact (FF _ _ _ _ A2)].
Qed.

(** Texts of the kind the flags take, and refused ones. *)
Lemma C68_examples :
  ParseTime "2017-01-01" = Some 1483228800
  /\ ParseTime "2017-01-01 16:25:15 +02:00" = Some (1483287915 - 7200)
  /\ ParseTime "2017-01-01T16:25:15+02:00" = Some (1483287915 - 7200)
  /\ ParseTime "2017-02-29" = None /\ ParseTime "2020-02-29" = Some 1582934400
  /\ ParseTime "2017-01-01 24:00:00" = None /\ ParseTime "Hello World!" = None
  /\ date_text 2017 1 1 = "2017-01-01" /\ clock_text 16 25 15 = "16:25:15"
  /\ ParseTime "2017-01-01 16:25:15 -023015" = Some (1483287915 + 9015)
  /\ ParseTime "2017-01-01T16:25:15Z" = Some 1483287915 /\ ParseTime "2017-01-01 +02" = Some (1483228800 - 7200)
  /\ time_zone "+02:00" 7200 /\ time_zone "-023015" (- 9015) /\ FormatTimeUTC 1483287915 = "2017-01-01 16:25:15".
Proof.
  assert (Z1 : time_zone "+02:00" 7200).
  { apply (zone_minutes true 2 ":" 0); [lia|right; reflexivity|lia]. }
  assert (Z2 : time_zone "-023015" (- 9015)).
  { apply (zone_seconds false 2 "" 30 "" 15); try lia; left; reflexivity. }
  repeat (split; [assumption || reflexivity|]). reflexivity.
Qed.
