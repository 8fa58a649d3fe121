(** C99: exactly which texts are accepted as times. *)
From Coq Require Import ZArith String Ascii Bool Lia.
From Coq Require Import List.
From Verif.Model Require Import TimeUtil Traders Convert TimeText.
From Verif.Spec Require Import TimeSpec TimeTextSpec TimeFormSpec.
From Verif.Proofs Require Import TimeProofs TimeTextProofs TimeFormProofs.
From Verif.Properties Require Import TimeProps.
From Verif.Properties Require TimeTextProps.
Import ListNotations.
Local Open Scope Z_scope.
Local Open Scope string_scope.

Lemma absl_inv f text t : absl_ParseTime f text = Some t ->
  (forall day, stands_for day text t)
  \/ exists b s p rest, blank b /\ text = b ++ s /\ parse_items f parsed_init s = Some (p, rest)
       /\ blank rest /\ finish_time p = Some t.
Proof.
  unfold absl_ParseTime. destruct (skip_spaces_inv text) as (b & Hb & E). set (s := skip_spaces text) in *.
  assert (W : forall w x, String.prefix w s && String.eqb (skip_spaces (substring (String.length w) (String.length s) s)) "" = true ->
    (forall day, time_form day w x) -> forall day, stands_for day text x).
  { intros w x H Hf day. apply andb_prop in H. destruct H as [H1 H2]. apply prefix_inv in H1. destruct H1 as (r & Er).
    rewrite Er in H2. rewrite substring_rest in H2. exists b, w, r.
    split; [exact Hb|]. split; [apply skip_end, H2|]. split; [rewrite E, Er; reflexivity|apply Hf]. }
  cbv zeta. destruct (String.prefix "infinite-future" s && _)%bool eqn:F1.
  { intros H. injection H as <-. left. apply (W _ _ F1). intros day. constructor. }
  destruct (String.prefix "infinite-past" s && _)%bool eqn:F2.
  { intros H. injection H as <-. left. apply (W _ _ F2). intros day. constructor. }
  destruct (parse_items f parsed_init s) as [[p rest]|] eqn:P; [|discriminate].
  destruct (String.eqb (skip_spaces rest) "") eqn:R; [|discriminate]. intros H. right.
  exists b, s, p, rest. repeat split; try assumption. apply skip_end, R.
Qed.

Lemma absl_form f b s p rest : blank b -> (exists c r, s = String c r /\ is_space c = false /\ Ascii.eqb "i" c = false) ->
  parse_items f parsed_init s = Some (p, rest) -> blank rest -> absl_ParseTime f (b ++ s) = finish_time p.
Proof.
  intros Hb (c & r & Hs & Hsp & Hi) P R. unfold absl_ParseTime. rewrite skip_blanks by exact Hb.
  assert (Es : skip_spaces s = s) by (rewrite Hs; cbn [skip_spaces]; rewrite Hsp; reflexivity).
  rewrite Es. assert (N : forall name, String.prefix (String "i" name) s = false).
  { intros name. rewrite Hs. cbn [String.prefix]. destruct (ascii_dec "i" c) as [<-|]; [|reflexivity].
    rewrite Ascii.eqb_refl in Hi. discriminate. }
  cbv zeta. rewrite !N. cbn [andb]. rewrite P, skip_only by exact R. reflexivity.
Qed.

Lemma absl_none f b s : blank b -> (exists c r, s = String c r /\ is_space c = false /\ Ascii.eqb "i" c = false) ->
  (parse_items f parsed_init s = None \/ exists p rest, parse_items f parsed_init s = Some (p, rest) /\ ~ blank rest) ->
  absl_ParseTime f (b ++ s) = None.
Proof.
  intros Hb (c & r & Hs & Hsp & Hi) P. unfold absl_ParseTime. rewrite skip_blanks by exact Hb.
  assert (Es : skip_spaces s = s) by (rewrite Hs; cbn [skip_spaces]; rewrite Hsp; reflexivity).
  rewrite Es. assert (N : forall name, String.prefix (String "i" name) s = false).
  { intros name. rewrite Hs. cbn [String.prefix]. destruct (ascii_dec "i" c) as [<-|]; [|reflexivity].
    rewrite Ascii.eqb_refl in Hi. discriminate. }
  cbv zeta. rewrite !N. cbn [andb]. destruct P as [->|(p & rest & -> & R)]; [reflexivity|].
  destruct (String.eqb (skip_spaces rest) "") eqn:X; [|reflexivity]. elim R. apply skip_end, X.
Qed.

Lemma finish_valid day y m d hh mm ss off t : day_numbering day -> 1 <= m <= 12 -> 1 <= d <= 31 -> valid_clock hh mm ss ->
  finish_time (ParsedTime y m d hh mm ss off) = Some t ->
  valid_date y m d /\ t = 86400 * day y m d + hh * 3600 + mm * 60 + ss - off.
Proof.
  intros Hday Hm Hd Hc. rewrite finish_spec by assumption. destruct (Z.leb_spec d (month_length y m)) as [L|]; [|discriminate].
  intros H. assert (V : valid_date y m d) by (split; lia). split; [exact V|].
  rewrite (numbering_unique day Hday _ _ _ V). apply (f_equal (fun o => match o with Some x => x | None => t end)) in H.
  cbv beta iota in H. lia.
Qed.

Lemma finish_form day y m d hh mm ss off : day_numbering day -> valid_date y m d -> valid_clock hh mm ss ->
  finish_time (ParsedTime y m d hh mm ss off) = Some (86400 * day y m d + hh * 3600 + mm * 60 + ss - off).
Proof.
  intros Hday V Hc. destruct V as [Hm Hd]. pose proof (length_bounds y m). rewrite finish_spec by (assumption || lia).
  destruct (Z.leb_spec d (month_length y m)) as [L|]; [|lia]. rewrite (numbering_unique day Hday) by (split; lia). f_equal. lia.
Qed.

Lemma midnight : valid_clock 0 0 0.
Proof. repeat split; lia. Qed.

(** ** Every accepted text is of one of the forms, and is read as the time the form stands for *)
Lemma sound day : day_numbering day -> forall text t, ParseTime text = Some t -> stands_for day text t.
Proof.
  intros Hday text t H. unfold ParseTime, kAllowedTimeFormats in H. cbn [first_format] in H.
  assert (Sep : forall date d gap clock hh mm ss r, day_ends date d (gap ++ clock ++ r) -> blank gap -> clock_form clock hh mm ss ->
            separated date gap d).
  { intros date d gap clock hh mm ss r En Hg Fc. split; [exact Hg|]. destruct En as [En|En]; [left|right; exact En].
    intros ->. destruct (clock_head clock hh mm ss r Fc) as (n & s & Hn & E). cbn [append] in En. rewrite E in En.
    change (digit_of (digit_char n) = None) in En. rewrite digit_of_char in En by exact Hn. discriminate. }
  destruct (absl_ParseTime _ text) as [t1|] eqn:A1 in H.
  { injection H as ->. apply absl_inv in A1. destruct A1 as [A1|(b & s & p & rest & Hb & -> & P & R & F)]; [apply A1|].
    apply parse_date_inv in P. destruct P as (date & y & m & d & r & Fd & Bm & Bd & -> & _ & P).
    cbn [List.app parse_items parse_item pt_hour pt_minute pt_second pt_offset parsed_init] in P.
    destruct r as [|c r]; [discriminate|].
    destruct (Ascii.eqb c "T" || Ascii.eqb c "t")%bool eqn:T; [|discriminate].
    apply parse_clock_inv in P. destruct P as (clock & hh & mm & ss & r2 & Fc & Vc & -> & P).
    cbn [parse_items parse_item pt_year pt_month pt_day pt_offset] in P.
    destruct (parse_offset r2) as [[off r3]|] eqn:O; [|discriminate]. cbn [option_map fst snd] in P. injection P as <- <-.
    apply parse_offset_inv in O. destruct O as (zone & Z & ->).
    destruct (finish_valid day _ _ _ _ _ _ _ _ Hday Bm Bd Vc F) as [V ->].
    exists b, (date ++ String c "" ++ clock ++ zone), r3. split; [exact Hb|]. split; [exact R|].
    split; [rewrite !app_assoc; reflexivity|]. apply form_rfc3339; try assumption.
    apply orb_prop in T. destruct T as [T|T]; apply Ascii.eqb_eq in T; subst c; auto. }
  clear A1. destruct (absl_ParseTime _ text) as [t1|] eqn:A1 in H.
  { injection H as ->. apply absl_inv in A1. destruct A1 as [A1|(b & s & p & rest & Hb & -> & P & R & F)]; [apply A1|].
    apply parse_date_inv in P. destruct P as (date & y & m & d & r & Fd & Bm & Bd & -> & En & P).
    cbn [List.app parse_items parse_item pt_hour pt_minute pt_second pt_offset parsed_init] in P.
    destruct (skip_spaces_inv r) as (gap & Hg & Er). rewrite Er in En |- *.
    apply parse_clock_inv in P. destruct P as (clock & hh & mm & ss & r2 & Fc & Vc & Es & P). rewrite Es in En |- *.
    cbn [parse_items parse_item pt_year pt_month pt_day pt_offset] in P.
    destruct (skip_spaces_inv r2) as (gap' & Hg' & Er2). rewrite Er2 in En |- *.
    destruct (parse_offset (skip_spaces r2)) as [[off r3]|] eqn:O; [|discriminate]. cbn [option_map fst snd] in P. injection P as <- <-.
    apply parse_offset_inv in O. destruct O as (zone & Z & ->).
    destruct (finish_valid day _ _ _ _ _ _ _ _ Hday Bm Bd Vc F) as [V ->].
    exists b, (date ++ gap ++ clock ++ gap' ++ zone), r3. split; [exact Hb|]. split; [exact R|].
    split; [rewrite !app_assoc; reflexivity|]. apply form_clock_zone; try assumption.
    eapply Sep; eassumption. }
  clear A1. destruct (absl_ParseTime _ text) as [t1|] eqn:A1 in H.
  { injection H as ->. apply absl_inv in A1. destruct A1 as [A1|(b & s & p & rest & Hb & -> & P & R & F)]; [apply A1|].
    apply parse_date_inv in P. destruct P as (date & y & m & d & r & Fd & Bm & Bd & -> & En & P).
    cbn [List.app parse_items parse_item pt_hour pt_minute pt_second pt_offset parsed_init] in P.
    destruct (skip_spaces_inv r) as (gap & Hg & Er). rewrite Er in En |- *.
    change fmt_hms with (fmt_hms ++ [])%list in P.
    apply parse_clock_inv in P. destruct P as (clock & hh & mm & ss & r2 & Fc & Vc & Es & P). rewrite Es in En |- *.
    cbn [parse_items pt_year pt_month pt_day pt_offset] in P. injection P as <- <-.
    destruct (finish_valid day _ _ _ _ _ _ _ _ Hday Bm Bd Vc F) as [V ->].
    exists b, (date ++ gap ++ clock), r2. split; [exact Hb|]. split; [exact R|].
    split; [rewrite !app_assoc; reflexivity|]. rewrite Z.sub_0_r. apply form_clock; try assumption.
    eapply Sep; eassumption. }
  clear A1. destruct (absl_ParseTime _ text) as [t1|] eqn:A1 in H.
  { injection H as ->. apply absl_inv in A1. destruct A1 as [A1|(b & s & p & rest & Hb & -> & P & R & F)]; [apply A1|].
    apply parse_date_inv in P. destruct P as (date & y & m & d & r & Fd & Bm & Bd & -> & En & P).
    cbn [List.app parse_items parse_item pt_hour pt_minute pt_second pt_offset parsed_init] in P.
    destruct (skip_spaces_inv r) as (gap & Hg & Er). rewrite Er.
    destruct (parse_offset (skip_spaces r)) as [[off r3]|] eqn:O; [|discriminate]. cbn [option_map fst snd] in P. injection P as <- <-.
    apply parse_offset_inv in O. destruct O as (zone & Z & ->).
    destruct (finish_valid day _ _ _ _ _ _ _ _ Hday Bm Bd midnight F) as [V ->].
    exists b, (date ++ gap ++ zone), r3. split; [exact Hb|]. split; [exact R|].
    split; [rewrite !app_assoc; reflexivity|].
    replace (86400 * day y m d + 0 * 3600 + 0 * 60 + 0 - off) with (86400 * day y m d - off) by lia.
    apply form_date_zone; assumption. }
  clear A1. destruct (absl_ParseTime _ text) as [t1|] eqn:A1 in H; [|discriminate].
  injection H as ->. apply absl_inv in A1. destruct A1 as [A1|(b & s & p & rest & Hb & -> & P & R & F)]; [apply A1|].
  change fmt_ymd with (fmt_ymd ++ [])%list in P.
  apply parse_date_inv in P. destruct P as (date & y & m & d & r & Fd & Bm & Bd & -> & En & P).
  cbn [parse_items pt_hour pt_minute pt_second pt_offset parsed_init] in P. injection P as <- <-.
  destruct (finish_valid day _ _ _ _ _ _ _ _ Hday Bm Bd midnight F) as [V ->].
  exists b, date, r. split; [exact Hb|]. split; [exact R|]. split; [reflexivity|].
  replace (86400 * day y m d + 0 * 3600 + 0 * 60 + 0 - 0) with (86400 * day y m d) by lia.
  apply form_date; assumption.
Qed.

(** ** Every text of one of the forms is accepted *)
Lemma not_T r is p : (forall c s, r = String c s -> Ascii.eqb c "T" = false /\ Ascii.eqb c "t" = false) ->
  parse_items (FT :: is) p r = None.
Proof.
  intros H. destruct p. cbn [parse_items parse_item]. destruct r as [|c s]; [reflexivity|].
  destruct (H c s eq_refl) as [-> ->]. reflexivity.
Qed.

Lemma digit_not_T n : 0 <= n <= 9 -> Ascii.eqb (digit_char n) "T" = false /\ Ascii.eqb (digit_char n) "t" = false.
Proof. intros H. split; apply digit_not_char; (exact H || reflexivity). Qed.

Lemma complete day : day_numbering day -> forall text t, stands_for day text t -> ParseTime text = Some t.
Proof.
  intros Hday text t (b & core & b2 & Hb & Hb2 & -> & Hf). unfold ParseTime, kAllowedTimeFormats. cbn [first_format].
  assert (BR : forall b x, blank b -> (forall c s, x = String c s -> Ascii.eqb c "T" = false /\ Ascii.eqb c "t" = false) ->
     forall c s, b ++ x = String c s -> Ascii.eqb c "T" = false /\ Ascii.eqb c "t" = false).
  { intros b0 x H0 Hx c s E. destruct (blank_head b0 x H0) as [->|(c' & s' & E' & Sp)]; [apply (Hx c s E)|].
    rewrite E' in E. injection E as <- <-. destruct (space_facts c' Sp) as (_ & A & B & _). auto. }
  assert (ND : forall b x, blank b -> (b <> "" \/ no_digit x) -> no_digit (b ++ x)).
  { intros b0 x H0 Hx. destruct (blank_head b0 x H0) as [->|(c' & s' & E' & Sp)].
    - destruct Hx as [Hx|Hx]; [congruence|exact Hx].
    - rewrite E'. apply (space_facts c' Sp). }
  assert (ZD : forall zone ahead x, time_zone zone ahead -> no_digit (zone ++ x)).
  { intros zone ahead x Hz. destruct (zone_head zone ahead x Hz) as (c & s & E & Hc). rewrite E. cbn in Hc |- *.
    repeat (destruct Hc as [<-|Hc]; [reflexivity|]). contradiction. }
  assert (ZT : forall zone ahead x, time_zone zone ahead -> forall c s, zone ++ x = String c s ->
     Ascii.eqb c "T" = false /\ Ascii.eqb c "t" = false /\ is_space c = false).
  { intros zone ahead x Hz c s E. destruct (zone_head zone ahead x Hz) as (c' & s' & E' & Hc). rewrite E in E'. injection E' as <- <-.
    cbn in Hc. repeat (destruct Hc as [<-|Hc]; [repeat split; reflexivity|]). contradiction. }
  assert (SZ : forall zone ahead x, time_zone zone ahead -> skip_spaces (zone ++ x) = zone ++ x).
  { intros zone ahead x Hz. destruct (zone_head zone ahead x Hz) as (c & s & E & _).
    destruct (ZT zone ahead x Hz c s E) as (_ & _ & Sp). rewrite E. cbn [skip_spaces]. rewrite Sp. reflexivity. }
  assert (SC : forall clock hh mm ss x, clock_form clock hh mm ss -> skip_spaces (clock ++ x) = clock ++ x).
  { intros clock hh mm ss x Fc. destruct (clock_head clock hh mm ss x Fc) as (n & s & Hn & E). rewrite E. cbn [skip_spaces].
    rewrite digit_not_space by exact Hn. reflexivity. }
  assert (CT : forall clock hh mm ss x, clock_form clock hh mm ss -> forall c s, clock ++ x = String c s ->
     Ascii.eqb c "T" = false /\ Ascii.eqb c "t" = false).
  { intros clock hh mm ss x Fc c s E. destruct (clock_head clock hh mm ss x Fc) as (n & s' & Hn & E'). rewrite E in E'.
    injection E' as -> _. apply digit_not_T, Hn. }
  assert (DE : forall y m d, valid_date y m d -> 1 <= m <= 12 /\ 1 <= d <= 31).
  { intros y m d [A B]. pose proof (length_bounds y m). lia. }
  destruct Hf as [| |date y m d Fd V|date y m d gap zone ahead Fd V Hg Hz|date y m d gap clock hh mm ss Fd V [Hg Sg] Fc Vc
                  |date y m d gap clock hh mm ss gap' zone ahead Fd V [Hg Sg] Fc Vc Hg' Hz
                  |date y m d T clock hh mm ss zone ahead Fd V HT Fc Vc Hz].
  - apply (TimeTextProps.C68_unlimited b b2 Hb Hb2).
  - apply (TimeTextProps.C68_unlimited b b2 Hb Hb2).
  - destruct (DE y m d V) as [Bm Bd]. pose proof (date_head date y m d b2 Fd) as Hh.
    assert (En : day_ends date d b2) by (left; apply blank_no_digit, Hb2).
    assert (P : forall is, parse_items (fmt_ymd ++ is) parsed_init (date ++ b2) = parse_items is (ParsedTime y m d 0 0 0 0) b2)
      by (intros is; apply parse_date_form; assumption).
    rewrite (absl_none _ b (date ++ b2) Hb Hh); [|left; rewrite P; apply not_T; intros c s E; apply (BR b2 "" Hb2 ltac:(discriminate) c s); rewrite app_nil; exact E].
    rewrite (absl_none _ b (date ++ b2) Hb Hh); [|left; rewrite P; cbn [List.app parse_items parse_item]; rewrite skip_only by exact Hb2; reflexivity].
    rewrite (absl_none _ b (date ++ b2) Hb Hh); [|left; rewrite P; cbn [List.app parse_items parse_item]; rewrite skip_only by exact Hb2; reflexivity].
    rewrite (absl_none _ b (date ++ b2) Hb Hh); [|left; rewrite P; cbn [List.app parse_items parse_item]; rewrite skip_only by exact Hb2; reflexivity].
    change fmt_ymd with (fmt_ymd ++ [])%list.
    rewrite (absl_form _ b (date ++ b2) _ _ Hb Hh (P []) Hb2).
    rewrite (finish_form day) by (assumption || apply midnight). f_equal. lia.
  - destruct (DE y m d V) as [Bm Bd]. rewrite !app_assoc. pose proof (date_head date y m d (gap ++ zone ++ b2) Fd) as Hh.
    assert (En : day_ends date d (gap ++ zone ++ b2)) by (left; apply ND; [exact Hg|right; eapply ZD; exact Hz]).
    assert (P : forall is, parse_items (fmt_ymd ++ is) parsed_init (date ++ gap ++ zone ++ b2)
                = parse_items is (ParsedTime y m d 0 0 0 0) (gap ++ zone ++ b2))
      by (intros is; apply parse_date_form; assumption).
    assert (Sk : skip_spaces (gap ++ zone ++ b2) = zone ++ b2).
    { rewrite skip_blanks by exact Hg. eapply SZ. exact Hz. }
    rewrite (absl_none _ b _ Hb Hh); [|left; rewrite P; apply not_T; intros c s E; apply (BR gap (zone ++ b2) Hg) with (s := s);
        [intros c' s' E'; destruct (ZT zone ahead b2 Hz c' s' E') as (A & B & _); auto|exact E]].
    rewrite (absl_none _ b _ Hb Hh); [|left; rewrite P; cbn [List.app parse_items parse_item fmt_hms]; rewrite Sk, (TimeTextProps.zone_not_hour zone ahead Hz b2); reflexivity].
    rewrite (absl_none _ b _ Hb Hh); [|left; rewrite P; cbn [List.app parse_items parse_item fmt_hms]; rewrite Sk, (TimeTextProps.zone_not_hour zone ahead Hz b2); reflexivity].
    rewrite (absl_form _ b (date ++ gap ++ zone ++ b2) (ParsedTime y m d 0 0 0 ahead) b2 Hb Hh); [| |exact Hb2].
    2: { rewrite P. cbn [parse_items parse_item]. rewrite Sk, (parse_zone_blank zone ahead b2 Hz Hb2). reflexivity. }
    rewrite (finish_form day) by (assumption || apply midnight). f_equal. lia.
  - destruct (DE y m d V) as [Bm Bd]. rewrite !app_assoc. pose proof (date_head date y m d (gap ++ clock ++ b2) Fd) as Hh.
    assert (En : day_ends date d (gap ++ clock ++ b2)).
    { destruct Sg as [Sg|Sg]; [left; apply ND; [exact Hg|left; exact Sg]|right; exact Sg]. }
    assert (P : forall is, parse_items (fmt_ymd ++ is) parsed_init (date ++ gap ++ clock ++ b2)
                = parse_items is (ParsedTime y m d 0 0 0 0) (gap ++ clock ++ b2))
      by (intros is; apply parse_date_form; assumption).
    assert (Sk : skip_spaces (gap ++ clock ++ b2) = clock ++ b2).
    { rewrite skip_blanks by exact Hg. eapply SC. exact Fc. }
    assert (C : forall is, parse_items (fmt_hms ++ is) (ParsedTime y m d 0 0 0 0) (clock ++ b2)
                = parse_items is (ParsedTime y m d hh mm ss 0) b2).
    { intros is. rewrite (parse_clock_form is _ clock hh mm ss) by (try assumption; apply blank_no_digit, Hb2). reflexivity. }
    rewrite (absl_none _ b _ Hb Hh); [|left; rewrite P; apply not_T; intros c s E; apply (BR gap (clock ++ b2) Hg) with (s := s);
        [intros c' s' E'; apply (CT clock hh mm ss b2 Fc c' s' E')|exact E]].
    rewrite (absl_none _ b _ Hb Hh).
    2: { left. rewrite P. cbn [List.app]. change (FSpace :: fmt_hms ++ [FSpace; FOffset])%list with ([FSpace] ++ fmt_hms ++ [FSpace; FOffset])%list.
         cbn [List.app parse_items parse_item]. rewrite Sk. rewrite C. cbn [parse_items parse_item]. rewrite skip_only by exact Hb2. reflexivity. }
    rewrite (absl_form _ b _ (ParsedTime y m d hh mm ss 0) b2 Hb Hh); [| |exact Hb2].
    2: { rewrite P. cbn [List.app parse_items parse_item]. rewrite Sk. change (parse_items fmt_hms) with (parse_items (fmt_hms ++ [])%list).
         rewrite C. reflexivity. }
    rewrite (finish_form day) by assumption. f_equal. lia.
  - destruct (DE y m d V) as [Bm Bd]. rewrite !app_assoc. pose proof (date_head date y m d (gap ++ clock ++ gap' ++ zone ++ b2) Fd) as Hh.
    assert (En : day_ends date d (gap ++ clock ++ gap' ++ zone ++ b2)).
    { destruct Sg as [Sg|Sg]; [left; apply ND; [exact Hg|left; exact Sg]|right; exact Sg]. }
    assert (P : forall is, parse_items (fmt_ymd ++ is) parsed_init (date ++ gap ++ clock ++ gap' ++ zone ++ b2)
                = parse_items is (ParsedTime y m d 0 0 0 0) (gap ++ clock ++ gap' ++ zone ++ b2))
      by (intros is; apply parse_date_form; assumption).
    assert (Sk : skip_spaces (gap ++ clock ++ gap' ++ zone ++ b2) = clock ++ gap' ++ zone ++ b2).
    { rewrite skip_blanks by exact Hg. eapply SC. exact Fc. }
    assert (C : forall is, parse_items (fmt_hms ++ is) (ParsedTime y m d 0 0 0 0) (clock ++ gap' ++ zone ++ b2)
                = parse_items is (ParsedTime y m d hh mm ss 0) (gap' ++ zone ++ b2)).
    { intros is. rewrite (parse_clock_form is _ clock hh mm ss); [reflexivity|assumption|assumption|].
      apply ND; [exact Hg'|right; eapply ZD; exact Hz]. }
    rewrite (absl_none _ b _ Hb Hh); [|left; rewrite P; apply not_T; intros c s E; apply (BR gap (clock ++ gap' ++ zone ++ b2) Hg) with (s := s);
        [intros c' s' E'; apply (CT clock hh mm ss _ Fc c' s' E')|exact E]].
    rewrite (absl_form _ b _ (ParsedTime y m d hh mm ss ahead) b2 Hb Hh); [| |exact Hb2].
    2: { rewrite P. cbn [List.app]. change (FSpace :: fmt_hms ++ [FSpace; FOffset])%list with ([FSpace] ++ fmt_hms ++ [FSpace; FOffset])%list.
         cbn [List.app parse_items parse_item]. rewrite Sk. rewrite C. cbn [parse_items parse_item]. rewrite skip_blanks by exact Hg'.
         rewrite (SZ zone ahead b2 Hz). rewrite (parse_zone_blank zone ahead b2 Hz Hb2). reflexivity. }
    rewrite (finish_form day) by assumption. reflexivity.
  - destruct (DE y m d V) as [Bm Bd]. rewrite !app_assoc. pose proof (date_head date y m d (T ++ clock ++ zone ++ b2) Fd) as Hh.
    assert (En : day_ends date d (T ++ clock ++ zone ++ b2)) by (left; destruct HT as [-> | ->]; reflexivity).
    rewrite (absl_form _ b _ (ParsedTime y m d hh mm ss ahead) b2 Hb Hh); [| |exact Hb2].
    2: { rewrite (parse_date_form _ parsed_init date y m d _ Fd Bm Bd En).
         replace (parse_items _ _ (T ++ clock ++ zone ++ b2))
           with (parse_items (fmt_hms ++ [FOffset]) (ParsedTime y m d 0 0 0 0) (clock ++ zone ++ b2))
           by (destruct HT as [-> | ->]; reflexivity).
         rewrite (parse_clock_form _ _ clock hh mm ss) by (try assumption; eapply ZD; exact Hz).
         cbn [parse_items parse_item pt_year pt_month pt_day pt_offset]. rewrite (parse_zone_blank zone ahead b2 Hz Hb2). reflexivity. }
    rewrite (finish_form day) by assumption. reflexivity.
Qed.

Theorem C99_times : forall day, day_numbering day -> forall text t,
  ParseTime text = Some t <-> stands_for day text t.
Proof. intros day Hday text t. split; [apply sound, Hday|apply complete, Hday]. Qed.

(** Hence a text stands for at most one time, and any other text is refused. *)
Theorem C99_unambiguous : forall day, day_numbering day -> forall text t1 t2,
  stands_for day text t1 -> stands_for day text t2 -> t1 = t2.
Proof. intros day Hday text t1 t2 H1 H2. apply (complete day Hday) in H1, H2. congruence. Qed.

Theorem C99_refused : forall day, day_numbering day -> forall text,
  ParseTime text = None <-> forall t, ~ stands_for day text t.
Proof.
  intros day Hday text. split.
  - intros H t S. apply (complete day Hday) in S. congruence.
  - intros H. destruct (ParseTime text) as [t|] eqn:E; [|reflexivity]. elim (H t). apply (sound day Hday), E.
Qed.

(** Texts one would not expect to be times are; others are not. *)
Lemma C99_ex :
  ParseTime " 2017-1-9  4:5:6 -0130 " = Some (1483934706 + 5400)
  /\ ParseTime "2017-01-0916:00:00" = Some 1483977600
  /\ ParseTime "2017-01-9:00:00" = None
  /\ ParseTime "2017-01-1-05" = Some (1483228800 + 18000)
  /\ ParseTime "-0-01-01" = None /\ ParseTime "02017-01-01" = Some 1483228800
  /\ ParseTime "2017-01-01 +5" = None /\ ParseTime "2017-01-01T00:00:00" = None
  /\ ParseTime "2017-01-01 12:00" = None
  /\ exists day, day_numbering day.
Proof. repeat (split; [vm_compute; reflexivity|]). exists days_from_civil. apply days_numbering. Qed.
