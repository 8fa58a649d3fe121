(** C104, C105: CSV files as texts. *)
From Coq Require Import ZArith Reals String Ascii Bool Lia Lra.
From Coq Require Import List.
From Flocq Require Import Core BinarySingleNaN.
From Verif.Model Require Import Outcome Machine Types History Convert MachineIEEE TimeText Files Programs Scan.
From Verif.Spec Require Import SeriesSpec HistorySpec ReaderSpec ProtoSpec ProgramSpec ConsoleSpec CsvTextSpec.
From Verif.Proofs Require Import Base FloatLemmas ReaderProofs ScanProofs.
From Verif.Properties Require Import ReaderProps ProgramProps.
Import ListNotations.
Local Open Scope string_scope.

Lemma columns_ends {A} (says : string -> A -> Prop) xs s : columns says xs s -> ends s.
Proof. intros [s' H|b text x xs' s' _ _ _]; [exact H|]. left. reflexivity. Qed.

(** A text has one value and is read as one float; and every number that is not too large
    has a nearest float. *)
Lemma ends_nil : ends "". Proof. exact I. Qed.

Theorem C104_text_unique text (x y : f32) : written text x -> written text y -> x = y.
Proof.
  intros Hx Hy. pose (sc := decimal_scanner (Libm (fun x => x) (fun x => x) (fun x _ => x)) true).
  pose proof (reads_decimal sc (decimal_scanner_reads _ _) "" text x "" I Hx ends_nil) as E1.
  pose proof (reads_decimal sc (decimal_scanner_reads _ _) "" text y "" I Hy ends_nil) as E2.
  rewrite E1 in E2. injection E2 as ->. reflexivity.
Qed.

Theorem C104_every_number text minus n e :
  decimal_text text minus n e ->
  (Rabs (round radix2 (FLT_exp (-149) 24) ZnearestE (decimal_real minus n e)) < bpow radix2 128)%R ->
  exists x, writes text (decimal_real minus n e) x.
Proof.
  intros Hd H. exists (f32_of_decimal minus n e).
  destruct (scan_f_ok "" text minus n e "" I Hd ends_nil) as [_ Hn].
  destruct (f32_of_decimal_correct minus n e Hn H) as [C1 C2].
  exists minus, n, e. auto.
Qed.

(** No float is nearer. *)
Theorem C104_nearest r (x y : f32) : nearest r x -> is_finite y = true ->
  (Rabs (B2R x - r) <= Rabs (B2R y - r))%R.
Proof.
  intros [Fx Ex] Fy. rewrite Ex. apply (round_N_pt radix2 (FLT_exp (-149) 24) (fun n => negb (Z.even n)) r).
  apply generic_format_B2R.
Qed.

Section Reading.
  Context {lm : libm} {as_ : bool} (sc : @scanner (ieee lm as_)).
  Local Notation I := (ieee lm as_).
  Hypothesis Hsc : reads_numbers sc.

  Lemma columns_numbers xs s : columns written xs s -> comma_numbers sc (length xs) s = Some xs.
  Proof.
    intros H. induction H as [s H|b text x xs s Hb Hx Hs IH]; [reflexivity|].
    cbn [comma_numbers length append]. cbn [Ascii.eqb Bool.eqb].
    rewrite (reads_decimal sc Hsc b text x s Hb Hx (columns_ends _ _ _ Hs)). rewrite IH. reflexivity.
  Qed.
  Lemma csv_line_numbers t xs line : csv_line written t xs line -> line_numbers sc (length xs) line = Some (t, xs).
  Proof.
    intros [b text t' xs' s Hb Ht Hi Hs]. unfold line_numbers.
    rewrite (reads_integer sc Hsc b text t' s Hb Ht Hi (columns_ends _ _ _ Hs)).
    rewrite (columns_numbers _ _ Hs). reflexivity.
  Qed.

  Lemma price_lines lines (rows : list (@price_record I)) : Forall2 price_line lines rows ->
    map (line_numbers sc 2) lines = map Some (map (fun r => (pr_timestamp_sec r, [pr_price r; pr_volume r])) rows).
  Proof.
    intros H. induction H as [|line r lines rows H1 H2 IH]; [reflexivity|]. cbn [map].
    f_equal; [|exact IH]. exact (csv_line_numbers _ _ _ H1).
  Qed.
  Lemma ohlc_lines lines (rows : list (@ohlc_tick I)) : Forall2 ohlc_line lines rows ->
    map (line_numbers sc 5) lines
      = map Some (map (fun t => (timestamp_sec t, [open t; high t; low t; close t; volume t])) rows).
  Proof.
    intros H. induction H as [|line r lines rows H1 H2 IH]; [reflexivity|]. cbn [map].
    f_equal; [|exact IH]. exact (csv_line_numbers _ _ _ H1).
  Qed.

  (** Side lines: the commas become spaces. *)
  Lemma replace_app a b : replace_commas (a ++ b) = replace_commas a ++ replace_commas b.
  Proof. induction a as [|c a IH]; [reflexivity|]. cbn [append replace_commas]. f_equal. exact IH. Qed.
  Lemma replace_separators b : separators b -> blanks (replace_commas b).
  Proof.
    induction b as [|c b IH]; [trivial|]. intros [H1 H2]. cbn [replace_commas blanks]. split; [|auto].
    destruct (Ascii.eqb c ",") eqn:E; [left; reflexivity|]. destruct H1 as [->|H1]; [discriminate|exact H1].
  Qed.
  Lemma replace_signals xs s : signals_text xs s -> ends (replace_commas s).
  Proof.
    assert (B : forall b, separators b -> ends (replace_commas b)).
    { intros b H. apply replace_separators in H. destruct (replace_commas b); [exact Logic.I|]. right. apply H. }
    intros [s' H|b text x xs' s' H1 H2 _ _]; [auto|]. rewrite replace_app.
    destruct b as [|c b]; [congruence|]. apply B in H1. cbn [replace_commas append] in *. exact H1.
  Qed.

  Definition no_comma (s : string) : Prop := replace_commas s = s.
  Lemma no_comma_app a b : no_comma a -> no_comma b -> no_comma (a ++ b).
  Proof. unfold no_comma. intros H1 H2. rewrite replace_app, H1, H2. reflexivity. Qed.
  Lemma no_comma_digits w : forall n v, digits_from n w = Some v -> no_comma w.
  Proof.
    induction w as [|c w IH]; intros n v H; [reflexivity|]. pose proof (digits_from_head _ _ _ _ H) as Hc.
    cbn [digits_from] in H. destruct (_ && _)%bool; [|discriminate]. apply IH in H. unfold no_comma in *.
    cbn [replace_commas]. rewrite H. destruct (Ascii.eqb c ",") eqn:E; [|reflexivity].
    apply Ascii.eqb_eq in E. subst. unfold digit_char in Hc. cbn in Hc. lia.
  Qed.
  Lemma no_comma_sign sg m : sign_text sg m -> no_comma sg.
  Proof. intros []; reflexivity. Qed.
  Lemma no_comma_integer text t : integer_text text t -> no_comma text.
  Proof.
    intros [sg m d n Hs Hd]. apply digits_value_from in Hd as (Hd & _). apply no_comma_app; [eapply no_comma_sign, Hs|].
    eapply no_comma_digits, Hd.
  Qed.
  Lemma no_comma_exponent text e : exponent_text text e -> no_comma text.
  Proof.
    intros [|c text' e' Hc Ht]; [reflexivity|]. unfold no_comma. cbn [replace_commas].
    rewrite (no_comma_integer _ _ Ht). destruct Hc as [-> | ->]; reflexivity.
  Qed.
  Lemma no_comma_decimal text m n e : decimal_text text m n e -> no_comma text.
  Proof.
    intros [sg m' d n' ex e' Hs Hd He|sg m' bf af n' ex e' Hs Hd He]; apply digits_value_from in Hd as (Hd & _).
    - apply no_comma_app; [eapply no_comma_sign, Hs|]. apply no_comma_app; [eapply no_comma_digits, Hd|].
      eapply no_comma_exponent, He.
    - rewrite digits_from_app in Hd. destruct (digits_from 0 bf) eqn:E; [|discriminate].
      apply no_comma_app; [eapply no_comma_sign, Hs|]. apply no_comma_app; [eapply no_comma_digits, E|].
      apply no_comma_app; [reflexivity|]. apply no_comma_app; [eapply no_comma_digits, Hd|]. eapply no_comma_exponent, He.
  Qed.
  Lemma no_comma_written text x : written text x -> no_comma text.
  Proof. intros (r & m & n & e & Hd & _). eapply no_comma_decimal, Hd. Qed.

  Lemma signals_numbers xs s : signals_text xs s -> numbers sc (replace_commas s) xs.
  Proof.
    intros H. induction H as [s H|b text x xs s Hb Hne Hx Hs IH].
    - constructor. apply (reads_nothing sc Hsc), replace_separators, H.
    - rewrite !replace_app, (no_comma_written _ _ Hx).
      refine (numbers_more sc _ x _ xs _ IH). apply (reads_decimal sc Hsc); [apply replace_separators, Hb|exact Hx|].
      eapply replace_signals, Hs.
  Qed.
  Lemma signals_side_line line (r : @side_record I) : signals_line line r -> side_line sc line r.
  Proof.
    unfold signals_line. destruct r as [t xs]. cbn [sr_timestamp_sec sr_signal]. intros [b text t' xs' s Hb Ht Hi Hs].
    exists (replace_commas s). cbn [sr_timestamp_sec sr_signal]. rewrite !replace_app, (no_comma_integer _ _ Ht). split.
    - apply (reads_integer sc Hsc); auto; [apply replace_separators, Hb|eapply replace_signals, Hs].
    - apply signals_numbers, Hs.
  Qed.

  (** A file of decimal numbers is read as what it says: accepted if and only if the records
      in range are valid, and then exactly these records are returned. *)
  Theorem C104_price lines (rows : list (@price_record I)) start end_ h :
    Forall2 price_line lines rows ->
    (ReadPriceHistoryFromCsv sc lines start end_ = Some h <->
     h = rows_in_range pr_timestamp_sec start end_ rows /\ valid_history pr_timestamp_sec price_ok h).
  Proof.
    intros H. apply price_lines in H. rewrite read_price_csv_spec.
    rewrite (scanned_all sc (0, [fofZ 0; fofZ 0])%Z _ _ H), map_map.
    replace (map (fun x => price_row (pr_timestamp_sec x, [pr_price x; pr_volume x])) rows) with rows; [reflexivity|].
    rewrite <- (map_id rows) at 1. apply map_ext. intros [t p v]. reflexivity.
  Qed.
  Theorem C104_ohlc lines (rows : list (@ohlc_tick I)) start end_ h :
    Forall2 ohlc_line lines rows ->
    (ReadOhlcHistoryFromCsv sc lines start end_ = Some h <->
     h = rows_in_range timestamp_sec start end_ rows /\ valid_history timestamp_sec ohlc_ok h).
  Proof.
    intros H. apply ohlc_lines in H. rewrite read_ohlc_csv_spec.
    rewrite (scanned_all sc (0, [fofZ 0; fofZ 0; fofZ 0; fofZ 0; fofZ 0])%Z _ _ H), map_map.
    replace (map (fun x => ohlc_row _) rows) with rows; [reflexivity|].
    rewrite <- (map_id rows) at 1. apply map_ext. intros [t o hi lo c v]. reflexivity.
  Qed.
  Theorem C104_side lines (rows : list (@side_record I)) start end_ h :
    consuming sc -> Forall2 signals_line lines rows ->
    (ReadSideHistoryFromCsv sc lines start end_ = Some h <->
     h = rows_in_range sr_timestamp_sec start end_ rows /\ valid_side_history h).
  Proof.
    intros Hc H. rewrite (read_side_csv_spec sc Hc).
    assert (U : forall l, side_rows sc start end_ lines l <-> l = until (at_end sr_timestamp_sec start end_) rows).
    { assert (D : forall line (r r' : @side_record I), signals_line line r -> side_line sc line r' -> r' = r).
      { intros line r r' H1 H2. apply signals_side_line in H1. destruct H1 as (s & E1 & N1), H2 as (s' & E2 & N2).
        rewrite E1 in E2. injection E2 as T S. subst s'.
        assert (X : sr_signal r' = sr_signal r).
        { clear - N1 N2. revert N2. generalize (sr_signal r'). induction N1 as [s E|s x s' xs E N IH]; intros ys N2.
          - destruct N2; [reflexivity|congruence].
          - destruct N2 as [s0 E'|s0 x' s'' ys E' N2]; [congruence|]. rewrite E in E'. injection E' as <- <-. f_equal. auto. }
        destruct r, r'. cbn in *. congruence. }
      intros l. split.
      - intros R. revert rows H. induction R as [|line lines r L A|line lines r rs L A R IH]; intros rows H; inversion H; subst.
        + reflexivity.
        + cbn [until]. match goal with H1 : signals_line line ?y |- _ => rewrite (D _ _ _ H1 L) in A end. rewrite A. reflexivity.
        + cbn [until]. match goal with H1 : signals_line line ?y |- _ => rewrite (D _ _ _ H1 L) in * end. rewrite A. f_equal. auto.
      - intros ->. induction H as [|line r lines rows H1 H2 IH]; [constructor|]. cbn [until].
        destruct (at_end sr_timestamp_sec start end_ r) eqn:A.
        + eapply side_rows_stop; [apply signals_side_line, H1|exact A].
        + apply side_rows_next; [apply signals_side_line, H1|exact A|exact IH]. }
    split.
    - intros (rs & Hr & -> & Hv). apply U in Hr. subst rs. split; [reflexivity|exact Hv].
    - intros [-> Hv]. eexists. split; [apply U; reflexivity|]. split; [reflexivity|exact Hv].
  Qed.
End Reading.

(** ** C105 Rounding does no harm *)
Lemma format_max : generic_format radix2 (FLT_exp (-149) 24) (bpow radix2 128 - bpow radix2 104).
Proof.
  apply generic_format_FLT. exists (Float radix2 (2 ^ 24 - 1) 104).
  - unfold F2R. cbn [Fnum Fexp]. replace (IZR (2 ^ 24 - 1)) with (bpow radix2 24 - 1)%R.
    + rewrite Rmult_minus_distr_r, Rmult_1_l, <- bpow_plus. reflexivity.
    + rewrite minus_IZR. cbn. lra.
  - cbn. lia.
  - cbn. lia.
Qed.
Lemma bounded_round r : (Rabs r <= bpow radix2 128 - bpow radix2 104)%R ->
  (Rabs (round radix2 (FLT_exp (-149) 24) ZnearestE r) < bpow radix2 128)%R.
Proof.
  intros H. apply Rle_lt_trans with (bpow radix2 128 - bpow radix2 104)%R.
  - apply abs_round_le_generic; [apply FLT_exp_valid; reflexivity|apply valid_rnd_N|apply format_max|exact H].
  - pose proof (bpow_gt_0 radix2 104). lra.
Qed.

Lemma number_written text r : says_number text r -> exists x, writes text r x.
Proof.
  intros (minus & n & e & Hd & -> & Hb). apply C104_every_number; [exact Hd|]. apply bounded_round, Hb.
Qed.
Lemma columns_written rs s : columns says_number rs s ->
  exists xs, columns written xs s /\ Forall2 nearest rs xs.
Proof.
  intros H. induction H as [s H|b text r rs s Hb Hr Hs (xs & IH1 & IH2)].
  - exists []. split; [constructor; exact H|constructor].
  - destruct (number_written _ _ Hr) as (x & Hx). exists (x :: xs). split.
    + constructor; [exact Hb|exists r; exact Hx|exact IH1].
    + constructor; [|exact IH2]. destruct Hx as (m & n & e & _ & _ & Hn & _). exact Hn.
Qed.
Lemma line_written t rs line : csv_line says_number t rs line ->
  exists xs, csv_line written t xs line /\ Forall2 nearest rs xs.
Proof.
  intros [b text t' rs' s Hb Ht Hi Hs]. destruct (columns_written _ _ Hs) as (xs & H1 & H2).
  exists xs. split; [constructor; assumption|exact H2].
Qed.

Lemma nearest_le r r' x y : nearest r x -> nearest r' y -> (r <= r')%R -> Bltb y x = false.
Proof.
  intros [F E] [F' E'] H. rewrite Bltb_ext by (apply finite_num; assumption). rewrite !ext_finite by assumption.
  apply Rlt_bool_false. rewrite E, E'. apply round_le; [apply FLT_exp_valid; reflexivity|apply valid_rnd_N|exact H].
Qed.
Lemma nearest_pos r x : nearest r x -> (tiny <= r)%R -> Bleb x (f32_of_Z 0) = false.
Proof.
  intros [F E] H. rewrite ofZ_0. rewrite Bleb_ext by (try apply finite_num; try assumption; reflexivity).
  rewrite !ext_finite by (assumption || reflexivity). cbn [B2R]. apply Rle_bool_false. rewrite E.
  apply Rlt_le_trans with tiny; [apply bpow_gt_0|].
  apply round_ge_generic; [apply FLT_exp_valid; reflexivity|apply valid_rnd_N|apply (format_bpow (-149)); lia|exact H].
Qed.
Lemma nearest_nonneg r x : nearest r x -> (0 <= r)%R -> Bltb x (f32_of_Z 0) = false.
Proof.
  intros N H. rewrite ofZ_0. apply (nearest_le 0 r (B754_zero false) x); [|exact N|exact H].
  split; [reflexivity|]. cbn [B2R]. symmetry. apply rnd_0.
Qed.

Section Sensible.
  Context {lm : libm} {as_ : bool}.
  Local Notation I := (ieee lm as_).

  (** If the numbers, as written, form a sensible record, then the record that is read is
      valid: rounding to floats cannot spoil it. *)
  Lemma sensible_price_row line t : sensible_price line t ->
    exists r : @price_record I, price_line line r /\ pr_timestamp_sec r = t /\ (0 < t)%Z /\ price_ok r.
  Proof.
    intros (p & v & Hl & Ht & Hp & Hv). destruct (line_written _ _ _ Hl) as (xs & Hx & Hn).
    inversion Hn as [|? x ? xs1 N1 Hn1]; subst. inversion Hn1 as [|? y ? xs2 N2 Hn2]; subst. inversion Hn2; subst.
    exists (PriceRecord (M := I) t x y). split; [exact Hx|]. split; [reflexivity|]. split; [exact Ht|].
    split; [exact (nearest_pos _ _ N1 Hp)|exact (nearest_nonneg _ _ N2 Hv)].
  Qed.
  Lemma sensible_ohlc_row line t : sensible_ohlc line t ->
    exists r : @ohlc_tick I, ohlc_line line r /\ timestamp_sec r = t /\ (0 < t)%Z /\ ohlc_ok r.
  Proof.
    intros (o & h & l & c & v & Hl & Ht & Hlow & [Ho1 Ho2] & [Hc1 Hc2] & Hv). destruct (line_written _ _ _ Hl) as (xs & Hx & Hn).
    inversion Hn as [|? x1 ? xs1 N1 Hn1]; subst. inversion Hn1 as [|? x2 ? xs2 N2 Hn2]; subst.
    inversion Hn2 as [|? x3 ? xs3 N3 Hn3]; subst. inversion Hn3 as [|? x4 ? xs4 N4 Hn4]; subst.
    inversion Hn4 as [|? x5 ? xs5 N5 Hn5]; subst. inversion Hn5; subst.
    exists (OhlcTick (M := I) t x1 x2 x3 x4 x5). split; [exact Hx|]. split; [reflexivity|]. split; [exact Ht|].
    unfold ohlc_ok. cbn [open high low close volume].
    split; [apply (nearest_pos _ _ N1); lra|]. split; [apply (nearest_pos _ _ N2); lra|].
    split; [apply (nearest_pos _ _ N3); lra|]. split; [apply (nearest_pos _ _ N4); lra|].
    split; [apply (nearest_le _ _ _ _ N3 N1); lra|]. split; [apply (nearest_le _ _ _ _ N3 N2); lra|].
    split; [apply (nearest_le _ _ _ _ N3 N4); lra|]. split; [apply (nearest_le _ _ _ _ N1 N2); lra|].
    split; [apply (nearest_le _ _ _ _ N4 N2); lra|]. apply (nearest_nonneg _ _ N5); lra.
  Qed.

  Lemma sensible_rows {T} (line_of : string -> T -> Prop) (ts : T -> Z) (ok : T -> Prop) (sensible : string -> Z -> Prop) :
    (forall line t, sensible line t -> exists r, line_of line r /\ ts r = t /\ (0 < t)%Z /\ ok r) ->
    forall lines times, Forall2 sensible lines times ->
    exists rows, Forall2 line_of lines rows /\ map ts rows = times /\ forall r, In r rows -> (0 < ts r)%Z /\ ok r.
  Proof.
    intros H lines times F. induction F as [|line t lines times H1 F (rows & IH1 & IH2 & IH3)].
    - exists []. split; [constructor|]. split; [reflexivity|]. intros r [].
    - destruct (H _ _ H1) as (r & R1 & R2 & R3 & R4). exists (r :: rows). split; [constructor; assumption|].
      split; [cbn [map]; congruence|]. intros r' [<-|Hin]; [|auto]. split; [congruence|exact R4].
  Qed.
  Lemma ordered_times {T} (ts : T -> Z) rows times :
    map ts rows = times -> ordered (fun t => t) times -> ordered ts rows.
  Proof.
    intros <- H i j x y Hx Hy Hij. apply (H i j); [apply map_nth_error, Hx|apply map_nth_error, Hy|exact Hij].
  Qed.

  Theorem C105_price lines times :
    Forall2 sensible_price lines times -> ordered (fun t => t) times ->
    exists rows : list (@price_record I),
      Forall2 price_line lines rows /\ map pr_timestamp_sec rows = times
      /\ valid_history pr_timestamp_sec price_ok rows
      /\ forall sc start end_, reads_numbers sc ->
           ReadPriceHistoryFromCsv sc lines start end_
           = Some (filter (fun r => in_interval start end_ (pr_timestamp_sec r)) rows).
  Proof.
    intros F O. destruct (sensible_rows _ _ _ _ sensible_price_row lines times F) as (rows & H1 & H2 & H3).
    exists rows. split; [exact H1|]. split; [exact H2|].
    assert (V : valid_history pr_timestamp_sec price_ok rows) by (split; [eapply ordered_times; eassumption|exact H3]).
    split; [exact V|]. intros sc start end_ Hsc. apply C64_price_csv_exact; [apply price_lines; assumption|exact V].
  Qed.
  Theorem C105_ohlc lines times :
    Forall2 sensible_ohlc lines times -> ordered (fun t => t) times ->
    exists rows : list (@ohlc_tick I),
      Forall2 ohlc_line lines rows /\ map timestamp_sec rows = times
      /\ valid_history timestamp_sec ohlc_ok rows
      /\ forall sc start end_, reads_numbers sc ->
           ReadOhlcHistoryFromCsv sc lines start end_
           = Some (filter (fun r => in_interval start end_ (timestamp_sec r)) rows).
  Proof.
    intros F O. destruct (sensible_rows _ _ _ _ sensible_ohlc_row lines times F) as (rows & H1 & H2 & H3).
    exists rows. split; [exact H1|]. split; [exact H2|].
    assert (V : valid_history timestamp_sec ohlc_ok rows) by (split; [eapply ordered_times; eassumption|exact H3]).
    split; [exact V|]. intros sc start end_ Hsc. apply (C104_ohlc sc Hsc lines rows start end_ _ H1).
    rewrite <- C63_interval by apply V. split; [reflexivity|].
    split; [|intros r Hr; apply C63_in_interval in Hr as [Hr _]; apply V, Hr].
    rewrite C63_interval by apply V. apply EvalProofs.ordered_filter, V.
  Qed.

  (** convert on such files. *)
  Theorem C105_convert_ohlc env (sc : @scanner I) f file lines times start end_ :
    reads_numbers sc -> input_ohlc_csv f file -> convert_times f start end_ -> outputs_writable env f ->
    readable env file = Some (text_file lines) -> Forall no_line_feed lines ->
    Forall2 sensible_ohlc lines times -> ordered (fun t => t) times ->
    exists rows : list (@ohlc_tick I), Forall2 ohlc_line lines rows /\ map timestamp_sec rows = times /\
      let h := filter (fun t => in_interval start end_ (timestamp_sec t)) rows in
      convert_main env sc f = Done (ConvertResult EXIT_SUCCESS (output (cf_output_ohlc f) (tick_file h) h) []).
  Proof.
    intros Hsc Hi Ht Hw Hf Hl F O. destruct (C105_ohlc lines times F O) as (rows & H1 & H2 & V & _).
    exists rows. split; [exact H1|]. split; [exact H2|].
    apply (C70_ohlc_csv env sc f file lines rows start end_ Hi Ht Hw Hf Hl); [apply ohlc_lines; assumption|exact V].
  Qed.
  Theorem C105_convert_price env (sc : @scanner I) f file lines times start end_ :
    reads_numbers sc -> input_price_csv f file -> convert_times f start end_ -> outputs_writable env f ->
    readable env file = Some (text_file lines) -> Forall no_line_feed lines ->
    Forall2 sensible_price lines times -> ordered (fun t => t) times ->
    (0 < cf_sampling_rate_sec f)%Z -> (forall t, In t times -> cf_sampling_rate_sec f <= t)%Z ->
    (Z.of_nat (List.length lines) < 2 ^ 63)%Z ->
    exists (rows : list (@price_record I)) mask, Forall2 price_line lines rows /\ map pr_timestamp_sec rows = times /\
      let h := filter (fun r => in_interval start end_ (pr_timestamp_sec r)) rows in
      right_mask (d2f (machine := I) (cf_max_price_deviation_per_min f)) h mask /\
      convert_main env sc f = Done (ConvertResult EXIT_SUCCESS
        (output (cf_output_price f) (price_file h) h
         ++ output (cf_output_ohlc f) (tick_file (series (cf_sampling_rate_sec f) (map price_tick (select mask h)))) h)
        (map gap_line (GetPriceHistoryGaps h 0 0 (Z.to_nat (size_t_wrap (cf_top_n_gaps f)))))).
  Proof.
    intros Hsc Hi Ht Hw Hf Hl F O Hr Hrt Hlen. destruct (C105_price lines times F O) as (rows & H1 & H2 & V & _).
    exists rows.
    assert (L : length rows = length lines) by (clear - H1; induction H1; cbn [length]; congruence).
    destruct (C70_price_csv env sc f file lines rows start end_ Hi Ht Hw Hf Hl (price_lines sc Hsc lines rows H1) V Hr) as (mask & M1 & M2).
    - intros r Hin. apply Hrt. rewrite <- H2. apply in_map. exact Hin.
    - rewrite L. exact Hlen.
    - exists mask. split; [exact H1|]. split; [exact H2|]. split; [exact M1|exact M2].
  Qed.
End Sensible.

(** convert on a side file whose records are valid. *)
Theorem C104_convert_side {lm : libm} {as_ : bool} env (sc : @scanner (ieee lm as_)) f file lines (rows : list (@side_record (ieee lm as_))) start end_ :
  reads_numbers sc -> consuming sc -> input_side_csv f file -> convert_times f start end_ -> outputs_writable env f ->
  readable env file = Some (text_file lines) -> Forall no_line_feed lines ->
  Forall2 signals_line lines rows -> valid_side_history rows ->
  let h := filter (fun r => in_interval start end_ (sr_timestamp_sec r)) rows in
  convert_main env sc f = Done (ConvertResult EXIT_SUCCESS (output (cf_output_side f) (side_file h) h) []).
Proof.
  intros Hsc Hc Hi Ht Hw Hf Hl F V. apply (C70_side_csv env sc f file lines rows start end_ Hc Hi Ht Hw Hf Hl); [|exact V].
  clear - Hsc F. induction F as [|line r lines rows H1 F IH]; constructor; [apply signals_side_line; assumption|exact IH].
Qed.

(** ** A line of column names in front of a price or OHLC file: it is skipped if there is a
    start time, and refused if there is none. *)
Section Header.
  Context {M : machine} (sc : @scanner M).
  Theorem C104_header_price header lines start end_ :
    scan_int sc header = None ->
    ReadPriceHistoryFromCsv sc (header :: lines) start end_
    = if (0 <? start)%Z then ReadPriceHistoryFromCsv sc lines start end_
      else None.
  Proof.
    intros H. unfold ReadPriceHistoryFromCsv. cbn [price_csv_loop].
    unfold sscanf at 1 2 3 4 5. rewrite H. cbn [fst snd nth]. unfold row_action_of. rewrite Z.gtb_ltb.
    destruct (0 <? start)%Z eqn:E; cbn [andb]; [reflexivity|].
    destruct ((end_ >? 0) && (0 >=? end_))%Z eqn:E2; [|reflexivity].
    exfalso. apply andb_true_iff in E2 as [E2 E3]. rewrite Z.gtb_ltb in E2. rewrite Z.geb_leb in E3. apply Z.ltb_lt in E2. apply Z.leb_le in E3. lia.
  Qed.
  Theorem C104_header_ohlc header lines start end_ :
    scan_int sc header = None ->
    ReadOhlcHistoryFromCsv sc (header :: lines) start end_
    = if (0 <? start)%Z then ReadOhlcHistoryFromCsv sc lines start end_
      else None.
  Proof.
    intros H. unfold ReadOhlcHistoryFromCsv. cbn [ohlc_csv_loop].
    unfold sscanf at 1 2 3 4 5 6 7 8. rewrite H. cbn [fst snd nth]. unfold row_action_of. rewrite Z.gtb_ltb.
    destruct (0 <? start)%Z eqn:E; cbn [andb]; [reflexivity|].
    destruct ((end_ >? 0) && (0 >=? end_))%Z eqn:E2; [|reflexivity].
    exfalso. apply andb_true_iff in E2 as [E2 E3]. rewrite Z.gtb_ltb in E2. rewrite Z.geb_leb in E3. apply Z.ltb_lt in E2. apply Z.leb_le in E3. lia.
  Qed.
  Theorem C104_header_side header lines start end_ :
    scan_int sc (replace_commas header) = None ->
    ReadSideHistoryFromCsv sc (header :: lines) start end_ = None.
  Proof. intros H. unfold ReadSideHistoryFromCsv. cbn [side_csv_loop]. rewrite H. reflexivity. Qed.
End Header.

(** The model scanner, as scanf of the GNU library, reads an integer that does not fit in
    64 bits as the nearest one that does. *)
Lemma C104_out_of_range lm as_ b text t rest :
  blanks b -> integer_text text t -> ends rest ->
  (9223372036854775807 < t -> scan_int (decimal_scanner lm as_) (b ++ text ++ rest) = Some (9223372036854775807, rest))%Z
  /\ (t < -9223372036854775808 -> scan_int (decimal_scanner lm as_) (b ++ text ++ rest) = Some (-9223372036854775808, rest))%Z.
Proof.
  intros Hb Ht Hr. cbn [scan_int decimal_scanner]. unfold scan_lld. rewrite skip_blanks_app by exact Hb.
  rewrite (integer_skip _ _ _ Ht), (scan_signed_ok _ _ _ Ht (ends_no_digit _ Hr)). unfold clamp64.
  change (- 2 ^ 63)%Z with (-9223372036854775808)%Z. change (2 ^ 63 - 1)%Z with 9223372036854775807%Z.
  split; intros H; do 2 f_equal; lia.
Qed.

(** The model scanner always takes a character. *)
Lemma decimal_scanner_consuming lm as_ : consuming (decimal_scanner lm as_).
Proof. intros s x s' H. exact (scan_f_length s x s' H). Qed.

(** ** Examples *)
Section Examples.
  Let lm := Libm (fun x => x) (fun x => x) (fun x _ => x).
  Local Notation E := (ieee lm true).

  (** "0.1" is read as 13421773 * 2^-27, the float nearest to 1/10. *)
  Lemma C104_ex :
    option_map (fun xs => B2SF (fst xs)) (scan_float (decimal_scanner lm true) " 0.1,") = Some (SpecFloat.S754_finite false 13421773 (-27))
    /\ option_map (fun xs => (B2SF (fst xs), snd xs)) (scan_float (decimal_scanner lm true) "-12.5E+1,7")
       = Some (SpecFloat.S754_finite true 16384000 (-17), ",7")
    /\ scan_int (decimal_scanner lm true) "timestamp,price" = None
    /\ option_map (map (fun r : @price_record E => (pr_timestamp_sec r, B2SF (pr_price r : f32), B2SF (pr_volume r : f32))))
         (ReadPriceHistoryFromCsv (decimal_scanner lm true) ["time,price,volume"; "1483228800,970.5,.25"; "1483228801, 1e3,7."] 1 0)
       = Some [(1483228800%Z, SpecFloat.S754_finite false 15900672 (-14), SpecFloat.S754_finite false 8388608 (-25));
               (1483228801%Z, SpecFloat.S754_finite false 16384000 (-14), SpecFloat.S754_finite false 14680064 (-21))].
  Proof. split; [vm_compute; reflexivity|]. split; [vm_compute; reflexivity|]. split; vm_compute; reflexivity. Qed.

  Lemma C104_side_ex :
    option_map (map (fun r : @side_record E => (sr_timestamp_sec r, map (fun x : f32 => B2SF x) (sr_signal r))))
         (ReadSideHistoryFromCsv (decimal_scanner lm true) ["1,2,3"; " 2 5, 7 "] 0 0)
    = Some [(1%Z, [B2SF (f32_of_Z 2); B2SF (f32_of_Z 3)]); (2%Z, [B2SF (f32_of_Z 5); B2SF (f32_of_Z 7)])]
    /\ signals_line (lm := lm) (as_ := true) "1,2,3" (SideRecord (M := E) 1 [f32_of_Z 2; f32_of_Z 3]).
  Proof.
    split; [vm_compute; reflexivity|].
    assert (W : forall w n, digits_value w = Some n -> (Z.abs n <= 2 ^ 24)%Z -> written w (f32_of_Z n)).
    { intros w n H Hn. exists (IZR n), false, n, 0%Z. destruct (ofZ_finite n Hn) as [F V]. split; [|split; [|split]].
      - replace w with ("" ++ w ++ "") by (cbn [append]; clear; induction w; cbn [append]; congruence).
        apply whole_text; [constructor|exact H|constructor].
      - unfold decimal_real. cbn [signed powerRZ]. lra.
      - split; [exact F|]. rewrite V. rewrite <- V. symmetry. apply round_generic; [apply valid_rnd_N|]. apply generic_format_B2R.
      - apply digits_value_from in H as (_ & _ & H). unfold f32_of_Z.
        pose proof (binary_normalize_correct 24 128 _ _ mode_NE n 0 false) as C. cbv zeta in C.
        rewrite Rlt_bool_true in C.
        + destruct C as (_ & _ & ->). unfold F2R. cbn [Fnum Fexp bpow]. rewrite Rmult_1_r.
          destruct (Rcompare_spec (IZR n) 0) as [L|L|L]; try reflexivity. apply lt_IZR in L. lia.
        + replace (F2R {| Fnum := n; Fexp := 0 |}) with (B2R (f32_of_Z n)) by (rewrite V; unfold F2R; cbn; lra).
          rewrite round_generic; [apply abs_B2R_lt_emax|apply valid_rnd_N|apply generic_format_B2R]. }
    apply (SideCsvLine "" "1" 1 [f32_of_Z 2; f32_of_Z 3] ",2,3" Logic.I).
    - apply (IntegerText "" false "1" 1); [constructor|reflexivity].
    - split; reflexivity || lia.
    - apply (signals_more "," "2" (f32_of_Z 2) [f32_of_Z 3] ",3"); [split; [left; reflexivity|exact Logic.I]|discriminate|apply W; [reflexivity|lia]|].
      apply (signals_more "," "3" (f32_of_Z 3) [] ""); [split; [left; reflexivity|exact Logic.I]|discriminate|apply W; [reflexivity|lia]|].
      constructor. exact Logic.I.
  Qed.

  (** White space in front of a comma is not harmless: the rest of the line is ignored and the
      volume of the line before is taken again, without an error. *)
  Theorem C104_space_before_comma_refuted :
    option_map (map (fun r : @price_record E => (pr_timestamp_sec r, B2SF (pr_price r : f32), B2SF (pr_volume r : f32))))
         (ReadPriceHistoryFromCsv (decimal_scanner lm true) ["1,2,3"; "2,5 ,7"] 0 0)
    = Some [(1%Z, B2SF (f32_of_Z 2), B2SF (f32_of_Z 3)); (2%Z, B2SF (f32_of_Z 5), B2SF (f32_of_Z 3))].
  Proof. vm_compute. reflexivity. Qed.

  Lemma says_whole w n : digits_value w = Some n -> (IZR n <= 1000000)%R -> says_number w (IZR n).
  Proof.
    intros H Hn. exists false, n, 0%Z. split; [|split].
    - replace w with ("" ++ w ++ "") by (cbn [append]; clear; induction w; cbn [append]; congruence).
      apply whole_text; [constructor|exact H|constructor].
    - unfold decimal_real. cbn [signed powerRZ]. lra.
    - apply digits_value_from in H as (_ & _ & H). rewrite Rabs_pos_eq by (apply IZR_le, H).
      apply Rle_trans with (1 := Hn). replace 128%Z with (104 + 24)%Z by reflexivity. rewrite bpow_plus.
      assert (1 <= bpow radix2 104)%R by (apply (bpow_le radix2 0 104); lia).
      replace (bpow radix2 24) with 16777216%R by (cbn; lra). nra.
  Qed.
  Lemma tiny_le_1 : (tiny <= 1)%R.
  Proof. apply (bpow_le radix2 (-149) 0). lia. Qed.

  (** A sensible price line, and a sensible OHLC line ending in a carriage return. *)
  Lemma C105_ex :
    sensible_price "12,100,5" 12
    /\ sensible_ohlc ("60, 7,9,6,8,0" ++ String (ascii_of_nat 13) "") 60.
  Proof.
    pose proof tiny_le_1 as T. split.
    - exists 100%R, 5%R. split; [|split; [lia|split; lra]].
      apply (CsvLine says_number "" "12" 12 [100; 5]%R ",100,5" Logic.I).
      + apply (IntegerText "" false "12" 12); [constructor|reflexivity].
      + split; reflexivity || lia.
      + apply (column_more says_number "" "100" 100%R [5%R] ",5" Logic.I); [apply says_whole; [reflexivity|lra]|].
        apply (column_more says_number "" "5" 5%R [] "" Logic.I); [apply says_whole; [reflexivity|lra]|]. constructor. exact Logic.I.
    - exists 7%R, 9%R, 6%R, 8%R, 0%R. split; [|split; [lia|repeat split; lra]].
      apply (CsvLine says_number "" "60" 60 [7; 9; 6; 8; 0]%R (", 7,9,6,8,0" ++ String (ascii_of_nat 13) "") Logic.I).
      + apply (IntegerText "" false "60" 60); [constructor|reflexivity].
      + split; reflexivity || lia.
      + apply (column_more says_number " " "7" 7%R [9; 6; 8; 0]%R (",9,6,8,0" ++ String (ascii_of_nat 13) "")); [split; [left; reflexivity|exact Logic.I]|apply says_whole; [reflexivity|lra]|].
        apply (column_more says_number "" "9" 9%R [6; 8; 0]%R (",6,8,0" ++ String (ascii_of_nat 13) "") Logic.I); [apply says_whole; [reflexivity|lra]|].
        apply (column_more says_number "" "6" 6%R [8; 0]%R (",8,0" ++ String (ascii_of_nat 13) "") Logic.I); [apply says_whole; [reflexivity|lra]|].
        apply (column_more says_number "" "8" 8%R [0]%R (",0" ++ String (ascii_of_nat 13) "") Logic.I); [apply says_whole; [reflexivity|lra]|].
        apply (column_more says_number "" "0" 0%R [] (String (ascii_of_nat 13) "") Logic.I); [apply says_whole; [reflexivity|lra]|].
        constructor. right. right. cbn. lia.
  Qed.

  (** The converse does not hold: rounding can hide a contradiction (here low > high). *)
  Theorem C105_contradiction_accepted_refuted :
    option_map (map (fun t : @ohlc_tick E => (timestamp_sec t, B2SF (high t : f32), B2SF (low t : f32))))
      (ReadOhlcHistoryFromCsv (decimal_scanner lm true) ["60,100000000,100000000,100000001,100000000,1"] 0 0)
    = Some [(60%Z, SpecFloat.S754_finite false 12500000 3, SpecFloat.S754_finite false 12500000 3)].
  Proof. vm_compute. reflexivity. Qed.
End Examples.
