(** C123: the gaps that convert prints. *)
From Coq Require Import ZArith String Ascii Bool Lia.
From Coq Require Import List Permutation.
From Verif.Model Require Import Outcome Machine Types Account History SideInput TimeUtil Eval
  Traders CsvLogger Proto Convert TimeText MachineIEEE Files Scan Programs.
From Verif.Spec Require Import SeriesSpec HistorySpec ReaderSpec ProtoSpec ProgramSpec TimeSpec TimeTextSpec LogSpec GapListSpec CsvTextSpec.
From Verif.Proofs Require Import Base ProtoProofs ReaderProofs SeriesProofs ConvertProofs TimeProofs ProgramProofs.
From Verif.Proofs Require LogProofs EvalProofs.
From Verif.Properties Require Import ReaderProps HistoryProps TimeProps TimeTextProps LogProps ProgramProps CsvTextProps.
Import ListNotations.
Local Open Scope Z_scope.

Lemma format_utc t : utc_text t (FormatTimeUTC t).
Proof.
  intros day Hd. destruct (to_civil t) as (y & m & d & s & H & _). exists y, m, d, s.
  assert (A : at_civil day t y m d s) by (apply (at_civil_any day Hd); exact H).
  split; [exact A|]. exact (C68_printed day Hd t y m d s A).
Qed.

Lemma format_duration n : 0 <= n -> duration_text n (DurationToString n).
Proof.
  intros Hd. unfold DurationToString, duration_parts.
  rewrite !Z.quot_div_nonneg by lia.
  rewrite !Z.rem_mod_nonneg by (try lia; apply Z.div_pos; lia).
  pose proof (Z.mod_pos_bound (n / 60) 60 ltac:(lia)) as Hm.
  pose proof (Z.mod_pos_bound n 60 ltac:(lia)) as Hs.
  destruct (LogProofs.two_digits _ Hm) as (_ & M2 & M3). destruct (LogProofs.two_digits _ Hs) as (_ & S2 & S3).
  exists (n / 3600), ((n / 60) mod 60), (n mod 60), (fmt_d (n / 3600)), (fmt_02d ((n / 60) mod 60)), (fmt_02d (n mod 60)).
  split; [reflexivity|]. split; [apply LogProofs.number_fmt_d|].
  do 4 (split; [assumption|]). split; [apply Z.div_pos; lia|]. split; [exact Hm|]. split; [exact Hs|].
  replace 3600 with (60 * 60) by reflexivity. rewrite <- Z.div_div by lia.
  pose proof (Z.div_mod n 60 ltac:(lia)). pose proof (Z.div_mod (n / 60) 60 ltac:(lia)). lia.
Qed.

(** Every printed line says what the gap is. *)
Theorem C123_line g : fst g <= snd g -> says_gap (gap_line g) g.
Proof.
  intros H. exists (FormatTimeUTC (fst g)), (FormatTimeUTC (snd g)), (DurationToString (snd g - fst g)).
  split; [apply format_utc|]. split; [apply format_utc|]. split; [apply format_duration; lia|].
  reflexivity.
Qed.

Lemma ordered_consecutive ts : ordered (fun t : Z => t) ts -> Forall (fun g => fst g <= snd g) (consecutive ts).
Proof.
  induction ts as [|a ts IH]; intros O; [constructor|]. destruct ts as [|b ts]; [constructor|]. cbn [consecutive]. constructor.
  - exact (O 0%nat 1%nat a b eq_refl eq_refl ltac:(lia)).
  - apply IH. intros i j x y Hi Hj L. apply (O (S i) (S j) x y Hi Hj). lia.
Qed.

Section List_.
  Context {lm : libm} {as_ : bool}.
  Local Notation I := (ieee lm as_).

  (** The printed list is the list of the longest gaps. *)
  Theorem C123_listing (h : list (@price_record I)) n :
    ordered pr_timestamp_sec h -> - 2 ^ 31 <= n < 2 ^ 31 -> Z.of_nat (List.length h) < 2 ^ 63 ->
    lists_gaps n (map pr_timestamp_sec h) (PrintPriceHistoryGaps h n).
  Proof.
    intros O Hn Hl. unfold PrintPriceHistoryGaps.
    assert (OC : ordered (fun t : Z => t) (map pr_timestamp_sec h)).
    { intros i j x y Hi Hj L. rewrite nth_error_map in Hi, Hj.
      destruct (nth_error h i) as [r|] eqn:Ei; [|discriminate]. destruct (nth_error h j) as [s|] eqn:Ej; [|discriminate].
      injection Hi as <-. injection Hj as <-. exact (O i j r s Ei Ej L). }
    assert (AG : all_gaps (map pr_timestamp_sec h) 0 0 = consecutive (map pr_timestamp_sec h)).
    { destruct h as [|r h]; [reflexivity|]. cbn [map all_gaps]. change (0 <? 0) with false. cbn [app].
      apply app_nil_r. }
    assert (CL : forall ts, (List.length (consecutive ts) <= List.length ts)%nat).
    { induction ts as [|a ts IH]; [reflexivity|]. destruct ts as [|b ts]; [cbn; lia|]. cbn [consecutive List.length] in *. lia. }
    specialize (CL (map pr_timestamp_sec h)). rewrite map_length in CL.
    destruct (Z.eq_dec n 0) as [->|N0].
    { change (Z.to_nat (size_t_wrap 0)) with 0%nat. rewrite C37_none_asked by lia.
      exists [], (consecutive (map pr_timestamp_sec h)). split; [apply Permutation_refl|].
      split; [reflexivity|]. split; [intros i j g k Hg; destruct i; discriminate Hg|]. split; [intros g k []|constructor]. }
    set (k := Z.to_nat (size_t_wrap n)).
    assert (W : 0 < size_t_wrap n /\ (n < 0 -> 2 ^ 63 <= size_t_wrap n) /\ (0 < n -> size_t_wrap n = n)).
    { unfold size_t_wrap. split; [|split].
      - pose proof (Z.mod_pos_bound n (2 ^ 64) ltac:(lia)). assert (n mod 2 ^ 64 <> 0); [|lia].
        intros E. apply Z.mod_divide in E as [q E]; lia.
      - intros L. replace (n mod 2 ^ 64) with (n + 2 ^ 64); [lia|]. apply (Z.mod_unique_pos n (2 ^ 64) (-1)); lia.
      - intros L. apply Z.mod_small. lia. }
    destruct W as (W1 & W2 & W3).
    destruct (C37_gaps h 0 0 k ltac:(unfold k; lia)) as (rest & P & L & C & Pf). rewrite AG in P, L.
    exists (GetPriceHistoryGaps h 0 0 k), rest. split; [exact P|]. split.
    { etransitivity; [exact L|]. unfold listed. destruct (Z.ltb_spec n 0) as [B|B].
      - apply Nat.min_r. unfold k. specialize (W2 B). lia.
      - unfold k. rewrite W3 by lia. reflexivity. }
    split; [exact C|]. split; [exact Pf|].
    assert (F : Forall (fun g => fst g <= snd g) (GetPriceHistoryGaps h 0 0 k)).
    { apply Forall_forall. intros g Hg. pose proof (ordered_consecutive _ OC) as FC. rewrite Forall_forall in FC. apply FC.
      eapply Permutation_in; [exact P|]. apply in_or_app. left. exact Hg. }
    clear - F. induction F as [|g gs Hg F IH]; cbn [map]; constructor; [exact (C123_line g Hg)|exact IH].
  Qed.

  (** The converter run on a CSV file of prices lists the gaps of the records of the period. *)
  Theorem C123_csv env (sc : @scanner I) f file lines times start end_ :
    reads_numbers sc -> input_price_csv f file -> convert_times f start end_ -> outputs_writable env f ->
    readable env file = Some (text_file lines) -> Forall no_line_feed lines ->
    Forall2 sensible_price lines times -> ordered (fun t => t) times ->
    (0 < cf_sampling_rate_sec f)%Z -> (forall t, In t times -> cf_sampling_rate_sec f <= t)%Z ->
    (Z.of_nat (List.length lines) < 2 ^ 63)%Z -> - 2 ^ 31 <= cf_top_n_gaps f < 2 ^ 31 ->
    exists r, convert_main env sc f = Done r /\ c_exit r = EXIT_SUCCESS /\
      lists_gaps (cf_top_n_gaps f) (filter (in_interval start end_) times) (c_gaps r).
  Proof.
    intros Hsc Hi Ht Hw Hf Hl F O Hr Hrt Hlen Hn.
    destruct (C105_convert_price env sc f file lines times start end_ Hsc Hi Ht Hw Hf Hl F O Hr Hrt Hlen) as (rows & mask & H1 & H2 & _ & E).
    cbv zeta in E. eexists. split; [exact E|]. split; [reflexivity|]. cbn [c_gaps].
    set (h := filter _ rows).
    assert (Em : filter (in_interval start end_) times = map pr_timestamp_sec h).
    { rewrite <- H2. unfold h. clear. induction rows as [|r rows IH]; [reflexivity|]. cbn [map filter].
      destruct (in_interval start end_ (pr_timestamp_sec r)); cbn [map]; rewrite IH; reflexivity. }
    rewrite Em. apply (C123_listing h); auto.
    - unfold h. apply EvalProofs.ordered_filter. apply (ordered_map_iff pr_timestamp_sec (fun t => t)). rewrite H2. exact O.
    - assert (L : List.length rows = List.length lines) by (clear - H1; induction H1; cbn [List.length]; congruence).
      assert (L2 : (List.length h <= List.length rows)%nat).
      { unfold h. clear. induction rows as [|r rows IH]; [reflexivity|]. cbn [filter]. destruct (in_interval _ _ _); cbn [List.length]; lia. }
      lia.
  Qed.

  (** Whatever the input: the printed gaps are those of the price file that is written. *)
  Theorem C123_written env (sc : @scanner I) f r :
    real_files env -> int64_scanner sc -> convert_main env sc f = Done r ->
    forall b, In (cf_output_price f, b) (c_files r) ->
    cf_output_price f <> cf_output_ohlc f -> cf_output_price f <> cf_output_side f ->
    - 2 ^ 31 <= cf_top_n_gaps f < 2 ^ 31 ->
    exists h : list (@price_record I), holds_prices b h /\ h <> [] /\
      lists_gaps (cf_top_n_gaps f) (map pr_timestamp_sec h) (c_gaps r).
  Proof.
    intros Hf Hs H b Hin N1 N2 Hn. rewrite convert_main_cases in H.
    destruct (ParseTime (cf_start_time f)) as [start|]; [|injection H as <-; destruct Hin].
    destruct (ParseTime (cf_end_time f)) as [end_|]; [|injection H as <-; destruct Hin]. cbv zeta in H.
    destruct (check_input_flags (cf_input f)); [|injection H as <-; destruct Hin].
    destruct (is_price_input (cf_input f)); [|destruct (is_ohlc_input (cf_input f))].
    - apply bind_done in H as ([price|] & HR & H); [|injection H as <-; destruct Hin].
      apply bind_done in H as (ohlc & Ho & H). injection H as <-.
      pose proof (price_input_ok env sc _ _ _ _ Hf Hs HR) as Hpi.
      pose proof (price_input_length env sc _ _ _ _ Hf HR) as Hlen.
      assert (G : c_gaps (finish env f price ohlc [] (printed_gaps (lm := lm) (as_ := as_) f price)) = printed_gaps (lm := lm) (as_ := as_) f price).
      { unfold finish. repeat match goal with |- context [match ?x with _ => _ end] => destruct x end; reflexivity. }
      rewrite G. clear G.
      apply finish_written in Hin as [Hin|[Hin|[]]].
      + apply in_written in Hin as (N & _ & N3 & ->). exists (map price_of_msg price).
        split; [exists price; split; [apply (price_history_read start end_ price Hpi)|reflexivity]|].
        split; [destruct price; [contradiction|discriminate]|].
        unfold printed_gaps. destruct price as [|m price]; [contradiction|].
        apply (C123_listing (map price_of_msg (m :: price))); [apply Hpi|exact Hn|]. rewrite map_length. exact Hlen.
      + apply in_written in Hin as (_ & E & _). contradiction.
    - apply bind_done in H as ([ohlc|] & _ & H); [|injection H as <-; destruct Hin]. injection H as <-.
      apply finish_written in Hin as [Hin|[Hin|Hin]]; apply in_written in Hin as (N & E & _); contradiction.
    - destruct (ReadSideHistoryFromCsvFile env sc _ start end_) as [side|]; [|injection H as <-; destruct Hin].
      injection H as <-. apply finish_written in Hin as [Hin|[Hin|Hin]]; apply in_written in Hin as (N & E & _); contradiction.
  Qed.
End List_.

(** ** An example *)
Section Example_.
  Let lm := Libm (fun x => x) (fun x => x) (fun x _ => x).
  Local Notation E := (ieee lm true).
  Let record t : @price_record E := PriceRecord (M := E) t (f32_of_Z 100) (f32_of_Z 1).
  Let h := [record 1483228800; record 1483228860; record 1483315270; record 1483315270; record 1483315330].

  (** Of the gaps of 60, 86410, 0 and 60 seconds the two longest are listed, in order of time;
      the earlier one of the two gaps of 60 seconds wins. With -1 all four are listed. *)
  Lemma C123_ex :
    ordered pr_timestamp_sec h /\
    PrintPriceHistoryGaps h 2 =
      ["1483228800 [2017-01-01 00:00:00] - 1483228860 [2017-01-01 00:01:00]: 0:01:00";
       "1483228860 [2017-01-01 00:01:00] - 1483315270 [2017-01-02 00:01:10]: 24:00:10"]%string /\
    List.length (PrintPriceHistoryGaps h (-1)) = 4%nat /\ PrintPriceHistoryGaps h 0 = [].
  Proof.
    split; [|split; [|split]].
    - intros i j a b Hi Hj L.
      repeat (destruct i as [|i]; [injection Hi as <-; repeat (destruct j as [|j]; [try lia; injection Hj as <-; cbn; lia|]); destruct j; discriminate Hj|]).
      destruct i; discriminate Hi.
    - vm_compute. reflexivity.
    - unfold PrintPriceHistoryGaps. rewrite map_length.
      destruct (C37_gaps h 0 0 (Z.to_nat (size_t_wrap (-1))) ltac:(unfold size_t_wrap; cbn; lia)) as (_ & _ & L & _).
      etransitivity; [exact L|]. apply Nat.min_r. cbn [map all_gaps consecutive h record pr_timestamp_sec].
      change (size_t_wrap (-1)) with 18446744073709551615. cbn. lia.
    - vm_compute. reflexivity.
  Qed.
End Example_.
Print Assumptions C123_listing.
Print Assumptions C123_csv.
Print Assumptions C123_written.
