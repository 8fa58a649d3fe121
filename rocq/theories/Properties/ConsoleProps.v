(** C102, C103: the console of convert and of trader. *)
From Coq Require Import ZArith Bool String Ascii Lia.
From Coq Require Import List.
From Flocq Require Import Core BinarySingleNaN.
From Verif.Model Require Import Outcome Machine Types Account History SideInput TimeUtil Eval Traders CsvLogger Proto Convert TimeText MachineIEEE Files Programs Console.
From Verif.Spec Require Import LogSpec SeriesSpec ReaderSpec ProgramSpec ConsoleSpec ConsoleMainSpec.
From Verif.Proofs Require Import Base LogProofs ReaderProofs ProtoProofs ProgramProofs FixedProofs ReportProofs ConsoleProofs.
Import ListNotations.
Local Open Scope string_scope.
Local Open Scope list_scope.
Local Open Scope Z_scope.
Local Infix "+++" := String.append (right associativity, at level 60).

Section Convert.
  Context {lm : libm} {as_ : bool} (env : environment) (sc : @scanner (ieee lm as_))
          (seconds : nat -> string) (dbg : forall T : message_type, msg T -> string).
  Local Notation I := (ieee lm as_).

  (** convert with its console lines ends as convert does, with the same exit code and the
      same files; it prints the gaps; it complains, in its last line and only there, exactly
      when it fails, and about what went wrong; and it announces every file it writes with
      the number of its records. *)
  Theorem C102_convert_console f :
    same_end (fun r '(x, files, log) =>
        x = c_exit r /\ files = c_files r /\ prints_gaps log (cf_top_n_gaps f) (c_gaps r)
        /\ match x with
           | EXIT_SUCCESS => untroubled log
           | EXIT_FAILURE => exists why, ends_with_error log why /\ convert_reason env sc seconds dbg f why
           end
        /\ forall file b, In (file, b) files -> announced log file b)
      (convert_main env sc f) (convert_console env sc seconds dbg f).
  Proof.
    change (same_end (right_end env sc seconds dbg f) (convert_main env sc f) (convert_console env sc seconds dbg f)).
    assert (F : forall log why, untroubled log -> convert_reason env sc seconds dbg f why ->
      same_end (right_end env sc seconds dbg f) (Done (ConvertResult EXIT_FAILURE [] [])) (Done (EXIT_FAILURE, [], log ++ [Error why]))).
    { intros log why U R. apply fails; [exact U|left; reflexivity|exact R|intros file b []]. }
    unfold convert_main, convert_console.
    destruct (ParseTime (cf_start_time f)) as [start|] eqn:Es.
    2:{ apply (F [] _ untroubled_nil). apply bad_start_time. exact Es. }
    destruct (ParseTime (cf_end_time f)) as [end_|] eqn:Ee.
    2:{ apply (F [] _ untroubled_nil). apply bad_end_time. exact Ee. }
    cbv zeta. pose proof (inputs_cases env sc seconds dbg f) as IC. cbv zeta in IC.
    destruct (input_flags_error (cf_input f)) as [why|].
    { destruct IC as [-> R]. cbn [negb]. apply F; [quiet|exact R]. }
    destruct IC as [-> (file & Ei & IC)]. cbn [negb].
    destruct IC as [(H1 & H2 & H3 & H4 & H5 & ->)|[(H1 & H2 & H3 & H4 & H5 & ->)|[(H1 & H2 & H3 & H4 & H5 & ->)|
      [(H1 & H2 & H3 & H4 & H5 & ->)|(H1 & H2 & H3 & H4 & H5 & ->)]]]];
      rewrite ?H1, ?H2, ?H3, ?H4, ?H5.
    - (* price CSV *)
      cbn [bind]. unfold ReadPriceHistoryFromCsvFile.
      destruct (csv_forget env seconds "price" "records" (ReportPriceCsv sc) (@msg_of_price lm as_) 0 (price_csv (cf_input f)) start end_) as [U K].
      destruct (ReadCsvFile _ _ "price" _ _ _ _ _ _ _) as [l r]. cbn [fst snd] in U, K.
      unfold read_lines in *. destruct (readable env (price_csv (cf_input f))) as [b|] eqn:Eb; cbn [option_map] in *.
      2:{ subst r. apply F; [quiet|]. apply closed_csv; [exact Ei|left; reflexivity|exact Eb]. }
      rewrite <- price_report_forget. destruct (ReportPriceCsv sc (getlines (string_of_bytes b)) start end_) as [h|why] eqn:Er; subst r; cbn [forget option_map].
      + cbn [bind]. rewrite !app_nil_r. refine (rest_same env sc seconds dbg f (map (@msg_of_price lm as_) h) [] [] _ _). quiet.
      + apply F; [quiet|]. eapply bad_price_csv; eauto.
    - (* price proto *)
      eapply same_bind; [apply (proto_same env seconds dbg PriceRecordType _ (@price_validator lm as_) _ 0%nat)|].
      { intros m. unfold price_validator, price_complaint, valid_price_volume.
        destruct (fleb _ _), (fltb _ _); reflexivity. }
      intros h [l r] [U K] _ E. cbn [fst snd] in U, K. subst h. destruct r as [h|why]; cbn [forget].
      + cbn [bind]. rewrite !app_nil_r. refine (rest_same env sc seconds dbg f h [] [] _ _). quiet.
      + apply F; [quiet|]. destruct (readable env (price_proto (cf_input f))) as [b|] eqn:Eb.
        * eapply bad_price_proto; eauto.
        * unfold ReadProtoFile in E. rewrite Eb in E. injection E as _ <-.
          apply closed_proto; [exact Ei|left; reflexivity|exact Eb].
    - (* OHLC CSV *)
      cbn [bind]. unfold ReadOhlcHistoryFromCsvFile.
      destruct (csv_forget env seconds "OHLC" "OHLC ticks" (ReportOhlcCsv sc) (@msg_of_tick lm as_) 0 (ohlc_csv (cf_input f)) start end_) as [U K].
      destruct (ReadCsvFile _ _ "OHLC" _ _ _ _ _ _ _) as [l r]. cbn [fst snd] in U, K.
      unfold read_lines in *. destruct (readable env (ohlc_csv (cf_input f))) as [b|] eqn:Eb; cbn [option_map] in *.
      2:{ subst r. apply F; [quiet|]. apply closed_csv; [exact Ei|right; left; reflexivity|exact Eb]. }
      rewrite <- ohlc_report_forget. destruct (ReportOhlcCsv sc (getlines (string_of_bytes b)) start end_) as [h|why] eqn:Er; subst r; cbn [forget option_map].
      + rewrite app_nil_r. refine (rest_same env sc seconds dbg f [] (map (@msg_of_tick lm as_) h) [] _ _). quiet.
      + apply F; [quiet|]. eapply bad_ohlc_csv; eauto.
    - (* OHLC proto *)
      cbn [bind].
      eapply same_bind; [apply (proto_same env seconds dbg OhlcTickType _ (@tick_validator lm as_) _ 0%nat)|].
      { intros m. unfold tick_validator, ohlc_complaint, valid_ohlc.
        destruct (_ || fltb _ _), (fltb _ _); reflexivity. }
      intros h [l r] [U K] _ E. cbn [fst snd] in U, K. subst h. destruct r as [h|why]; cbn [forget].
      + rewrite app_nil_r. refine (rest_same env sc seconds dbg f [] h [] _ _). quiet.
      + apply F; [quiet|]. destruct (readable env (ohlc_proto (cf_input f))) as [b|] eqn:Eb.
        * eapply bad_ohlc_proto; eauto.
        * unfold ReadProtoFile in E. rewrite Eb in E. injection E as _ <-.
          apply closed_proto; [exact Ei|right; left; reflexivity|exact Eb].
    - (* side CSV *)
      cbn [bind]. unfold ReadSideHistoryFromCsvFile.
      destruct (csv_forget env seconds "side" "records" (ReportSideCsv sc) (@msg_of_side lm as_) 0 (side_csv (cf_input f)) start end_) as [U K].
      destruct (ReadCsvFile _ _ "side" _ _ _ _ _ _ _) as [l r]. cbn [fst snd] in U, K.
      unfold read_lines in *. destruct (readable env (side_csv (cf_input f))) as [b|] eqn:Eb; cbn [option_map] in *.
      2:{ subst r. apply F; [quiet|]. apply closed_csv; [exact Ei|right; right; left; reflexivity|exact Eb]. }
      rewrite <- side_report_forget. destruct (ReportSideCsv sc (getlines (string_of_bytes b)) start end_) as [h|why] eqn:Er; subst r; cbn [forget option_map].
      + refine (rest_same env sc seconds dbg f [] [] (map (@msg_of_side lm as_) h) _ _). quiet.
      + apply F; [quiet|]. eapply bad_side_csv; eauto.
  Qed.
End Convert.

(** ** Words *)
Lemma words_word w rest : free " " w -> w <> "" -> words (w +++ String " " rest) = w :: words rest.
Proof.
  intros F N. unfold words. rewrite split_app by exact F. cbn [filter].
  destruct (String.eqb_spec w ""); [contradiction|reflexivity].
Qed.
Lemma words_last w : free " " w -> w <> "" -> words w = [w].
Proof.
  intros F N. unfold words. rewrite split_free by exact F. cbn [filter].
  destruct (String.eqb_spec w ""); [contradiction|reflexivity].
Qed.
Lemma words_spaces n s : words (spaces n +++ s) = words s.
Proof. induction n as [|n IH]; [reflexivity|]. exact IH. Qed.
Lemma app_nonempty_r a b : b <> "" -> a +++ b <> "".
Proof. destruct a; [auto|discriminate]. Qed.
Lemma app_nonempty_l a b : a <> "" -> a +++ b <> "".
Proof. destruct a; [congruence|discriminate]. Qed.
Lemma fmt_nonempty p x : f32_fmt p x <> "".
Proof.
  assert (S : forall s n, fmt_scaled p s n <> "").
  { intros s n. unfold fmt_scaled. apply app_nonempty_r, app_nonempty_r. discriminate. }
  destruct x as [s|[]| |s m e He]; cbn [f32_fmt]; auto; discriminate.
Qed.
Lemma pad_aligned w s : aligned w s (pad w s).
Proof.
  exists (w - String.length s)%nat. split; [reflexivity|]. unfold pad. rewrite append_length_s.
  assert (L : forall n, String.length (spaces n) = n) by (induction n; cbn; congruence). rewrite L. lia.
Qed.

Section Trader.
  Context {lm : libm} {as_ : bool} (env : environment) (seconds : nat -> string).
  Local Notation I := (ieee lm as_).

  Lemma table_line_shows row : shows_row row (table_line row).
  Proof.
    exists (f32_fmt 2 (row_gain row)), (f32_fmt 2 (row_base_gain row)), (f32_fmt 3 (row_score row)),
      (f32_fmt 3 (row_trader_volatility row)), (f32_fmt 3 (row_base_volatility row)).
    do 5 eexists. repeat (split; [first [apply fmt_column; lia | apply pad_aligned]|]). reflexivity.
  Qed.
  Lemma ranking_line_shows row : shows_rank row (ranking_line row).
  Proof. exists (f32_fmt 5 (snd row)). split; [apply fmt_column; lia|reflexivity]. Qed.

  Lemma fmt_02d_free_space n : free " " (fmt_02d n).
  Proof. unfold fmt_02d. destruct (_ && _); [split; [discriminate|]|]; apply fmt_d_free_space. Qed.
  Lemma time_words t : exists d c, FormatTimeUTC t = d +++ " " +++ c /\ free " " d /\ free " " c /\ d <> "" /\ c <> "".
  Proof.
    unfold FormatTimeUTC. set (cs := ToCivilSecond t). cbv zeta.
    exists (fmt_d (cs_year cs) +++ "-" +++ fmt_02d (cs_month cs) +++ "-" +++ fmt_02d (cs_day cs)),
      (fmt_02d (cs_hour cs) +++ ":" +++ fmt_02d (cs_minute cs) +++ ":" +++ fmt_02d (cs_second cs)).
    split; [rewrite !append_assoc_s; reflexivity|].
    split; [repeat apply free_app; try apply fmt_d_free_space; try apply fmt_02d_free_space; (split; [discriminate|exact Logic.I])|].
    split; [repeat apply free_app; try apply fmt_02d_free_space; (split; [discriminate|exact Logic.I])|].
    split; apply app_nonempty_r, app_nonempty_l; discriminate.
  Qed.

  Lemma table_line_words (p : @period I) : row_words (table_row_of p) (table_line (table_row_of p)).
  Proof.
    destruct (time_words (p_start_timestamp_sec p)) as (d1 & c1 & E1 & Fd1 & Fc1 & Nd1 & Nc1).
    destruct (time_words (p_end_timestamp_sec p)) as (d2 & c2 & E2 & Fd2 & Fc2 & Nd2 & Nc2).
    set (row := table_row_of p).
    exists d1, c1, d2, c2, (f32_fmt 2 (row_gain row)), (f32_fmt 2 (row_base_gain row)), (f32_fmt 3 (row_score row)),
      (f32_fmt 3 (row_trader_volatility row)), (f32_fmt 3 (row_base_volatility row)).
    split; [exact E1|]. split; [exact E2|].
    split; [|repeat (split; [apply fmt_column; lia|]); apply fmt_column; lia].
    unfold table_line. change (row_start row) with (FormatTimeUTC (p_start_timestamp_sec p)).
    change (row_end row) with (FormatTimeUTC (p_end_timestamp_sec p)). rewrite E1, E2.
    generalize (row_gain row) (row_base_gain row) (row_score row) (row_trader_volatility row) (row_base_volatility row).
    intros g b s v w. unfold pad.
    assert (R : "[" +++ (d1 +++ " " +++ c1) +++ " - " +++ (d2 +++ " " +++ c2) +++ "): "
        +++ (spaces (9 - String.length (f32_fmt 2 g)) +++ f32_fmt 2 g) +++ "% "
        +++ (spaces (9 - String.length (f32_fmt 2 b)) +++ f32_fmt 2 b) +++ "% "
        +++ (spaces (8 - String.length (f32_fmt 3 s)) +++ f32_fmt 3 s) +++ " "
        +++ (spaces (8 - String.length (f32_fmt 3 v)) +++ f32_fmt 3 v) +++ " "
        +++ (spaces (8 - String.length (f32_fmt 3 w)) +++ f32_fmt 3 w)
      = ("[" +++ d1) +++ String " " (c1 +++ String " " ("-" +++ String " " (d2 +++ String " " ((c2 +++ "):") +++ String " "
          (spaces (9 - String.length (f32_fmt 2 g)) +++ (f32_fmt 2 g +++ "%") +++ String " "
          (spaces (9 - String.length (f32_fmt 2 b)) +++ (f32_fmt 2 b +++ "%") +++ String " "
          (spaces (8 - String.length (f32_fmt 3 s)) +++ f32_fmt 3 s +++ String " "
          (spaces (8 - String.length (f32_fmt 3 v)) +++ f32_fmt 3 v +++ String " "
          (spaces (8 - String.length (f32_fmt 3 w)) +++ f32_fmt 3 w)))))))))).
    { rewrite !append_assoc_s. reflexivity. }
    rewrite R. clear R.
    rewrite words_word; [|split; [discriminate|exact Fd1]|discriminate].
    rewrite words_word; [|exact Fc1|exact Nc1].
    rewrite words_word; [|split; [discriminate|exact Logic.I]|discriminate].
    rewrite words_word; [|exact Fd2|exact Nd2].
    rewrite words_word; [|apply free_app; [exact Fc2|split; [discriminate|split; [discriminate|exact Logic.I]]]|apply app_nonempty_r; discriminate].
    rewrite words_spaces, words_word; [|apply free_app; [apply fmt_free_space|split; [discriminate|exact Logic.I]]|apply app_nonempty_r; discriminate].
    rewrite words_spaces, words_word; [|apply free_app; [apply fmt_free_space|split; [discriminate|exact Logic.I]]|apply app_nonempty_r; discriminate].
    rewrite words_spaces, words_word; [|apply fmt_free_space|apply fmt_nonempty].
    rewrite words_spaces, words_word; [|apply fmt_free_space|apply fmt_nonempty].
    rewrite words_spaces, words_last; [|apply fmt_free_space|apply fmt_nonempty].
    reflexivity.
  Qed.

  Lemma history_same (T : message_type) {R} (record : msg T -> R) (ts : R -> Z) k file start end_ :
    same_end (fun h (r : list console_line * load R) =>
        untroubled (fst r) /\ forget (snd r) = h
        /\ (forall used, snd r = Loaded used -> forall log l2, says_loaded env (log ++ fst r ++ l2) T record ts file start end_)
        /\ (forall why, snd r = Refused why ->
              (readable env file = None /\ why = "Cannot open the input file: " +++ file)
              \/ (exists b ms st, readable env file = Some b /\ ReadDelimitedVector T b = Some (ms, st) /\ st <> Ok
                  /\ why = "Cannot parse the input stream")))
      (ReadHistory env T record ts file start end_) (ReadHistoryLog env seconds T record ts k file start end_).
  Proof.
    unfold ReadHistory, ReadHistoryLog. destruct (readable env file) as [b|] eqn:Eb.
    2:{ constructor. cbn [fst snd forget]. split; [quiet|]. split; [reflexivity|]. split; [discriminate|].
        intros why E. injection E as <-. left. auto. }
    destruct (ReadDelimitedVector T b) as [[ms st]|] eqn:Ev; [|constructor].
    assert (Bad : st <> Ok -> same_end (fun h (r : list console_line * load R) =>
        untroubled (fst r) /\ forget (snd r) = h
        /\ (forall used, snd r = Loaded used -> forall log l2, says_loaded env (log ++ fst r ++ l2) T record ts file start end_)
        /\ (forall why, snd r = Refused why ->
              (Some b = None /\ why = "Cannot open the input file: " +++ file)
              \/ (exists b0 ms0 st, Some b = Some b0 /\ ReadDelimitedVector T b0 = Some (ms0, st) /\ st <> Ok
                  /\ why = "Cannot parse the input stream"))) (Done None) (Done ([], Refused cannot_parse))).
    { intros Hst. constructor. cbn [fst snd forget]. split; [quiet|]. split; [reflexivity|]. split; [discriminate|].
      intros why E. injection E as <-. right. exists b, ms, st. auto. }
    destruct st; [|apply Bad; discriminate|apply Bad; discriminate]. clear Bad.
    destruct (HistorySubsetCopy ts (map record ms) start end_) as [used| | | |] eqn:Eu; cbn [bind omap]; constructor.
    cbn [fst snd forget]. split; [quiet|]. split; [reflexivity|]. split; [|discriminate].
    intros used' _ log l2. exists b, ms, used, (count ms), (count used), (seconds k), log, l2.
    split; [exact Eb|]. split; [exact Ev|]. split; [exact Eu|]. split; [apply number_fmt_d|]. split; [apply number_fmt_d|]. reflexivity.
  Qed.

  Context (account_text eval_text : string).

  (** trader with its console lines ends as trader does, with the same exit code and log
      files; it shows the ranking or the table; it complains exactly when it fails, in the
      last line only, about what went wrong; and if it does not fail it says how many records
      it has read and uses. *)
  Theorem C103_trader_console sort fuel sched f :
    same_end (fun r '(x, files, log) =>
        x = t_exit r /\ files = t_logs r
        /\ match t_printed r with
           | None => x = EXIT_FAILURE
           | Some (Ranking rows) => exists before lines after,
               log = before ++ [Info (line_end +++ "Batch evaluation:")] ++ map Info lines ++ [Info after]
               /\ Forall2 shows_rank rows lines
           | Some (Table name rows) => exists before lines after,
               log = before ++ [Info (line_end +++ name +++ " evaluation:"); Info table_header] ++ map Info lines ++ [Info after]
               /\ Forall2 shows_row rows lines /\ Forall2 row_words rows lines
           end
        /\ match x with
           | EXIT_SUCCESS => untroubled log
               /\ exists start end_, trader_times f start end_
                  /\ says_loaded env log OhlcTickType (@tick_of_msg lm as_) (@timestamp_sec I) (tf_input_ohlc f) start end_
                  /\ (given (tf_input_side f) = true ->
                      says_loaded env log SideInputRecordType (@side_of_msg lm as_) (@sr_timestamp_sec I) (tf_input_side f) start end_)
           | EXIT_FAILURE => exists why, ends_with_error log why /\ trader_reason env f why
           end)
      (trader_main (lm := lm) (as_ := as_) env sort fuel sched f)
      (trader_console env seconds account_text eval_text sort fuel sched f).
  Proof.
    match goal with |- same_end ?P _ _ => set (Q := P) end.
    assert (F : forall log why files, untroubled log -> trader_reason env f why ->
      same_end Q (Done (TraderResult EXIT_FAILURE None files)) (Done (EXIT_FAILURE, files, log ++ [Error why]))).
    { intros log why files U R. constructor. unfold Q. cbn [t_exit t_logs t_printed]. repeat (split; [reflexivity|]).
      exists why. split; [|exact R]. exists log. auto. }
    unfold trader_main, trader_console.
    destruct (ParseTime (tf_start_time f)) as [start|] eqn:Es.
    2:{ apply F; [quiet|apply trader_bad_start; exact Es]. }
    destruct (ParseTime (tf_end_time f)) as [end_|] eqn:Ee.
    2:{ apply F; [quiet|apply trader_bad_end; exact Ee]. }
    cbv zeta. set (log0 := ([Info "Trader AccountConfig:"; Info account_text] ++ _)%list).
    assert (U0 : untroubled log0) by (unfold log0; quiet). clearbody log0.
    eapply same_bind; [apply history_same|]. intros h [l r] (U & Hh & HL & HR) _ _. cbn [fst snd] in *. subst h.
    destruct r as [ohlc|why]; cbn [forget].
    2:{ apply F; [quiet|]. destruct (HR why eq_refl) as [[H ->]|(b & ms & st & H1 & H2 & H3 & ->)].
        - apply trader_closed_input; [left; reflexivity|exact H].
        - eapply trader_bad_ohlc; eauto. }
    specialize (HL ohlc eq_refl). clear HR.
    eapply (same_bind (fun s (r : list console_line * (string + option (@side_input I))) =>
       untroubled (fst r) /\ match snd r with inl _ => s = None | inr x => s = Some x end
       /\ (forall x, snd r = inr x -> given (tf_input_side f) = true -> forall log l2,
             says_loaded env (log ++ fst r ++ l2) SideInputRecordType (@side_of_msg lm as_) (@sr_timestamp_sec I) (tf_input_side f) start end_)
       /\ (forall why, snd r = inl why -> trader_reason env f why))).
    { change (nonempty (tf_input_side f)) with (given (tf_input_side f)). destruct (given (tf_input_side f)) eqn:G.
      2:{ constructor. cbn [fst snd]. split; [quiet|]. split; [reflexivity|]. split; discriminate. }
      eapply same_bind; [apply history_same|]. intros h [l' r] (U' & Hh & HL' & HR') _ _. cbn [fst snd] in *. subst h.
      destruct r as [hist|why]; cbn [forget].
      - destruct (NewSideInput hist); cbn [omap bind]; constructor. cbn [fst snd].
        split; [quiet|]. split; [reflexivity|]. split; [|discriminate].
        intros x _ _ log l2. specialize (HL' hist eq_refl (log ++ [Info ("Reading side history from: " +++ tf_input_side f)]) l2).
        rewrite <- app_assoc in HL'. exact HL'.
      - constructor. cbn [fst snd]. split; [quiet|]. split; [reflexivity|]. split; [discriminate|].
        intros w E. injection E as <-. destruct (HR' why eq_refl) as [[H ->]|(b & ms & st & H1 & H2 & H3 & ->)].
        + apply trader_closed_input; [right; auto|exact H].
        + eapply trader_bad_side; eauto. }
    intros s [l' r] (U' & Hs & HL' & HR') _ _. cbn [fst snd] in *.
    destruct r as [why|side]; subst s; cbv iota.
    { apply F; [quiet|]. apply HR'. reflexivity. }
    specialize (HL' side eq_refl). clear HR'.
    assert (Says : forall l2, exists start end_, trader_times f start end_
        /\ says_loaded env (((log0 ++ l) ++ l') ++ l2) OhlcTickType (@tick_of_msg lm as_) (@timestamp_sec I) (tf_input_ohlc f) start end_
        /\ (given (tf_input_side f) = true ->
            says_loaded env (((log0 ++ l) ++ l') ++ l2) SideInputRecordType (@side_of_msg lm as_) (@sr_timestamp_sec I) (tf_input_side f) start end_)).
    { intros l2. exists start, end_. split; [split; assumption|]. split.
      - specialize (HL log0 (l' ++ l2)). rewrite !app_assoc in HL. exact HL.
      - intros G. specialize (HL' G (log0 ++ l) l2). rewrite !app_assoc in HL'. exact HL'. }
    set (log1 := (log0 ++ l) ++ l') in *. assert (U1 : untroubled log1) by (unfold log1; quiet). clearbody log1. clear HL HL'.
    destruct (tf_evaluate_batch f) eqn:Eb.
    - destruct (GetBatchOfTraders (tf_trader f)) as [em| | | |]; cbn [bind]; try constructor.
      destruct (EvaluateBatchOfTraders _ _ _ _ _ _) as [results| | | |]; cbn [bind]; try constructor.
      destruct (std_sort sort results) as [sorted| | | |]; cbn [bind]; constructor.
      unfold Q. cbn [t_exit t_logs t_printed]. split; [reflexivity|]. split; [reflexivity|]. split.
      + exists log1, (map ranking_line (PrintBatchEvalResults sorted)). eexists. split.
        * rewrite map_map. reflexivity.
        * induction (PrintBatchEvalResults sorted); constructor; [apply ranking_line_shows|assumption].
      + split; [quiet|]. rewrite <- ?app_assoc. apply Says.
    - destruct (GetTrader (tf_trader f)) as [em| | | |]; cbn [bind]; try constructor.
      assert (O : forall file, In file [tf_exchange_log f; tf_trader_log f] ->
        match OpenLogFileMsg env f file with
        | inl why => OpenLogFile env f file = None /\ trader_reason env f why
        | inr x => OpenLogFile env f file = Some x
        end).
      { intros file Hin. unfold OpenLogFileMsg, OpenLogFile. change nonempty with given. destruct (given file) eqn:G; cbn [negb]; [|reflexivity].
        rewrite Z.gtb_ltb. destruct (Z.ltb_spec 0 (tf_evaluation_period_months f)).
        - split; [reflexivity|]. eapply trader_no_logging; eauto.
        - destruct (writable env file) eqn:W; [reflexivity|]. split; [reflexivity|]. apply trader_closed_log; auto. }
      pose proof (O (tf_exchange_log f) (or_introl eq_refl)) as O1.
      destruct (OpenLogFileMsg env f (tf_exchange_log f)) as [why|exchange].
      { destruct O1 as [-> R]. apply F; [quiet|exact R]. }
      rewrite O1. pose proof (O (tf_trader_log f) (or_intror (or_introl eq_refl))) as O2.
      destruct (OpenLogFileMsg env f (tf_trader_log f)) as [why|tr].
      { destruct O2 as [-> R]. apply F; [quiet|exact R]. }
      rewrite O2. destruct (EvaluateTrader _ _ _ _ _ _ _ _ _) as [[res logs]| | | |]; cbn [bind]; constructor.
      unfold Q. cbn [t_exit t_logs t_printed]. split; [reflexivity|]. split; [reflexivity|]. split.
      + exists log1, (map (fun p => table_line (table_row_of p)) (er_period res)). eexists. split.
        * rewrite map_map, <- app_assoc. reflexivity.
        * split; (induction (er_period res); constructor; [first [apply table_line_shows|apply table_line_words]|assumption]).
      + split; [quiet|]. rewrite <- ?app_assoc. apply Says.
  Qed.
End Trader.
