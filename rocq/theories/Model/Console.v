(** What the two programs print (convert.cc, trader.cc: LogInfo, LogError, CheckOk), for the
    IEEE machine.  [convert_console] and [trader_console] are main() with its console lines;
    Properties/ConsoleProps.v proves that otherwise they do what [convert_main] and
    [trader_main] of Programs.v do.

    External: the measured durations ([seconds k] is the "%.3f" text of the k-th duration of
    the run) and the messages' DebugString().  Simplified: line and record counters do not
    overflow; all NaNs are one value and print as "nan" (the C library prints the sign bit of
    a NaN as "-nan"). *)

From Coq Require Import ZArith String Ascii Bool DecimalString.
From Coq Require Import List.
From Flocq Require Import Core BinarySingleNaN.
From Verif.Model Require Import Outcome Machine Types Account History SideInput TimeUtil Eval
  Traders CsvLogger Proto Convert TimeText MachineIEEE Files Programs.
Import ListNotations.

(** One line (or block of lines) on the standard output or on the standard error. *)
Inductive console_line : Type := Info (text : string) | Error (text : string).

(** absl::StatusOr<std::vector<A>>: the history or the message of the error status. *)
Inductive load (A : Type) : Type := Loaded (history : list A) | Refused (message : string).
Arguments Loaded {A}. Arguments Refused {A}.

(** * Numbers: absl::StrFormat "%.pf" (p >= 1) and "%w.pf" *)

(** The last p decimal digits of n. *)
Fixpoint last_digits (p : nat) (n : Z) : string :=
  match p with
  | O => EmptyString
  | S p' => (last_digits p' (n / 10) ++ String (digit (n mod 10)) EmptyString)%string
  end.

(** "%.pf" of n / 10^p with the sign s. *)
Definition fmt_scaled (p : nat) (s : bool) (n : Z) : string :=
  ((if s then "-" else "") ++ fmt_d (n / 10 ^ Z.of_nat p) ++ "." ++ last_digits p n)%string.

(** "%.pf": the exact value rounded to p decimals, ties to even. *)
Definition f32_fmt (p : nat) (x : f32) : string :=
  match x with
  | B754_zero s => fmt_scaled p s 0
  | B754_infinity s => if s then "-inf" else "inf"
  | B754_nan => "nan"
  | B754_finite s m e _ =>
    fmt_scaled p s
      (if (0 <=? e)%Z then Zpos m * 2 ^ e * 10 ^ Z.of_nat p
       else div_half_even (Zpos m * 10 ^ Z.of_nat p) (2 ^ (- e)))
  end.

(** A minimum width: spaces on the left. *)
Fixpoint spaces (n : nat) : string :=
  match n with O => EmptyString | S n' => String " " (spaces n') end.
Definition pad (w : nat) (s : string) : string := (spaces (w - String.length s) ++ s)%string.

Definition count {A} (l : list A) : string := fmt_d (Z.of_nat (List.length l)).
Definition newline : string := String (ascii_of_nat 10) EmptyString.

(** * The readers of convert.cc with their error messages *)
Section Readers.
  Context {M : machine} (sc : @scanner M).
  Local Open Scope flt_scope.

  (** "... on the line %d: %s" (convert.cc:94, 98, 102, 151, 156, 160, 202, 213, 226). *)
  Definition on_the_line (what : string) (row : Z) (line : string) : string :=
    (what ++ " on the line " ++ fmt_d row ++ ": " ++ line)%string.

  (** convert.cc:82-108. [row] is the number of lines read so far. *)
  Fixpoint price_csv_report (start_ts end_ts : Z) (lines : list string) (row prev : Z)
           (vars : Z * list flt) (acc : list price_record) : load price_record :=
    match lines with
    | [] => Loaded (rev acc)
    | line :: lines' =>
      let row := (row + 1)%Z in
      let vars := sscanf sc vars line in
      let ts := fst vars in
      let price := nth 0 (snd vars) #0 in
      let volume := nth 1 (snd vars) #0 in
      if ((start_ts >? 0) && (ts <? start_ts))%Z
      then price_csv_report start_ts end_ts lines' row prev vars acc
      else if ((end_ts >? 0) && (ts >=? end_ts))%Z then Loaded (rev acc)
      else if ((ts <=? 0) || (ts <? prev))%Z
      then Refused (on_the_line "Invalid timestamp" row line)
      else if price <=? #0 then Refused (on_the_line "Invalid price" row line)
      else if volume <? #0 then Refused (on_the_line "Invalid volume" row line)
      else price_csv_report start_ts end_ts lines' row ts vars (PriceRecord ts price volume :: acc)
    end.
  Definition ReportPriceCsv (lines : list string) (start_ts end_ts : Z) : load price_record :=
    price_csv_report start_ts end_ts lines 0 0 (0%Z, [#0; #0]) [].

  (** convert.cc:138-169. *)
  Fixpoint ohlc_csv_report (start_ts end_ts : Z) (lines : list string) (row prev : Z)
           (vars : Z * list flt) (acc : list ohlc_tick) : load ohlc_tick :=
    match lines with
    | [] => Loaded (rev acc)
    | line :: lines' =>
      let row := (row + 1)%Z in
      let vars := sscanf sc vars line in
      let ts := fst vars in
      let o := nth 0 (snd vars) #0 in
      let h := nth 1 (snd vars) #0 in
      let l := nth 2 (snd vars) #0 in
      let c := nth 3 (snd vars) #0 in
      let v := nth 4 (snd vars) #0 in
      if ((start_ts >? 0) && (ts <? start_ts))%Z
      then ohlc_csv_report start_ts end_ts lines' row prev vars acc
      else if ((end_ts >? 0) && (ts >=? end_ts))%Z then Loaded (rev acc)
      else if ((ts <=? 0) || (ts <? prev))%Z
      then Refused (on_the_line "Invalid timestamp" row line)
      else if (o <=? #0) || (h <=? #0) || (l <=? #0) || (c <=? #0) || (l >? o) || (l >? h)
              || (l >? c) || (h <? o) || (h <? c)
      then Refused (on_the_line "Invalid OHLC prices" row line)
      else if v <? #0 then Refused (on_the_line "Invalid volume" row line)
      else ohlc_csv_report start_ts end_ts lines' row ts vars (OhlcTick ts o h l c v :: acc)
    end.
  Definition ReportOhlcCsv (lines : list string) (start_ts end_ts : Z) : load ohlc_tick :=
    ohlc_csv_report start_ts end_ts lines 0 0 (0%Z, [#0; #0; #0; #0; #0]) [].

  (** convert.cc:196-227: the messages show the line after the commas have been replaced. *)
  Fixpoint side_csv_report (start_ts end_ts : Z) (lines : list string) (row prev : Z)
           (num_signals : nat) (acc : list side_record) : load side_record :=
    match lines with
    | [] => Loaded (rev acc)
    | line :: lines' =>
      let row := (row + 1)%Z in
      let line := replace_commas line in
      match scan_int sc line with
      | None => Refused (on_the_line "Cannot parse the timestamp" row line)
      | Some (ts, s) =>
        if ((start_ts >? 0) && (ts <? start_ts))%Z
        then side_csv_report start_ts end_ts lines' row prev num_signals acc
        else if ((end_ts >? 0) && (ts >=? end_ts))%Z then Loaded (rev acc)
        else if ((ts <=? 0) || (ts <=? prev))%Z
        then Refused (on_the_line "Invalid timestamp" row line)
        else
          let signals := stream_floats sc (String.length s) s in
          let num_signals := if (num_signals =? 0)%nat then List.length signals else num_signals in
          if (num_signals =? 0)%nat || negb (num_signals =? List.length signals)%nat
          then Refused (on_the_line "Invalid number of signals" row line)
          else side_csv_report start_ts end_ts lines' row ts num_signals (SideRecord ts signals :: acc)
      end
    end.
  Definition ReportSideCsv (lines : list string) (start_ts end_ts : Z) : load side_record :=
    side_csv_report start_ts end_ts lines 0 0 0 [].

  (** convert.cc:289-299 and 307-323: the validators' messages (None = OkStatus). *)
  Definition price_complaint (price volume : flt) : option string :=
    if price <=? #0 then Some "Invalid price"%string
    else if volume <? #0 then Some "Invalid volume"%string else None.
  Definition ohlc_complaint (o h l c v : flt) : option string :=
    if (o <=? #0) || (h <=? #0) || (l <=? #0) || (c <=? #0) || (l >? o) || (l >? h)
       || (l >? c) || (h <? o) || (h <? c)
    then Some "Invalid OHLC prices"%string
    else if v <? #0 then Some "Invalid volume"%string else None.
End Readers.

Section ProtoReader.
  Context {T : Type} (ts : T -> Z) (validate : T -> option string) (debug_string : T -> string).

  (** The variables of convert.cc:241-245 and the message of the returned error status. *)
  Record reader_vars : Type := ReaderVars {
    record_index : Z; timestamp_sec_prev : Z; read_so_far : list T; complaint : string
  }.

  (** convert.cc:249-274: the reader callback. *)
  Definition reporting_reader (start_ts end_ts : Z) (s : reader_vars) (m : T)
    : reader_vars * reader_status :=
    let fail msg := (ReaderVars (record_index s) (timestamp_sec_prev s) (read_so_far s) msg, ReaderError) in
    if ((start_ts >? 0) && (ts m <? start_ts))%Z then (s, kContinue)
    else if ((end_ts >? 0) && (ts m >=? end_ts))%Z then (s, kBreak)
    else if ((ts m <=? 0) || (ts m <? timestamp_sec_prev s))%Z
    then fail ("Invalid timestamp on the record " ++ fmt_d (record_index s) ++ ":" ++ newline
               ++ debug_string m)%string
    else match validate m with
         | Some msg =>
           fail ("Invalid record " ++ fmt_d (record_index s) ++ ":" ++ newline ++ debug_string m
                 ++ newline ++ msg)%string
         | None => (ReaderVars (record_index s + 1) (ts m) (read_so_far s ++ [m]) (complaint s), kContinue)
         end.
End ProtoReader.

Section Console.
  Context {lm : libm} {as_ : bool}.
  Local Notation I := (ieee lm as_).
  Context (env : environment) (sc : @scanner I) (seconds : nat -> string)
          (debug_string : forall T : message_type, msg T -> string).
  Local Open Scope string_scope.
  Local Open Scope list_scope.
  Local Infix "+++" := String.append (right associativity, at level 60).

  (** "Loaded %d records in %.3f seconds" (convert.cc:109-111, 170-172, 228-230, 278-280). *)
  Definition loaded_line {A} (k : nat) (what : string) (h : list A) : console_line :=
    Info ("Loaded " +++ count h +++ " " +++ what +++ " in " +++ seconds k +++ " seconds").

  (** convert.cc:62-113, 116-174, 177-232. *)
  Definition ReadCsvFile {R X} (what records : string) (report : list string -> Z -> Z -> load R)
             (to_msg : R -> X) (k : nat) (file : string) (start_ts end_ts : Z)
    : list console_line * load X :=
    let log := [Info ("Reading " +++ what +++ " history from CSV file: " +++ file)] in
    match read_lines env file with
    | None => (log, Refused ("Cannot open the file: " +++ file))
    | Some lines =>
      match report lines start_ts end_ts with
      | Refused message => (log, Refused message)
      | Loaded h => (log ++ [loaded_line k records h], Loaded (map to_msg h))
      end
    end.

  (** The messages of util/proto.h:56, 85: reading failed before the callback did. *)
  Definition cannot_parse : string := "Cannot parse the input stream".
  Definition cannot_open (file : string) : string := "Cannot open the input file: " +++ file.

  (** convert.cc:235-282. *)
  Definition ReadProtoFile (T : message_type) (ts : msg T -> Z) (validate : msg T -> option string)
             (k : nat) (file : string) (start_ts end_ts : Z)
    : outcome (list console_line * load (msg T)) :=
    let log := [Info ("Reading history from delimited proto file: " +++ file)] in
    match readable env file with
    | None => Done (log, Refused (cannot_open file))
    | Some b =>
      match ReadDelimited T (reporting_reader ts validate (debug_string T) start_ts end_ts)
                          (ReaderVars 0 0 [] "") b with
      | None => Diverged
      | Some (s, Ok) => Done (log ++ [loaded_line k "records" (read_so_far s)], Loaded (read_so_far s))
      | Some (s, Aborted) => Done (log, Refused (complaint s))
      | Some (_, InvalidArgument) => Done (log, Refused cannot_parse)
      end
    end.

  (** convert.cc:352-377 PrintOutliersWithContext: [index_prev] is the index printed last
      (0 before the first one). *)
  Definition outlier_line (is_outlier : bool) (r : @price_record I) : string :=
    (if is_outlier then " x" else "  ") +++ " " +++ fmt_d (pr_timestamp_sec r) +++ " ["
    +++ FormatTimeUTC (pr_timestamp_sec r) +++ "]: " +++ f32_fmt 2 (pr_price r)
    +++ " [" +++ f32_fmt 4 (pr_volume r) +++ "]".
  Fixpoint print_outliers (history : list (@price_record I)) (index_prev : Z)
           (ctx : list (Z * bool)) : list string :=
    match ctx with
    | [] => []
    | (index, is_outlier) :: ctx' =>
      (if ((index_prev >? 0) && (index >? index_prev + 1))%Z then ["   ..."] else [])
      ++ [outlier_line is_outlier
            (nth (Z.to_nat index) history (PriceRecord (M := I) 0 (f32_of_Z 0) (f32_of_Z 0)))]
      ++ print_outliers history index ctx'
    end.

  (** convert.cc:380-402 with its output. *)
  Definition ConvertPriceHistory (max_dev : f32) (last_n_outliers sampling_rate : Z)
             (history : list (@price_record I)) : outcome (list console_line * list (@ohlc_tick I)) :=
    let (clean, idx) := RemoveOutliers (M := I) history max_dev (Some []) in
    let outliers := match idx with Some v => v | None => [] end in
    let n := Z.of_nat (List.length history) in
    let ctx := GetOutlierIndicesWithContext outliers n 5 5 (size_t_wrap last_n_outliers) in
    @assert_ I (forallb (fun kv => (fst kv <? n)%Z) ctx) ;;
    do ticks <- Resample (M := I) clean sampling_rate ;
    Done ([Info ("Removed " +++ count outliers +++ " outliers");
           Info ("Last " +++ fmt_d last_n_outliers +++ " outliers:")]
          ++ map Info (print_outliers history 0 ctx)
          ++ [Info ("Resampled " +++ count clean +++ " records to " +++ count ticks +++ " OHLC ticks")],
          ticks).

  (** convert.cc:405-419, util/proto.h:132-144: the log, and the written file or an error. *)
  Definition WriteHistory (T : message_type) (k : nat) (history : list (msg T)) (file : string)
    : list console_line * option (list (string * bytes)) :=
    match history with
    | [] => ([], Some [])
    | _ =>
      if nonempty file then
        ([Info ("Writing " +++ count history +++ " records to the file: " +++ file);
          Info ("Finished in " +++ seconds k +++ " seconds")]
         ++ (if writable env file then [] else [Error (cannot_open file)]),
         if writable env file then Some [(file, WriteDelimitedMessages T history)] else None)
      else ([], Some [])
    end.

  (** convert.cc:440-475: the message of the first failing check of the flags. *)
  Definition input_flags_error (i : input_flags) : option string :=
    if nonempty (price_csv i) && nonempty (price_proto i)
    then Some "Cannot have two input price history files"
    else if nonempty (ohlc_csv i) && nonempty (ohlc_proto i)
    then Some "Cannot have two input OHLC history files"
    else
      let read_price := nonempty (price_csv i) || nonempty (price_proto i) in
      let read_ohlc := nonempty (ohlc_csv i) || nonempty (ohlc_proto i) in
      let read_side := nonempty (side_csv i) in
      let n := ((if read_price then 1 else 0) + (if read_ohlc then 1 else 0)
                + (if read_side then 1 else 0))%nat in
      if (1 <? n)%nat then Some "Cannot read more than one input history file"
      else if (n =? 0)%nat then Some "Input history file not specified"
      else None.

  (** util/time.cc:31-32. *)
  Definition cannot_parse_datetime (s : string) : string := "Cannot parse datetime: " +++ s.

  (** convert.cc:436-437, trader.cc:170-171. *)
  Definition selected_period (start_ts end_ts : Z) : console_line :=
    Info ("Selected time period:" +++ newline +++ "[" +++ FormatTimeUTC start_ts +++ " - "
          +++ FormatTimeUTC end_ts +++ ")").

  Definition price_validator (m : price_msg) : option string :=
    @price_complaint I (get_float (pm_price m)) (get_float (pm_volume m)).
  Definition tick_validator (m : tick_msg) : option string :=
    @ohlc_complaint I (get_float (tm_open m)) (get_float (tm_high m)) (get_float (tm_low m))
                    (get_float (tm_close m)) (get_float (tm_volume m)).

  (** convert.cc:422-559 main: exit code, output files, console. *)
  Definition convert_console (f : convert_flags)
    : outcome (exit_code * list (string * bytes) * list console_line) :=
    match ParseTime (cf_start_time f) with
    | None => Done (EXIT_FAILURE, [], [Error (cannot_parse_datetime (cf_start_time f))])
    | Some start_ts =>
    match ParseTime (cf_end_time f) with
    | None => Done (EXIT_FAILURE, [], [Error (cannot_parse_datetime (cf_end_time f))])
    | Some end_ts =>
      let log := [selected_period start_ts end_ts] in
      let i := cf_input f in
      match input_flags_error i with
      | Some message => Done (EXIT_FAILURE, [], log ++ [Error message])
      | None =>
      do '(l, price) <-
         (if nonempty (price_csv i)
          then Done (ReadCsvFile "price" "records" (ReportPriceCsv sc) msg_of_price 0 (price_csv i) start_ts end_ts)
          else if nonempty (price_proto i)
          then ReadProtoFile PriceRecordType (fun m => get_int (pm_timestamp m)) price_validator 0
                             (price_proto i) start_ts end_ts
          else Done ([], Loaded [])) ;
      let log := log ++ l in
      match price with
      | Refused message => Done (EXIT_FAILURE, [], log ++ [Error message])
      | Loaded price =>
      do '(l, ohlc) <-
         (if nonempty (ohlc_csv i)
          then Done (ReadCsvFile "OHLC" "OHLC ticks" (ReportOhlcCsv sc) msg_of_tick 0 (ohlc_csv i) start_ts end_ts)
          else if nonempty (ohlc_proto i)
          then ReadProtoFile OhlcTickType (fun m => get_int (tm_timestamp m)) tick_validator 0
                             (ohlc_proto i) start_ts end_ts
          else Done ([], Loaded [])) ;
      let log := log ++ l in
      match ohlc with
      | Refused message => Done (EXIT_FAILURE, [], log ++ [Error message])
      | Loaded ohlc =>
      let (l, side) :=
         (if nonempty (side_csv i)
          then ReadCsvFile "side" "records" (ReportSideCsv sc) msg_of_side 0 (side_csv i) start_ts end_ts
          else ([], Loaded [])) in
      let log := log ++ l in
      match side with
      | Refused message => Done (EXIT_FAILURE, [], log ++ [Error message])
      | Loaded side =>
        let records := map (@price_of_msg lm as_) price in
        let log := log ++ match price with
                          | [] => []
                          | _ => Info ("Top " +++ fmt_d (cf_top_n_gaps f) +++ " gaps:")
                                 :: map Info (PrintPriceHistoryGaps records (cf_top_n_gaps f))
                          end in
        do '(l, ohlc) <-
           (match price, ohlc with
            | _ :: _, [] =>
              if nonempty (cf_output_ohlc f)
              then omap (fun '(l, ticks) => (l, map (@msg_of_tick lm as_) ticks))
                        (ConvertPriceHistory (f64_to_f32 (cf_max_price_deviation_per_min f))
                           (cf_last_n_outliers f) (cf_sampling_rate_sec f) records)
              else Done ([], [])
            | _, _ => Done ([], ohlc)
            end) ;
        let log := log ++ l in
        let (l1, w1) := WriteHistory PriceRecordType 1 price (cf_output_price f) in
        let log := log ++ l1 in
        match w1 with
        | None => Done (EXIT_FAILURE, [], log)
        | Some f1 =>
        let (l2, w2) := WriteHistory OhlcTickType 2 ohlc (cf_output_ohlc f) in
        let log := log ++ l2 in
        match w2 with
        | None => Done (EXIT_FAILURE, f1, log)
        | Some f2 =>
        let (l3, w3) := WriteHistory SideInputRecordType 3 side (cf_output_side f) in
        let log := log ++ l3 in
        match w3 with
        | None => Done (EXIT_FAILURE, f1 ++ f2, log)
        | Some f3 => Done (EXIT_SUCCESS, f1 ++ f2 ++ f3, log)
        end
        end
        end
      end
      end
      end
      end
    end
    end.

  (** * trader.cc *)

  (** trader.cc:80-102. *)
  Definition ReadHistoryLog (T : message_type) {R} (record : msg T -> R) (ts : R -> Z) (k : nat)
             (file : string) (start_ts end_ts : Z) : outcome (list console_line * load R) :=
    match readable env file with
    | None => Done ([], Refused (cannot_open file))
    | Some b =>
      match ReadDelimitedVector T b with
      | None => Diverged
      | Some (history, Ok) =>
        do subset <- HistorySubsetCopy ts (map record history) start_ts end_ts ;
        Done ([Info ("- Loaded " +++ count history +++ " records in " +++ seconds k +++ " seconds");
               Info ("- Selected " +++ count subset +++ " records within the time period: ["
                     +++ FormatTimeUTC start_ts +++ " - " +++ FormatTimeUTC end_ts +++ ")")],
              Loaded subset)
      | Some _ => Done ([], Refused cannot_parse)
      end
    end.

  (** trader.cc:104-121 OpenLogFile: [inl] = the error message, [inr None] = nullptr. *)
  Definition OpenLogFileMsg (f : trader_flags) (file : string) : string + option string :=
    if negb (nonempty file) then inr None
    else if (tf_evaluation_period_months f >? 0)%Z
    then inl "Logging disabled when evaluating multiple periods"
    else if writable env file then inr (Some EmptyString)
    else inl ("Cannot open the file: " +++ file).

  (** trader.cc:123-131: "%s: %.5f". *)
  Definition ranking_line (row : string * f32) : string := fst row +++ ": " +++ f32_fmt 5 (snd row).

  (** trader.cc:133-147. *)
  Definition table_header : string :=
    "------------------ period ------------------" +++ "    trader & base gain    score    t&b volatility".
  Definition table_line (r : table_row) : string :=
    "[" +++ row_start r +++ " - " +++ row_end r +++ "): " +++ pad 9 (f32_fmt 2 (row_gain r)) +++ "% "
    +++ pad 9 (f32_fmt 2 (row_base_gain r)) +++ "% " +++ pad 8 (f32_fmt 3 (row_score r)) +++ " "
    +++ pad 8 (f32_fmt 3 (row_trader_volatility r)) +++ " " +++ pad 8 (f32_fmt 3 (row_base_volatility r)).

  (** trader.cc:150-243 main. [account_text] and [eval_text] are the DebugString()s of the two
      configurations (trader.cc:159, 180). *)
  Context (account_text eval_text : string).
  Definition trader_console (sort : list (@evaluation_result I) -> list (@evaluation_result I))
             (fuel : nat) (sched : list nat) (f : trader_flags)
    : outcome (exit_code * list (string * string) * list console_line) :=
    let log := [Info "Trader AccountConfig:"; Info account_text] in
    match ParseTime (tf_start_time f) with
    | None => Done (EXIT_FAILURE, [], log ++ [Error (cannot_parse_datetime (tf_start_time f))])
    | Some start_ts =>
    match ParseTime (tf_end_time f) with
    | None => Done (EXIT_FAILURE, [], log ++ [Error (cannot_parse_datetime (tf_end_time f))])
    | Some end_ts =>
      let log := log ++ [selected_period start_ts end_ts;
                         Info (newline +++ "Trader EvaluationConfig:"); Info eval_text;
                         Info ("Reading OHLC history from: " +++ tf_input_ohlc f)] in
      do '(l, ohlc) <- ReadHistoryLog OhlcTickType (@tick_of_msg lm as_) (@timestamp_sec I) 0
                                      (tf_input_ohlc f) start_ts end_ts ;
      let log := log ++ l in
      match ohlc with
      | Refused message => Done (EXIT_FAILURE, [], log ++ [Error message])
      | Loaded ohlc =>
      do '(l, side) <-
         (if nonempty (tf_input_side f)
          then do '(l, h) <- ReadHistoryLog SideInputRecordType (@side_of_msg lm as_) (@sr_timestamp_sec I) 1
                                            (tf_input_side f) start_ts end_ts ;
               let l := Info ("Reading side history from: " +++ tf_input_side f) :: l in
               match h with
               | Refused message => Done (l, inl message)
               | Loaded h => omap (fun si => (l, inr (Some si))) (NewSideInput h)
               end
          else Done ([], inr None)) ;
      let log := log ++ l in
      match side with
      | inl message => Done (EXIT_FAILURE, [], log ++ [Error message])
      | inr side =>
        let account_config := @GetAccountConfig lm as_ f in
        let eval_config fast :=
          {| ec_start_timestamp_sec := start_ts; ec_end_timestamp_sec := end_ts;
             evaluation_period_months := tf_evaluation_period_months f; fast_eval := fast |} in
        let evaluated := Info (newline +++ "Evaluated in " +++ seconds 2%nat +++ " seconds") in
        if tf_evaluate_batch f then
          do emitters <- GetBatchOfTraders (tf_trader f) ;
          do results <- EvaluateBatchOfTraders account_config (eval_config true) ohlc side emitters sched ;
          do results <- std_sort sort results ;
          Done (EXIT_SUCCESS, [],
                log ++ [Info (newline +++ "Batch evaluation:")]
                ++ map (fun row => Info (ranking_line row)) (PrintBatchEvalResults results)
                ++ [evaluated])
        else
          do emitter <- GetTrader (tf_trader f) ;
          let log := log ++ [Info (newline +++ te_name emitter +++ " evaluation:")] in
          match OpenLogFileMsg f (tf_exchange_log f) with
          | inl message => Done (EXIT_FAILURE, [], log ++ [Error message])
          | inr exchange =>
          match OpenLogFileMsg f (tf_trader_log f) with
          | inl message =>
            Done (EXIT_FAILURE, opened (tf_exchange_log f) exchange, log ++ [Error message])
          | inr trader =>
            do '(r, logs) <- EvaluateTrader account_config (eval_config false) ohlc side emitter
                               (@csv_logger I) true fuel (exchange, trader) ;
            Done (EXIT_SUCCESS,
                  opened (tf_exchange_log f) (fst logs) ++ opened (tf_trader_log f) (snd logs),
                  log ++ [Info table_header]
                  ++ map (fun p => Info (table_line (table_row_of p))) (er_period r)
                  ++ [evaluated])
          end
          end
      end
      end
    end
    end.
End Console.
