(** The two programs, convert.cc and trader.cc, from their flags and input files to their
    exit code, output files and result, for the IEEE machine.

    The file system is a function from names to contents ([None]: cannot be opened for
    reading) and a predicate saying which files can be opened for writing.  A file that is
    opened for writing accepts all bytes; inputs are read completely before an output is
    opened, so an output may overwrite an input.  Log lines other than the printed gaps,
    the batch ranking and the period table are left to Console.v. *)

From Coq Require Import ZArith String Ascii Bool.
From Coq Require Import List.
From Verif.Model Require Import Outcome Machine Types Account History SideInput TimeUtil Eval
  Traders CsvLogger Proto Convert TimeText MachineIEEE Files.
Import ListNotations.

Record environment : Type := Environment {
  readable : string -> option bytes;
  writable : string -> bool
}.

Inductive exit_code : Type := EXIT_SUCCESS | EXIT_FAILURE.

Section Programs.
  Context {lm : libm} {as_ : bool}.
  Local Notation I := (ieee lm as_).
  Context (env : environment) (sc : @scanner I).

  (** * convert.cc *)

  (** convert.cc:14-47: the flags. --compress has no effect without zlib (Proto.v). *)
  Record convert_flags : Type := ConvertFlags {
    cf_input : input_flags;
    cf_output_price : string; cf_output_ohlc : string; cf_output_side : string;
    cf_start_time : string; cf_end_time : string;
    cf_max_price_deviation_per_min : f64;
    cf_sampling_rate_sec : Z;
    cf_top_n_gaps : Z;
    cf_last_n_outliers : Z
  }.

  (** What the program did: exit code, output files in the order written, printed gaps. *)
  Record convert_result : Type := ConvertResult {
    c_exit : exit_code;
    c_files : list (string * bytes);
    c_gaps : list string
  }.

  (** std::ifstream / std::fstream: the text of the file, as lines. *)
  Definition read_lines (file : string) : option (list string) :=
    option_map (fun b => getlines (string_of_bytes b)) (readable env file).

  (** convert.cc:62-113, 116-174, 177-232 with the opening of the file; the records are
      messages whose fields are all set. *)
  Definition ReadPriceHistoryFromCsvFile (file : string) (start_ts end_ts : Z)
    : option (list price_msg) :=
    match read_lines file with
    | None => None
    | Some lines => option_map (map msg_of_price) (ReadPriceHistoryFromCsv sc lines start_ts end_ts)
    end.
  Definition ReadOhlcHistoryFromCsvFile (file : string) (start_ts end_ts : Z)
    : option (list tick_msg) :=
    match read_lines file with
    | None => None
    | Some lines => option_map (map msg_of_tick) (ReadOhlcHistoryFromCsv sc lines start_ts end_ts)
    end.
  Definition ReadSideHistoryFromCsvFile (file : string) (start_ts end_ts : Z)
    : option (list side_msg) :=
    match read_lines file with
    | None => None
    | Some lines => option_map (map msg_of_side) (ReadSideHistoryFromCsv sc lines start_ts end_ts)
    end.

  (** convert.cc:235-282 ReadHistoryFromDelimitedProtoFile on the bytes of a file
      (util/proto.h:80-90). *)
  Definition ReadHistoryFromDelimitedProtoFile (T : message_type) (ts : msg T -> Z)
             (validate : msg T -> bool) (file : string) (start_ts end_ts : Z)
    : outcome (option (list (msg T))) :=
    match readable env file with
    | None => Done None
    | Some b =>
      match ReadDelimited T (history_reader ts validate start_ts end_ts) (0%Z, []) b with
      | None => Diverged
      | Some ((_, history), Ok) => Done (Some history)
      | Some _ => Done None
      end
    end.

  (** convert.cc:285-300, 303-324: the validators look at the getters of the message. *)
  Definition ReadPriceHistoryFromDelimitedProtoFile :=
    ReadHistoryFromDelimitedProtoFile PriceRecordType (fun m => get_int (pm_timestamp m))
      (fun m => @valid_price_volume I (get_float (pm_price m)) (get_float (pm_volume m))).
  Definition ReadOhlcHistoryFromDelimitedProtoFile :=
    ReadHistoryFromDelimitedProtoFile OhlcTickType (fun m => get_int (tm_timestamp m))
      (fun m => @valid_ohlc I (get_float (tm_open m)) (get_float (tm_high m)) (get_float (tm_low m))
                            (get_float (tm_close m)) (get_float (tm_volume m))).

  (** convert.cc:334-347 PrintPriceHistoryGaps: one line per gap. *)
  Definition gap_line (g : history_gap) : string :=
    (fmt_d (fst g) ++ " [" ++ FormatTimeUTC (fst g) ++ "] - "
     ++ fmt_d (snd g) ++ " [" ++ FormatTimeUTC (snd g) ++ "]: "
     ++ DurationToString (snd g - fst g))%string.
  Definition PrintPriceHistoryGaps (history : list (@price_record I)) (top_n : Z) : list string :=
    map gap_line (GetPriceHistoryGaps history 0 0 (Z.to_nat (size_t_wrap top_n))).

  (** convert.cc:405-419 with util/proto.h:132-144: CheckOk(WriteHistory...) if the history
      is not empty and the flag is set; [inl] = the program exits with failure. *)
  Definition write_history (T : message_type) (history : list (msg T)) (file : string)
             (files : list (string * bytes)) : option (list (string * bytes)) :=
    match history with
    | [] => Some files
    | _ => if nonempty file
           then if writable env file
                then Some (files ++ [(file, WriteDelimitedMessages T history)])
                else None
           else Some files
    end.

  (** convert.cc:422-559 main. *)
  Definition convert_main (f : convert_flags) : outcome convert_result :=
    let failure := Done (ConvertResult EXIT_FAILURE [] []) in
    match ParseTime (cf_start_time f), ParseTime (cf_end_time f) with
    | Some start_ts, Some end_ts =>
      let i := cf_input f in
      if negb (check_input_flags i) then failure else
      do price <- (if nonempty (price_csv i)
                   then Done (ReadPriceHistoryFromCsvFile (price_csv i) start_ts end_ts)
                   else if nonempty (price_proto i)
                   then ReadPriceHistoryFromDelimitedProtoFile (price_proto i) start_ts end_ts
                   else Done (Some [])) ;
      match price with
      | None => failure
      | Some price =>
      do ohlc <- (if nonempty (ohlc_csv i)
                  then Done (ReadOhlcHistoryFromCsvFile (ohlc_csv i) start_ts end_ts)
                  else if nonempty (ohlc_proto i)
                  then ReadOhlcHistoryFromDelimitedProtoFile (ohlc_proto i) start_ts end_ts
                  else Done (Some [])) ;
      match ohlc with
      | None => failure
      | Some ohlc =>
      match (if nonempty (side_csv i)
             then ReadSideHistoryFromCsvFile (side_csv i) start_ts end_ts else Some []) with
      | None => failure
      | Some side =>
        let records := map (@price_of_msg lm as_) price in
        let gaps := match price with [] => [] | _ => PrintPriceHistoryGaps records (cf_top_n_gaps f) end in
        do ohlc <- (match price, ohlc with
                    | _ :: _, [] =>
                      if nonempty (cf_output_ohlc f)
                      then omap (map (@msg_of_tick lm as_))
                                (ConvertPriceHistoryToOhlcHistory
                                   (M := I) (d2f (machine := I) (cf_max_price_deviation_per_min f))
                                   (cf_last_n_outliers f) (cf_sampling_rate_sec f) records)
                      else Done []
                    | _, _ => Done ohlc
                    end) ;
        match write_history PriceRecordType price (cf_output_price f) [] with
        | None => Done (ConvertResult EXIT_FAILURE [] gaps)
        | Some files =>
        match write_history OhlcTickType ohlc (cf_output_ohlc f) files with
        | None => Done (ConvertResult EXIT_FAILURE files gaps)
        | Some files =>
        match write_history SideInputRecordType side (cf_output_side f) files with
        | None => Done (ConvertResult EXIT_FAILURE files gaps)
        | Some files => Done (ConvertResult EXIT_SUCCESS files gaps)
        end
        end
        end
      end
      end
      end
    | _, _ => failure
    end.

  (** * trader.cc *)

  (** trader.cc:20-44: the flags. *)
  Record trader_flags : Type := TraderFlags {
    tf_input_ohlc : string; tf_input_side : string;
    tf_exchange_log : string; tf_trader_log : string;
    tf_trader : string;
    tf_start_time : string; tf_end_time : string;
    tf_evaluation_period_months : Z;
    tf_start_base_balance : f64; tf_start_quote_balance : f64;
    tf_market_liquidity : f64; tf_max_volume_ratio : f64;
    tf_evaluate_batch : bool
  }.

  (** trader.cc:59-77 GetAccountConfig: the flags are doubles, narrowed to float by the
      setters; the float literals are correctly rounded quotients. *)
  Definition GetAccountConfig (f : trader_flags) : @account_config I :=
    let fee := @FeeConfig I (flit (M := I) 5 1000) (f32_of_Z 0) (f32_of_Z 0) in
    @AccountConfig I
      (f64_to_f32 (tf_start_base_balance f)) (f64_to_f32 (tf_start_quote_balance f))
      (flit (M := I) 1 100000) (flit (M := I) 1 100)
      fee fee fee                          (* market, stop, limit *)
      (f64_to_f32 (tf_market_liquidity f)) (f64_to_f32 (tf_max_volume_ratio f)).

  (** trader.cc:80-102 ReadHistory: [Done None] = an error status.  The program only reads
      the getters of the messages. *)
  Definition ReadHistory (T : message_type) {R} (record : msg T -> R) (ts : R -> Z)
             (file : string) (start_ts end_ts : Z) : outcome (option (list R)) :=
    match readable env file with
    | None => Done None
    | Some b =>
      match ReadDelimitedVector T b with
      | None => Diverged
      | Some (history, Ok) => omap Some (HistorySubsetCopy ts (map record history) start_ts end_ts)
      | Some _ => Done None
      end
    end.

  (** One printed line of the period table (trader.cc:133-147): the two times, gain and base
      gain in percent, score and the two volatilities (an unset field reads as 0). *)
  Record table_row : Type := TableRow {
    row_start : string; row_end : string;
    row_gain : f32; row_base_gain : f32; row_score : f32;
    row_trader_volatility : f32; row_base_volatility : f32
  }.
  Definition table_row_of (p : @period I) : table_row :=
    let get x := match x with Some v => v | None => f32_of_Z 0 end in
    {| row_start := FormatTimeUTC (p_start_timestamp_sec p);
       row_end := FormatTimeUTC (p_end_timestamp_sec p);
       row_gain := fmul (machine := I) (fsub (machine := I) (p_final_gain p) (f32_of_Z 1)) (f32_of_Z 100);
       row_base_gain := fmul (machine := I) (fsub (machine := I) (p_base_final_gain p) (f32_of_Z 1)) (f32_of_Z 100);
       row_score := fdiv (machine := I) (p_final_gain p) (p_base_final_gain p);
       row_trader_volatility := get (r_trader_volatility (p_result p));
       row_base_volatility := get (r_base_volatility (p_result p)) |}.

  Inductive printout : Type :=
  | Ranking (rows : list (string * f32))       (* PrintBatchEvalResults *)
  | Table (name : string) (rows : list table_row).   (* PrintTraderEvalResult *)

  Record trader_result : Type := TraderResult {
    t_exit : exit_code;
    t_printed : option printout;
    t_logs : list (string * string)        (* the log files and their contents *)
  }.

  (** trader.cc:104-121 OpenLogFile: [None] = an error status, [Some None] = nullptr,
      [Some (Some tt)] = the file is open (and now empty). *)
  Definition OpenLogFile (f : trader_flags) (file : string) : option (option string) :=
    if negb (nonempty file) then Some None
    else if (tf_evaluation_period_months f >? 0)%Z then None
    else if writable env file then Some (Some EmptyString) else None.

  Definition opened (file : string) (stream : option string) : list (string * string) :=
    match stream with Some s => [(file, s)] | None => [] end.

  (** trader.cc:123-131 PrintBatchEvalResults with top_n = 20. *)
  Definition PrintBatchEvalResults (results : list (@evaluation_result I)) : list (string * f32) :=
    map (fun r => (er_name r, er_score r)) (firstn 20 results).

  (** std::sort with "lhs.score() > rhs.score()" (trader.cc:212-215): [sort] is whatever the
      library does; with a NaN among two or more scores the comparison is not a strict weak
      order, which is undefined behaviour. *)
  Definition std_sort (sort : list (@evaluation_result I) -> list (@evaluation_result I))
             (l : list (@evaluation_result I)) : outcome (list (@evaluation_result I)) :=
    let is_nan r := negb (feqb (machine := I) (er_score r) (er_score r)) in
    if (2 <=? List.length l)%nat && existsb is_nan l then Undefined else Done (sort l).

  (** trader.cc:150-243 main. [fuel] bounds the iterations of EvaluateTrader's loop, [sched]
      is the schedule of the batch tasks. *)
  Definition trader_main (sort : list (@evaluation_result I) -> list (@evaluation_result I))
             (fuel : nat) (sched : list nat) (f : trader_flags) : outcome trader_result :=
    let failure := Done (TraderResult EXIT_FAILURE None []) in
    let account_config := GetAccountConfig f in
    match ParseTime (tf_start_time f), ParseTime (tf_end_time f) with
    | Some start_ts, Some end_ts =>
      do ohlc <- ReadHistory OhlcTickType (@tick_of_msg lm as_) (@timestamp_sec I)
                             (tf_input_ohlc f) start_ts end_ts ;
      match ohlc with
      | None => failure
      | Some ohlc =>
      do side <- (if nonempty (tf_input_side f)
                  then do h <- ReadHistory SideInputRecordType (@side_of_msg lm as_)
                                           (@sr_timestamp_sec I) (tf_input_side f) start_ts end_ts ;
                       match h with
                       | None => Done None
                       | Some h => omap (fun si => Some (Some si)) (NewSideInput h)
                       end
                  else Done (Some None)) ;
      match side with
      | None => failure
      | Some side =>
        let eval_config fast :=
          {| ec_start_timestamp_sec := start_ts; ec_end_timestamp_sec := end_ts;
             evaluation_period_months := tf_evaluation_period_months f; fast_eval := fast |} in
        if tf_evaluate_batch f then
          do emitters <- GetBatchOfTraders (tf_trader f) ;
          do results <- EvaluateBatchOfTraders account_config (eval_config true) ohlc side emitters sched ;
          do results <- std_sort sort results ;
          Done (TraderResult EXIT_SUCCESS (Some (Ranking (PrintBatchEvalResults results))) [])
        else
          do emitter <- GetTrader (tf_trader f) ;
          match OpenLogFile f (tf_exchange_log f) with
          | None => failure
          | Some exchange =>
          match OpenLogFile f (tf_trader_log f) with
          | None => Done (TraderResult EXIT_FAILURE None (opened (tf_exchange_log f) exchange))
          | Some trader =>
            do '(r, logs) <- EvaluateTrader account_config (eval_config false) ohlc side emitter
                               (@csv_logger I) true fuel (exchange, trader) ;
            Done (TraderResult EXIT_SUCCESS
                    (Some (Table (te_name emitter) (map table_row_of (er_period r))))
                    (opened (tf_exchange_log f) (fst logs) ++ opened (tf_trader_log f) (snd logs)))
          end
          end
      end
      end
    | _, _ => failure
    end.
End Programs.
