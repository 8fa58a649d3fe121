(** When and why the programs complain. *)
From Coq Require Import ZArith String Ascii Bool.
From Coq Require Import List.
From Verif.Model Require Import Outcome Machine Types History Eval Traders Proto Convert TimeText MachineIEEE Files Programs Console.
From Verif.Spec Require Import LogSpec ConsoleSpec.
Import ListNotations.
Local Open Scope string_scope.
Local Open Scope list_scope.
Local Infix "+++" := String.append (right associativity, at level 60).

(** Two runs end in the same way (both return, both abort, ...), and if they return then
    with related results. *)
Inductive same_end {A B} (R : A -> B -> Prop) : outcome A -> outcome B -> Prop :=
| both_done a b : R a b -> same_end R (Done a) (Done b)
| both_assert : same_end R AssertFail AssertFail
| both_undefined : same_end R Undefined Undefined
| both_thrown : same_end R Thrown Thrown
| both_diverged : same_end R Diverged Diverged.

(** No error among the lines. *)
Definition untroubled (log : list console_line) : Prop := forall l, In l log -> exists text, l = Info text.
(** The last line, and no other, is an error. *)
Definition ends_with_error (log : list console_line) (why : string) : Prop :=
  exists before, log = before ++ [Error why] /\ untroubled before.

(** The named inputs given on the command line. *)
Definition given (file : string) : bool := negb (String.eqb file "").
Definition inputs (i : input_flags) : list string :=
  filter given [price_csv i; price_proto i; ohlc_csv i; ohlc_proto i; side_csv i].

Section Reasons.
  Context {lm : libm} {as_ : bool} (env : environment) (sc : @scanner (ieee lm as_))
          (seconds : nat -> string) (debug_string : forall T : message_type, msg T -> string).

  (** The reasons why convert fails, with the texts shown. *)
  Inductive convert_reason (f : convert_flags) : string -> Prop :=
  | bad_start_time : ParseTime (cf_start_time f) = None ->
      convert_reason f ("Cannot parse datetime: " +++ cf_start_time f)
  | bad_end_time : ParseTime (cf_end_time f) = None ->
      convert_reason f ("Cannot parse datetime: " +++ cf_end_time f)
  | two_price_inputs : given (price_csv (cf_input f)) = true -> given (price_proto (cf_input f)) = true ->
      convert_reason f "Cannot have two input price history files"
  | two_ohlc_inputs : given (ohlc_csv (cf_input f)) = true -> given (ohlc_proto (cf_input f)) = true ->
      convert_reason f "Cannot have two input OHLC history files"
  | many_inputs : (2 <= List.length (inputs (cf_input f)))%nat ->
      convert_reason f "Cannot read more than one input history file"
  | no_input : inputs (cf_input f) = [] -> convert_reason f "Input history file not specified"
  | closed_csv file : inputs (cf_input f) = [file] ->
      In file [price_csv (cf_input f); ohlc_csv (cf_input f); side_csv (cf_input f)] ->
      readable env file = None -> convert_reason f ("Cannot open the file: " +++ file)
  | closed_proto file : inputs (cf_input f) = [file] ->
      In file [price_proto (cf_input f); ohlc_proto (cf_input f)] ->
      readable env file = None -> convert_reason f ("Cannot open the input file: " +++ file)
  | bad_price_csv file b start end_ why : inputs (cf_input f) = [file] -> file = price_csv (cf_input f) ->
      readable env file = Some b -> ParseTime (cf_start_time f) = Some start -> ParseTime (cf_end_time f) = Some end_ ->
      ReportPriceCsv sc (getlines (string_of_bytes b)) start end_ = Refused why -> convert_reason f why
  | bad_ohlc_csv file b start end_ why : inputs (cf_input f) = [file] -> file = ohlc_csv (cf_input f) ->
      readable env file = Some b -> ParseTime (cf_start_time f) = Some start -> ParseTime (cf_end_time f) = Some end_ ->
      ReportOhlcCsv sc (getlines (string_of_bytes b)) start end_ = Refused why -> convert_reason f why
  | bad_side_csv file b start end_ why : inputs (cf_input f) = [file] -> file = side_csv (cf_input f) ->
      readable env file = Some b -> ParseTime (cf_start_time f) = Some start -> ParseTime (cf_end_time f) = Some end_ ->
      ReportSideCsv sc (getlines (string_of_bytes b)) start end_ = Refused why -> convert_reason f why
  | bad_price_proto file b start end_ log why : inputs (cf_input f) = [file] -> file = price_proto (cf_input f) ->
      readable env file = Some b -> ParseTime (cf_start_time f) = Some start -> ParseTime (cf_end_time f) = Some end_ ->
      ReadProtoFile env seconds debug_string PriceRecordType (fun m => get_int (pm_timestamp m))
        (@price_validator lm as_) 0 file start end_ = Done (log, Refused why) -> convert_reason f why
  | bad_ohlc_proto file b start end_ log why : inputs (cf_input f) = [file] -> file = ohlc_proto (cf_input f) ->
      readable env file = Some b -> ParseTime (cf_start_time f) = Some start -> ParseTime (cf_end_time f) = Some end_ ->
      ReadProtoFile env seconds debug_string OhlcTickType (fun m => get_int (tm_timestamp m))
        (@tick_validator lm as_) 0 file start end_ = Done (log, Refused why) -> convert_reason f why
  | closed_output file :
      In file [cf_output_price f; cf_output_ohlc f; cf_output_side f] -> given file = true ->
      writable env file = false -> convert_reason f ("Cannot open the input file: " +++ file).
End Reasons.

(** The written file is announced with the number of its records. *)
Definition announced (log : list console_line) (file : string) (b : bytes) : Prop :=
  exists (T : message_type) (h : list (msg T)) n, b = WriteDelimitedMessages T h
    /\ number n = Some (Z.of_nat (List.length h))
    /\ In (Info ("Writing " +++ n +++ " records to the file: " +++ file)) log.

(** The gaps are printed one per line after the line "Top n gaps:". *)
Definition prints_gaps (log : list console_line) (top_n : Z) (gaps : list string) : Prop :=
  gaps = [] \/ exists before n after, number n = Some top_n /\
    log = before ++ Info ("Top " +++ n +++ " gaps:") :: map Info gaps ++ after.

(** * trader *)

(** Right-aligned in a column of width w. *)
Definition aligned (w : nat) (s t : string) : Prop :=
  exists n, t = spaces n +++ s /\ String.length t = Nat.max w (String.length s).

(** A line of the period table: the period; the trader's and the base gain in percent with
    two decimals; score and the two volatilities with three. *)
Definition shows_row (row : table_row) (line : string) : Prop :=
  exists g b s v w g' b' s' v' w',
    column 2 g (row_gain row) /\ column 2 b (row_base_gain row) /\ column 3 s (row_score row)
    /\ column 3 v (row_trader_volatility row) /\ column 3 w (row_base_volatility row)
    /\ aligned 9 g g' /\ aligned 9 b b' /\ aligned 8 s s' /\ aligned 8 v v' /\ aligned 8 w w'
    /\ line = "[" +++ row_start row +++ " - " +++ row_end row +++ "): " +++ g' +++ "% " +++ b' +++ "% "
              +++ s' +++ " " +++ v' +++ " " +++ w'.

(** Split at white space, such a line has ten words. *)
Definition row_words (row : table_row) (line : string) : Prop :=
  exists d1 c1 d2 c2 g b s v w,
    row_start row = d1 +++ " " +++ c1 /\ row_end row = d2 +++ " " +++ c2
    /\ words line = ["[" +++ d1; c1; "-"; d2; c2 +++ "):"; g +++ "%"; b +++ "%"; s; v; w]
    /\ column 2 g (row_gain row) /\ column 2 b (row_base_gain row) /\ column 3 s (row_score row)
    /\ column 3 v (row_trader_volatility row) /\ column 3 w (row_base_volatility row).

(** A line of the ranking: the name and the score with five decimals. *)
Definition shows_rank (row : string * f32) (line : string) : Prop :=
  exists s, column 5 s (snd row) /\ line = fst row +++ ": " +++ s.

Section TraderReasons.
  Context {lm : libm} {as_ : bool} (env : environment).

  (** The reasons why trader fails. *)
  Inductive trader_reason (f : trader_flags) : string -> Prop :=
  | trader_bad_start : ParseTime (tf_start_time f) = None ->
      trader_reason f ("Cannot parse datetime: " +++ tf_start_time f)
  | trader_bad_end : ParseTime (tf_end_time f) = None ->
      trader_reason f ("Cannot parse datetime: " +++ tf_end_time f)
  | trader_closed_input file : (file = tf_input_ohlc f \/ (file = tf_input_side f /\ given file = true)) ->
      readable env file = None -> trader_reason f ("Cannot open the input file: " +++ file)
  | trader_bad_ohlc b ms st : readable env (tf_input_ohlc f) = Some b ->
      ReadDelimitedVector OhlcTickType b = Some (ms, st) -> st <> Ok ->
      trader_reason f "Cannot parse the input stream"
  | trader_bad_side b ms st : given (tf_input_side f) = true -> readable env (tf_input_side f) = Some b ->
      ReadDelimitedVector SideInputRecordType b = Some (ms, st) -> st <> Ok ->
      trader_reason f "Cannot parse the input stream"
  | trader_no_logging file : In file [tf_exchange_log f; tf_trader_log f] -> given file = true ->
      (0 < tf_evaluation_period_months f)%Z -> tf_evaluate_batch f = false ->
      trader_reason f "Logging disabled when evaluating multiple periods"
  | trader_closed_log file : In file [tf_exchange_log f; tf_trader_log f] -> given file = true ->
      writable env file = false -> tf_evaluate_batch f = false ->
      trader_reason f ("Cannot open the file: " +++ file).

  (** The lines about a file that was read: how many messages it has and how many of the
      records are used. *)
  Definition says_loaded (log : list console_line) (T : message_type) {R} (record : msg T -> R) (ts : R -> Z)
             (file : string) (start end_ : Z) : Prop :=
    exists b ms used n k t before after,
      readable env file = Some b /\ ReadDelimitedVector T b = Some (ms, Ok)
      /\ HistorySubsetCopy ts (map record ms) start end_ = Done used
      /\ number n = Some (Z.of_nat (List.length ms)) /\ number k = Some (Z.of_nat (List.length used))
      /\ log = before ++ [Info ("- Loaded " +++ n +++ " records in " +++ t +++ " seconds");
                          Info ("- Selected " +++ k +++ " records within the time period: ["
                                +++ FormatTimeUTC start +++ " - " +++ FormatTimeUTC end_ +++ ")")] ++ after.
End TraderReasons.
