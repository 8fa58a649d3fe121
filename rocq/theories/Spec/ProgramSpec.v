(** Files and runs of the two programs. *)
From Coq Require Import ZArith String Ascii Bool Permutation.
From Coq Require Import List.
From Verif.Model Require Import Machine Types Eval Proto Convert TimeText MachineIEEE Files Programs.
From Verif.Spec Require Import ProtoSpec SeriesSpec SideInputSpec.
Import ListNotations.

(** The bytes in a file are bytes, and there are less than 2^63 of them. *)
Definition is_byte (x : Z) : Prop := (0 <= x < 256)%Z.
Definition real_files (env : environment) : Prop :=
  forall file b, readable env file = Some b -> Forall is_byte b /\ (Z.of_nat (List.length b) < 2 ^ 63)%Z.

(** The files in the order written: the last content of a name counts. *)
Fixpoint content {A} (files : list (string * A)) (name : string) : option A :=
  match files with
  | [] => None
  | (n, b) :: files' =>
    match content files' name with
    | Some b' => Some b'
    | None => if String.eqb n name then Some b else None
    end
  end.

(** The file system after these files have been written. *)
Definition after (env : environment) (files : list (string * bytes)) : environment :=
  Environment (fun name => match content files name with Some b => Some b | None => readable env name end)
              (writable env).

(** The file system in which this file has this content. *)
Definition with_file (env : environment) (name : string) (b : bytes) : environment := after env [(name, b)].

(** %lld and operator>>(int64_t&) produce int64 values. *)
Definition int64_scanner {M : machine} (sc : @scanner M) : Prop :=
  forall s t rest, scan_int sc s = Some (t, rest) -> is_int64 t.

Section Files.
  Context {lm : libm} {as_ : bool}.
  Local Notation I := (ieee lm as_).

  (** The delimited file of a history. *)
  Definition price_file (h : list (@price_record I)) : bytes :=
    WriteDelimitedMessages PriceRecordType (map msg_of_price h).
  Definition tick_file (h : list (@ohlc_tick I)) : bytes :=
    WriteDelimitedMessages OhlcTickType (map msg_of_tick h).
  Definition side_file (h : list (@side_record I)) : bytes :=
    WriteDelimitedMessages SideInputRecordType (map msg_of_side h).

  (** The file is an undamaged delimited file and these are its records (fields that are not
      set read as zero). *)
  Definition holds_prices (b : bytes) (h : list (@price_record I)) : Prop :=
    exists ms, ReadDelimitedVector PriceRecordType b = Some (ms, Ok) /\ h = map price_of_msg ms.
  Definition holds_ticks (b : bytes) (h : list (@ohlc_tick I)) : Prop :=
    exists ms, ReadDelimitedVector OhlcTickType b = Some (ms, Ok) /\ h = map tick_of_msg ms.
  Definition holds_side (b : bytes) (h : list (@side_record I)) : Prop :=
    exists ms, ReadDelimitedVector SideInputRecordType b = Some (ms, Ok) /\ h = map side_of_msg ms.
End Files.

(** The time flags of convert and of the trader denote these times. *)
Definition convert_times (f : convert_flags) (start end_ : Z) : Prop :=
  ParseTime (cf_start_time f) = Some start /\ ParseTime (cf_end_time f) = Some end_.
Definition trader_times (f : trader_flags) (start end_ : Z) : Prop :=
  ParseTime (tf_start_time f) = Some start /\ ParseTime (tf_end_time f) = Some end_.

(** The output files named by the flags can be opened. *)
Definition outputs_writable (env : environment) (f : convert_flags) : Prop :=
  forall o, In o [cf_output_price f; cf_output_ohlc f; cf_output_side f] ->
            o = EmptyString \/ writable env o = true.

(** The one input file flag that is set. *)
Definition input_price_csv (f : convert_flags) (file : string) : Prop :=
  file <> EmptyString /\ cf_input f = InputFlags file "" "" "" "".
Definition input_price_proto (f : convert_flags) (file : string) : Prop :=
  file <> EmptyString /\ cf_input f = InputFlags "" file "" "" "".
Definition input_ohlc_csv (f : convert_flags) (file : string) : Prop :=
  file <> EmptyString /\ cf_input f = InputFlags "" "" file "" "".
Definition input_ohlc_proto (f : convert_flags) (file : string) : Prop :=
  file <> EmptyString /\ cf_input f = InputFlags "" "" "" file "".
Definition input_side_csv (f : convert_flags) (file : string) : Prop :=
  file <> EmptyString /\ cf_input f = InputFlags "" "" "" "" file.

(** A requested output: the file holding this history, if the flag is set and the history
    is not empty. *)
Definition output {A} (name : string) (b : bytes) (h : list A) : list (string * bytes) :=
  match h with
  | [] => []
  | _ => if String.eqb name "" then [] else [(name, b)]
  end.

(** A text file: lines ended by line feeds. *)
Fixpoint bytes_of_string (s : string) : bytes :=
  match s with
  | EmptyString => []
  | String c s' => Z.of_N (N_of_ascii c) :: bytes_of_string s'
  end.
Definition text_file (lines : list string) : bytes :=
  flat_map (fun line => bytes_of_string line ++ [10%Z]) lines.
Fixpoint no_line_feed (s : string) : Prop :=
  match s with
  | EmptyString => True
  | String c s' => c <> ascii_of_nat 10 /\ no_line_feed s'
  end.

(** The flags with another input. *)
Definition with_input (f : convert_flags) (i : input_flags) : convert_flags :=
  ConvertFlags i (cf_output_price f) (cf_output_ohlc f) (cf_output_side f) (cf_start_time f)
    (cf_end_time f) (cf_max_price_deviation_per_min f) (cf_sampling_rate_sec f)
    (cf_top_n_gaps f) (cf_last_n_outliers f).

(** The input of the trader program. *)

Section TraderInput.
  Context {lm : libm} {as_ : bool}.
  Local Notation I := (ieee lm as_).

  (** The file exists, is undamaged and holds these time-ordered ticks / side records. *)
  Definition tick_input (env : environment) (file : string) (h : list (@ohlc_tick I)) : Prop :=
    exists b, readable env file = Some b /\ holds_ticks b h /\ ordered timestamp_sec h.
  Definition side_input_file (env : environment) (file : string) (h : list (@side_record I)) : Prop :=
    exists b, readable env file = Some b /\ holds_side b h /\ ordered sr_timestamp_sec h.

  (** The records at or after start and before end_. *)
  Definition of_period {R} (ts : R -> Z) (start end_ : Z) (h : list R) : list R :=
    filter (fun r => (start <=? ts r)%Z && (ts r <? end_)%Z) h.

  (** No side input flag; or the records of the period form a usable side history. *)
  Inductive side_data (env : environment) (file : string) (start end_ : Z)
    : option (list (@side_record I)) -> Prop :=
  | no_side : file = EmptyString -> side_data env file start end_ None
  | with_side h : file <> EmptyString -> side_input_file env file h ->
      good_side_history (of_period sr_timestamp_sec start end_ h) ->
      side_data env file start end_ (Some (of_period sr_timestamp_sec start end_ h)).

  (** The flags name a period and input files with these ticks (in total) and these side
      records (in the period). *)
  Record trading_data (env : environment) (f : trader_flags) (start end_ : Z)
         (h : list (@ohlc_tick I)) (side : option (list (@side_record I))) : Prop := TradingData {
    td_times : trader_times f start end_;
    td_period : (0 < start <= end_)%Z;
    td_ticks : tick_input env (tf_input_ohlc f) h;
    td_side : side_data env (tf_input_side f) start end_ side
  }.
End TraderInput.

(** The file is missing or does not consist of whole messages. *)
Definition broken (env : environment) (T : message_type) (file : string) : Prop :=
  match readable env file with
  | None => True
  | Some b => forall ms, ReadDelimitedVector T b <> Some (ms, Ok)
  end.

(** A line of the period table: the two times (as the flags could spell them), the gains in
    percent, the score and the volatilities of this result of a run. *)
Section Printed.
  Context {lm : libm} {as_ : bool}.
  Local Notation I := (ieee lm as_).

  Definition percent_gain (end_ start : @flt I) : f32 :=
    fmul (machine := I) (fsub (machine := I) (fdiv end_ start) (fofZ (machine := I) 1)) (fofZ (machine := I) 100).
  Record row_shows (start end_ : Z) (res : @execution_result I) (row : table_row) : Prop := RowShows {
    rs_start : ParseTime (row_start row) = Some start;
    rs_end : ParseTime (row_end row) = Some end_;
    rs_gain : row_gain row = percent_gain (r_end_value res) (r_start_value res);
    rs_base_gain : row_base_gain row = percent_gain (r_end_price res) (r_start_price res);
    rs_score : row_score row = fdiv (machine := I) (fdiv (r_end_value res) (r_start_value res))
                                                   (fdiv (r_end_price res) (r_start_price res));
    rs_trader_volatility : forall v, r_trader_volatility res = Some v -> row_trader_volatility row = v;
    rs_base_volatility : forall v, r_base_volatility res = Some v -> row_base_volatility row = v
  }.
End Printed.

(** A requested log file with this text. *)
Definition log_file (name text : string) : list (string * string) :=
  if String.eqb name "" then [] else [(name, text)].

(** The ranking of a batch. *)
Section Ranking.
  Context {lm : libm} {as_ : bool}.
  Local Notation I := (ieee lm as_).
  Implicit Types (l : list (@evaluation_result I)).

  Definition better (x y : @evaluation_result I) : bool := fltb (machine := I) (er_score y) (er_score x).
  (** No later element is better than an earlier one. *)
  Definition best_first l : Prop :=
    forall i j x y, nth_error l i = Some x -> nth_error l j = Some y -> (i < j)%nat -> better y x = false.

  (** What std::sort promises: the same elements, best first (if no score is NaN). *)
  Definition sorts (sort : list (@evaluation_result I) -> list (@evaluation_result I)) : Prop :=
    forall l, (List.length l <= 1)%nat \/ (forall x, In x l -> feqb (machine := I) (er_score x) (er_score x) = true) ->
      Permutation l (sort l) /\ best_first (sort l).

  (** The first 20 of the results, best first: nothing left out is better than something shown. *)
  Definition ranks l (rows : list (string * f32)) : Prop :=
    exists shown hidden, Permutation l (shown ++ hidden) /\
      List.length shown = Nat.min 20 (List.length l) /\
      rows = map (fun r => (er_name r, er_score r)) shown /\
      best_first shown /\
      forall x y, In x shown -> In y hidden -> better y x = false.
End Ranking.
