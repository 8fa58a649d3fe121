(** convert.cc: readers, validators, flag checks, duration printing, and the
    price -> OHLC conversion.  Log output (except DurationToString) is not modelled. *)

From Coq Require Import ZArith Bool List String Ascii.
From Verif.Model Require Import Outcome Machine Types History Proto Traders.
Import ListNotations.

Section Convert.
  Context {M : machine}.
  Local Open Scope flt_scope.

  (** The C library's number scanners (external): each returns the number at the start
      of the text (after white space) and the rest, or None on a matching failure. *)
  Record scanner : Type := Scanner {
    scan_int : string -> option (Z * string);     (* %lld, operator>>(int64_t&) *)
    scan_float : string -> option (flt * string)  (* %f, operator>>(float&) *)
  }.
  Context (sc : scanner).

  (** A literal ',' in a scanf format. *)
  Definition scan_comma (s : string) : option string :=
    match s with
    | String c s' => if Ascii.eqb c "," then Some s' else None
    | EmptyString => None
    end.

  (** ",%f" repeated: assigns the variables in order until the first failure; the
      variables after it keep their old values. *)
  Fixpoint scan_floats (vars : list flt) (s : string) : list flt :=
    match vars with
    | [] => []
    | v :: vars' =>
      match scan_comma s with
      | None => vars
      | Some s1 =>
        match scan_float sc s1 with
        | None => vars
        | Some (x, s2) => x :: scan_floats vars' s2
        end
      end
    end.

  (** sscanf(line, "%lld,%f,...,%f", &timestamp_sec, &...): convert.cc:84, 140-141. *)
  Definition sscanf (vars : Z * list flt) (line : string) : Z * list flt :=
    match scan_int sc line with
    | None => vars
    | Some (t, s) => (t, scan_floats (snd vars) s)
    end.

  (** What happens to one parsed row: convert.cc:85-107, 142-168, 252-273. *)
  Inductive row_action : Type := Skip | Stop | Fail | Take.

  Definition row_action_of (start_ts end_ts prev ts : Z) (valid : bool) : row_action :=
    if ((start_ts >? 0) && (ts <? start_ts))%Z then Skip
    else if ((end_ts >? 0) && (ts >=? end_ts))%Z then Stop
    else if ((ts <=? 0) || (ts <? prev))%Z then Fail
    else if valid then Take else Fail.

  (** convert.cc:95-102: price <= 0 or volume < 0 is invalid (also 289-298). *)
  Definition valid_price_volume (price volume : flt) : bool :=
    negb (price <=? #0) && negb (volume <? #0).

  (** convert.cc:152-160 (also 308-322). *)
  Definition valid_ohlc (o h l c v : flt) : bool :=
    negb ((o <=? #0) || (h <=? #0) || (l <=? #0) || (c <=? #0) || (l >? o) || (l >? h)
          || (l >? c) || (h <? o) || (h <? c))
    && negb (v <? #0).

  (** convert.cc:82-108: the row loop of ReadPriceHistoryFromCsvFile; [acc] is the
      history read so far, newest first; None = an error status. *)
  Fixpoint price_csv_loop (start_ts end_ts : Z) (lines : list string) (prev : Z)
           (vars : Z * list flt) (acc : list price_record) : option (list price_record) :=
    match lines with
    | [] => Some acc
    | line :: lines' =>
      let vars := sscanf vars line in
      let ts := fst vars in
      let price := nth 0 (snd vars) #0 in
      let volume := nth 1 (snd vars) #0 in
      match row_action_of start_ts end_ts prev ts (valid_price_volume price volume) with
      | Skip => price_csv_loop start_ts end_ts lines' prev vars acc
      | Stop => Some acc
      | Fail => None
      | Take => price_csv_loop start_ts end_ts lines' ts vars (PriceRecord ts price volume :: acc)
      end
    end.

  (** convert.cc:62-113 ReadPriceHistoryFromCsvFile on the lines of the file. *)
  Definition ReadPriceHistoryFromCsv (lines : list string) (start_ts end_ts : Z)
    : option (list price_record) :=
    option_map (@rev _) (price_csv_loop start_ts end_ts lines 0 (0%Z, [#0; #0]) []).

  (** convert.cc:138-169: the row loop of ReadOhlcHistoryFromCsvFile. *)
  Fixpoint ohlc_csv_loop (start_ts end_ts : Z) (lines : list string) (prev : Z)
           (vars : Z * list flt) (acc : list ohlc_tick) : option (list ohlc_tick) :=
    match lines with
    | [] => Some acc
    | line :: lines' =>
      let vars := sscanf vars line in
      let ts := fst vars in
      let o := nth 0 (snd vars) #0 in
      let h := nth 1 (snd vars) #0 in
      let l := nth 2 (snd vars) #0 in
      let c := nth 3 (snd vars) #0 in
      let v := nth 4 (snd vars) #0 in
      match row_action_of start_ts end_ts prev ts (valid_ohlc o h l c v) with
      | Skip => ohlc_csv_loop start_ts end_ts lines' prev vars acc
      | Stop => Some acc
      | Fail => None
      | Take => ohlc_csv_loop start_ts end_ts lines' ts vars (OhlcTick ts o h l c v :: acc)
      end
    end.

  (** convert.cc:116-174 ReadOhlcHistoryFromCsvFile. *)
  Definition ReadOhlcHistoryFromCsv (lines : list string) (start_ts end_ts : Z)
    : option (list ohlc_tick) :=
    option_map (@rev _) (ohlc_csv_loop start_ts end_ts lines 0 (0%Z, [#0; #0; #0; #0; #0]) []).

  (** convert.cc:198: std::replace(',', ' '). *)
  Fixpoint replace_commas (s : string) : string :=
    match s with
    | EmptyString => EmptyString
    | String c s' => String (if Ascii.eqb c "," then " "%char else c) (replace_commas s')
    end.

  (** convert.cc:217-219: while (iss >> signal) add_signal. *)
  Fixpoint stream_floats (fuel : nat) (s : string) : list flt :=
    match fuel with
    | O => []
    | S fuel' =>
      match scan_float sc s with
      | None => []
      | Some (x, s') => x :: stream_floats fuel' s'
      end
    end.

  (** convert.cc:196-227: the row loop of ReadSideHistoryFromCsvFile. *)
  Fixpoint side_csv_loop (start_ts end_ts : Z) (lines : list string) (prev : Z)
           (num_signals : nat) (acc : list side_record) : option (list side_record) :=
    match lines with
    | [] => Some acc
    | line :: lines' =>
      let line := replace_commas line in
      match scan_int sc line with
      | None => None
      | Some (ts, s) =>
        if ((start_ts >? 0) && (ts <? start_ts))%Z
        then side_csv_loop start_ts end_ts lines' prev num_signals acc
        else if ((end_ts >? 0) && (ts >=? end_ts))%Z then Some acc
        else if ((ts <=? 0) || (ts <=? prev))%Z then None
        else
          let signals := stream_floats (String.length s) s in
          let num_signals := if (num_signals =? 0)%nat then List.length signals else num_signals in
          if (num_signals =? 0)%nat || negb (num_signals =? List.length signals)%nat then None
          else side_csv_loop start_ts end_ts lines' ts num_signals (SideRecord ts signals :: acc)
      end
    end.

  (** convert.cc:177-232 ReadSideHistoryFromCsvFile. *)
  Definition ReadSideHistoryFromCsv (lines : list string) (start_ts end_ts : Z)
    : option (list side_record) :=
    option_map (@rev _) (side_csv_loop start_ts end_ts lines 0 0 []).
End Convert.

Section ConvertProto.
  Context {M : machine}.
  Local Open Scope flt_scope.

  Section Reader.
    Context {T : Type} (ts : T -> Z) (validate : T -> bool).

    (** convert.cc:247-274: the reader callback; the state is (timestamp_sec_prev, history). *)
    Definition history_reader (start_ts end_ts : Z) (s : Z * list T) (m : T)
      : (Z * list T) * reader_status :=
      match row_action_of start_ts end_ts (fst s) (ts m) (validate m) with
      | Skip => (s, kContinue)
      | Stop => (s, kBreak)
      | Fail => (s, ReaderError)
      | Take => ((ts m, snd s ++ [m]), kContinue)
      end.

    (** util/proto.h:33-65 applied to an (undamaged) stream of messages. *)
    Fixpoint read_messages {S} (reader : S -> T -> S * reader_status) (s : S) (ms : list T)
      : S * status :=
      match ms with
      | [] => (s, Ok)
      | m :: ms' =>
        let (s', st) := reader s m in
        match st with
        | ReaderError => (s', Aborted)
        | kBreak => (s', Ok)
        | kContinue => read_messages reader s' ms'
        end
      end.

    (** convert.cc:235-282 ReadHistoryFromDelimitedProtoFile on the messages of the file. *)
    Definition ReadHistoryFromMessages (ms : list T) (start_ts end_ts : Z) : option (list T) :=
      match read_messages (history_reader start_ts end_ts) (0%Z, []) ms with
      | ((_, history), Ok) => Some history
      | _ => None
      end.
  End Reader.

  (** convert.cc:285-300 and 303-324: the two instances. *)
  Definition ReadPriceHistoryFromProto (ms : list price_record) (start_ts end_ts : Z) :=
    ReadHistoryFromMessages pr_timestamp_sec
      (fun r => valid_price_volume (pr_price r) (pr_volume r)) ms start_ts end_ts.
  Definition ReadOhlcHistoryFromProto (ms : list ohlc_tick) (start_ts end_ts : Z) :=
    ReadHistoryFromMessages timestamp_sec
      (fun t => valid_ohlc (open t) (high t) (low t) (close t) (volume t)) ms start_ts end_ts.

  (** convert.cc:380-402 ConvertPriceHistoryToOhlcHistory.  PrintOutliersWithContext
      (convert.cc:352-377) asserts that every index it prints is inside the history; that
      assert is part of the model, the printing is not. *)
  Definition ConvertPriceHistoryToOhlcHistory (max_dev : flt) (last_n_outliers sampling_rate : Z)
             (history : list price_record) : outcome (list ohlc_tick) :=
    let (clean, idx) := RemoveOutliers history max_dev (Some []) in
    let n := Z.of_nat (List.length history) in
    let ctx := GetOutlierIndicesWithContext
                 (match idx with Some v => v | None => [] end) n 5 5 (size_t_wrap last_n_outliers) in
    assert_ (forallb (fun kv => (fst kv <? n)%Z) ctx) ;;
    Resample clean sampling_rate.
End ConvertProto.

(** absl::StrFormat "%02d" of a number. *)
Definition fmt_02d (z : Z) : string :=
  if ((0 <=? z) && (z <? 10))%Z then ("0" ++ fmt_d z)%string else fmt_d z.

(** convert.cc:327-329: hours, minutes, seconds (C++ / and % truncate). *)
Definition duration_parts (duration_sec : Z) : Z * Z * Z :=
  (Z.quot duration_sec 3600, Z.rem (Z.quot duration_sec 60) 60, Z.rem duration_sec 60).

(** convert.cc:326-331 DurationToString. *)
Definition DurationToString (duration_sec : Z) : string :=
  let '(h, m, s) := duration_parts duration_sec in
  (fmt_d h ++ ":" ++ fmt_02d m ++ ":" ++ fmt_02d s)%string.

(** The five input file flags of convert.cc (convert.cc:14-31). *)
Record input_flags : Type := InputFlags {
  price_csv : string; price_proto : string; ohlc_csv : string; ohlc_proto : string;
  side_csv : string
}.

Definition nonempty (s : string) : bool := negb (String.eqb s "").

(** convert.cc:440-475: true iff the program goes on after the flag checks. *)
Definition check_input_flags (f : input_flags) : bool :=
  if nonempty (price_csv f) && nonempty (price_proto f) then false
  else if nonempty (ohlc_csv f) && nonempty (ohlc_proto f) then false
  else
    let read_price := nonempty (price_csv f) || nonempty (price_proto f) in
    let read_ohlc := nonempty (ohlc_csv f) || nonempty (ohlc_proto f) in
    let read_side := nonempty (side_csv f) in
    let n := ((if read_price then 1 else 0) + (if read_ohlc then 1 else 0)
              + (if read_side then 1 else 0))%nat in
    if (1 <? n)%nat then false
    else if (n =? 0)%nat then false
    else true.
