(** When convert exits with success. *)
From Coq Require Import ZArith String.
From Coq Require Import List.
From Verif.Model Require Import Machine Types Convert MachineIEEE Programs.
From Verif.Spec Require Import ReaderSpec ProgramSpec CsvTextSpec SideInputSpec.
Import ListNotations.
Local Open Scope string_scope.

Section Exit.
  Context {lm : libm} {as_ : bool} (env : environment).
  Local Notation I := (ieee lm as_).

  (** What an input file says. *)
  Inductive history : Type :=
  | Prices (rows : list (@price_record I))
  | Ticks (rows : list (@ohlc_tick I))
  | Signals (rows : list (@side_record I)).

  (** The one input file of convert can be read, and this is what it says: a CSV file of
      decimal numbers, or an undamaged delimited file. *)
  Inductive input_says (f : convert_flags) : history -> Prop :=
  | price_csv_says file lines rows :
      input_price_csv f file -> readable env file = Some (text_file lines) -> Forall no_line_feed lines ->
      Forall2 price_line lines rows -> input_says f (Prices rows)
  | price_proto_says file b rows :
      input_price_proto f file -> readable env file = Some b -> holds_prices b rows -> input_says f (Prices rows)
  | ohlc_csv_says file lines rows :
      input_ohlc_csv f file -> readable env file = Some (text_file lines) -> Forall no_line_feed lines ->
      Forall2 ohlc_line lines rows -> input_says f (Ticks rows)
  | ohlc_proto_says file b rows :
      input_ohlc_proto f file -> readable env file = Some b -> holds_ticks b rows -> input_says f (Ticks rows)
  | side_csv_says file lines rows :
      input_side_csv f file -> readable env file = Some (text_file lines) -> Forall no_line_feed lines ->
      Forall2 signals_line lines rows -> input_says f (Signals rows).

  (** The records that are used: those from the start time on, up to the first record at or
      after the end time. *)
  Definition used (start end_ : Z) (h : history) : history :=
    match h with
    | Prices rows => Prices (rows_in_range pr_timestamp_sec start end_ rows)
    | Ticks rows => Ticks (rows_in_range timestamp_sec start end_ rows)
    | Signals rows => Signals (rows_in_range sr_timestamp_sec start end_ rows)
    end.

  Definition valid (h : history) : Prop :=
    match h with
    | Prices rows => valid_history pr_timestamp_sec price_ok rows
    | Ticks rows => valid_history timestamp_sec ohlc_ok rows
    | Signals rows => valid_side_history rows
    end.

  (** The output files for such a history. *)
  Definition outputs (f : convert_flags) (h : history) : list string :=
    match h with
    | Prices [] | Ticks [] | Signals [] => []
    | Prices _ => [cf_output_price f; cf_output_ohlc f]
    | Ticks _ => [cf_output_ohlc f]
    | Signals _ => [cf_output_side f]
    end.
  Definition can_write (file : string) : Prop := file = "" \/ writable env file = true.

  (** Prices can be sampled: the sampling period is positive and not longer than the first
      timestamp. *)
  Definition can_sample (f : convert_flags) (h : history) : Prop :=
    match h with
    | Prices rows => (0 < cf_sampling_rate_sec f)%Z
        /\ (forall r, In r rows -> cf_sampling_rate_sec f <= pr_timestamp_sec r)%Z
        /\ (Z.of_nat (List.length rows) < 2 ^ 63)%Z
    | _ => True
    end.
End Exit.
