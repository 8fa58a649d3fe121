(** logging/csv_logger.cc: the CSV logger. *)

From Coq Require Import ZArith Bool List String Ascii.
From Verif.Model Require Import Outcome Machine Types Account Eval Traders.
Import ListNotations.

Section CsvLogger.
  Context {M : machine}.
  Local Open Scope string_scope.

  (** csv_logger.cc:10-18 OhlcTickToCsv. *)
  Definition OhlcTickToCsv (t : ohlc_tick) : string :=
    fmt_d (timestamp_sec t) ++ "," ++ ffmt3 (open t) ++ "," ++ ffmt3 (high t) ++ ","
    ++ ffmt3 (low t) ++ "," ++ ffmt3 (close t) ++ "," ++ ffmt3 (volume t).

  (** csv_logger.cc:21-26 AccountToCsv. *)
  Definition AccountToCsv (a : account) : string :=
    ffmt3 (base_balance a) ++ "," ++ ffmt3 (quote_balance a) ++ "," ++ ffmt3 (total_fee a).

  (** Order::Type_Name, Order::Side_Name (generated from base/base.proto:89-97). *)
  Definition Type_Name (t : order_type) : string :=
    match t with MARKET => "MARKET" | STOP => "STOP" | LIMIT => "LIMIT" end.
  Definition Side_Name (s : order_side) : string :=
    match s with BUY => "BUY" | SELL => "SELL" end.

  (** csv_logger.cc:29-41 OrderToCsv. *)
  Definition OrderToCsv (o : order) : string :=
    Type_Name (get_type o) ++ "," ++ Side_Name (get_side o) ++ ","
    ++ (if is_base_amount o then ffmt3 (get_base_amount o) else "") ++ ","
    ++ (if is_quote_amount o then ffmt3 (get_quote_amount o) else "") ++ ","
    ++ (if fltb (fofZ 0) (get_price o) then ffmt3 (get_price o) else "").

  (** csv_logger.cc:44 EmptyOrderToCsv. *)
  Definition EmptyOrderToCsv : string := ",,,,".

  Definition newline : string := String (ascii_of_nat 10) "".

  (** csv_logger.cc:47-53 and 55-61: the written lines. *)
  Definition exchange_line (t : ohlc_tick) (a : account) : string :=
    OhlcTickToCsv t ++ "," ++ AccountToCsv a ++ "," ++ EmptyOrderToCsv ++ newline.
  Definition exchange_order_line (t : ohlc_tick) (a : account) (o : order) : string :=
    OhlcTickToCsv t ++ "," ++ AccountToCsv a ++ "," ++ OrderToCsv o ++ newline.

  (** csv_logger.h: the two output streams, each possibly null (None); here: the text
      written so far. *)
  Definition csv_streams : Type := option string * option string.

  Definition stream_write (os : option string) (s : string) : option string :=
    match os with None => None | Some x => Some (x ++ s) end.

  (** csv_logger.cc:47-67 CsvLogger. *)
  Definition csv_logger : logger :=
    Logger csv_streams
      (fun st t a => (stream_write (fst st) (exchange_line t a), snd st))
      (fun st t a o => (stream_write (fst st) (exchange_order_line t a o), snd st))
      (fun st s => (fst st, stream_write (snd st) (s ++ newline))).
End CsvLogger.
