(** What a history reader should return. *)
From Coq Require Import ZArith Bool List String Ascii.
From Verif.Model Require Import Outcome Machine Types History Proto Convert.
From Verif.Spec Require Import SeriesSpec.
Import ListNotations.
Local Open Scope Z_scope.

Section Rows.
  Context {T : Type} (ts : T -> Z) (valid : T -> Prop).

  (** A row before a positive start; a row (not before the start) at or after a positive end. *)
  Definition too_early (start : Z) (r : T) : bool := (0 <? start) && (ts r <? start).
  Definition at_end (start end_ : Z) (r : T) : bool :=
    negb (too_early start r) && (0 <? end_) && (end_ <=? ts r).

  (** The rows up to (excluding) the first one satisfying stop. *)
  Fixpoint until {A} (stop : A -> bool) (rows : list A) : list A :=
    match rows with
    | [] => []
    | r :: rows' => if stop r then [] else r :: until stop rows'
    end.

  (** The rows in range: up to the first row at or after the end, without those before
      the start. *)
  Definition rows_in_range (start end_ : Z) (rows : list T) : list T :=
    filter (fun r => negb (too_early start r)) (until (at_end start end_) rows).

  (** Positive, non-decreasing timestamps and only valid records. *)
  Definition valid_history (h : list T) : Prop :=
    ordered ts h /\ forall r, In r h -> 0 < ts r /\ valid r.
End Rows.

Section Valid.
  Context {M : machine}.

  (** Not a non-positive price and not a negative volume. *)
  Definition price_ok (r : price_record) : Prop :=
    fleb (pr_price r) (fofZ 0) = false /\ fltb (pr_volume r) (fofZ 0) = false.

  (** No price is non-positive, none contradicts low <= open, close <= high, no negative
      volume. *)
  Definition ohlc_ok (t : ohlc_tick) : Prop :=
    fleb (open t) (fofZ 0) = false /\ fleb (high t) (fofZ 0) = false /\
    fleb (low t) (fofZ 0) = false /\ fleb (close t) (fofZ 0) = false /\
    fltb (open t) (low t) = false /\ fltb (high t) (low t) = false /\
    fltb (close t) (low t) = false /\ fltb (high t) (open t) = false /\
    fltb (high t) (close t) = false /\ fltb (volume t) (fofZ 0) = false.
End Valid.

(** The numbers written on a CSV line. *)
Section Lines.
  Context {M : machine} (sc : @scanner M).

  (** n numbers, each after a comma. *)
  Fixpoint comma_numbers (n : nat) (s : string) : option (list flt) :=
    match n with
    | O => Some []
    | S n' =>
      match s with
      | String c s1 =>
        if Ascii.eqb c "," then
          match scan_float sc s1 with
          | Some (x, s2) =>
            match comma_numbers n' s2 with Some xs => Some (x :: xs) | None => None end
          | None => None
          end
        else None
      | EmptyString => None
      end
    end.

  (** An integer followed by n comma-separated numbers. *)
  Definition line_numbers (n : nat) (line : string) : option (Z * list flt) :=
    match scan_int sc line with
    | Some (t, s) =>
      match comma_numbers n s with Some xs => Some (t, xs) | None => None end
    | None => None
    end.

  (** All numbers up to the first text that is not one (white space separated). *)
  Inductive numbers : string -> list flt -> Prop :=
  | numbers_end s : scan_float sc s = None -> numbers s []
  | numbers_more s x s' xs : scan_float sc s = Some (x, s') -> numbers s' xs -> numbers s (x :: xs).
End Lines.

(** Reading a number consumes at least one character. *)
Definition consuming {M : machine} (sc : @scanner M) : Prop :=
  forall s x s', scan_float sc s = Some (x, s') -> (String.length s' < String.length s)%nat.

(** Side histories in CSV files: a timestamp and signals, separated by commas or spaces. *)
Section SideLines.
  Context {M : machine} (sc : @scanner M).

  Definition side_line (line : string) (r : side_record) : Prop :=
    exists s, scan_int sc (replace_commas line) = Some (sr_timestamp_sec r, s) /\
              numbers sc s (sr_signal r).

  (** The rows of the lines up to the first row at or after the end; every line up to there
      has a timestamp. *)
  Inductive side_rows (start end_ : Z) : list string -> list side_record -> Prop :=
  | side_rows_eof : side_rows start end_ [] []
  | side_rows_stop line lines r :
      side_line line r -> at_end sr_timestamp_sec start end_ r = true ->
      side_rows start end_ (line :: lines) []
  | side_rows_next line lines r rows :
      side_line line r -> at_end sr_timestamp_sec start end_ r = false ->
      side_rows start end_ lines rows -> side_rows start end_ (line :: lines) (r :: rows).

  (** Positive, strictly increasing timestamps; the same positive number of signals. *)
  Definition valid_side_history (h : list side_record) : Prop :=
    (forall r, In r h -> 0 < sr_timestamp_sec r /\ (0 < List.length (sr_signal r))%nat) /\
    (forall i j r r', nth_error h i = Some r -> nth_error h j = Some r' -> (i < j)%nat ->
                      sr_timestamp_sec r < sr_timestamp_sec r') /\
    (forall r r', In r h -> In r' h -> List.length (sr_signal r) = List.length (sr_signal r')).
End SideLines.
