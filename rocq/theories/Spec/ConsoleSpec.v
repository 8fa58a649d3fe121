(** What a reader of the console sees: numbers, words, and complaints about input records. *)
From Coq Require Import ZArith Reals String Ascii Bool.
From Coq Require Import List.
From Flocq Require Import Core BinarySingleNaN.
From Verif.Model Require Import Machine Types Convert MachineIEEE TimeText Console.
From Verif.Spec Require Import LogSpec SeriesSpec ReaderSpec.
Import ListNotations.
Local Open Scope string_scope.

(** The line feed, byte 10. *)
Definition line_end : string := String line_feed EmptyString.

(** * Numbers with p decimals *)

(** The value of a row of decimal digits; "" and anything else is none. *)
Fixpoint digits_from (acc : Z) (s : string) : option Z :=
  match s with
  | EmptyString => Some acc
  | String c s' =>
    let d := (Z.of_nat (nat_of_ascii c) - 48)%Z in
    if ((0 <=? d) && (d <=? 9))%Z then digits_from (10 * acc + d) s' else None
  end.
Definition digits_value (s : string) : option Z :=
  match s with EmptyString => None | _ => digits_from 0 s end.

(** "123.45" is 12345 hundredths; exactly p digits after the point. *)
Definition unsigned (p : nat) (s : string) : option Z :=
  match split "." s with
  | [whole; fraction] =>
    if (String.length fraction =? p)%nat then
      match digits_value whole, digits_value fraction with
      | Some i, Some f => Some (i * 10 ^ Z.of_nat p + f)%Z
      | _, _ => None
      end
    else None
  | _ => None
  end.
Definition decimal (p : nat) (s : string) : option Z :=
  match s with
  | String "-" s' => option_map Z.opp (unsigned p s')
  | _ => unsigned p s
  end.

(** The text shows the number, to the nearest unit of the p-th decimal. *)
Definition shows_to (p : nat) (s : string) (x : f32) : Prop :=
  exists k, decimal p s = Some k
    /\ (Rabs (IZR k / IZR (10 ^ Z.of_nat p) - B2R x) <= / (2 * IZR (10 ^ Z.of_nat p)))%R.

(** A column: a finite number is shown, anything else is "inf", "-inf" or "nan". *)
Definition column (p : nat) (s : string) (x : f32) : Prop :=
  if is_finite x then shows_to p s x
  else s = match x with B754_infinity true => "-inf" | B754_infinity false => "inf" | _ => "nan" end.

(** The words of a line: the pieces between spaces. *)
Definition words (s : string) : list string :=
  filter (fun w => negb (String.eqb w "")) (split " " s).

(** * Complaints about records *)

(** The first demand (in this order) that the record does not meet. *)
Inductive first_broken {T} (r : T) : list (string * (T -> Prop)) -> string -> Prop :=
| broken_here what (demand : T -> Prop) rest :
    ~ demand r -> first_broken r ((what, demand) :: rest) what
| broken_later what (demand : T -> Prop) rest what' :
    demand r -> first_broken r rest what' -> first_broken r ((what, demand) :: rest) what'.

Definition Invalid_timestamp : string := "Invalid timestamp".

(** What the readers demand of a record, given the records accepted before it. *)
Section Demands.
  Context {M : machine}.
  Definition not_before {T} (ts : T -> Z) (accepted : list T) (r : T) : Prop :=
    (0 < ts r)%Z /\ forall q, In q accepted -> (ts q <= ts r)%Z.
  Definition after_all {T} (ts : T -> Z) (accepted : list T) (r : T) : Prop :=
    (0 < ts r)%Z /\ forall q, In q accepted -> (ts q < ts r)%Z.

  Definition price_demands (accepted : list price_record) : list (string * (price_record -> Prop)) :=
    [(Invalid_timestamp, not_before pr_timestamp_sec accepted);
     ("Invalid price", fun r => fleb (pr_price r) (fofZ 0) = false);
     ("Invalid volume", fun r => fltb (pr_volume r) (fofZ 0) = false)].

  Definition ohlc_demands (accepted : list ohlc_tick) : list (string * (ohlc_tick -> Prop)) :=
    [(Invalid_timestamp, not_before timestamp_sec accepted);
     ("Invalid OHLC prices", fun t =>
        fleb (open t) (fofZ 0) = false /\ fleb (high t) (fofZ 0) = false /\
        fleb (low t) (fofZ 0) = false /\ fleb (close t) (fofZ 0) = false /\
        fltb (open t) (low t) = false /\ fltb (high t) (low t) = false /\
        fltb (close t) (low t) = false /\ fltb (high t) (open t) = false /\
        fltb (high t) (close t) = false);
     ("Invalid volume", fun t => fltb (volume t) (fofZ 0) = false)].

  Definition side_demands (accepted : list side_record) : list (string * (side_record -> Prop)) :=
    [(Invalid_timestamp, after_all sr_timestamp_sec accepted);
     ("Invalid number of signals", fun r =>
        (0 < List.length (sr_signal r))%nat /\
        forall q, In q accepted -> List.length (sr_signal q) = List.length (sr_signal r))].
End Demands.

Section Offence.
  Context {T : Type} (ts : T -> Z) (start end_ : Z).

  (** The records before the i-th one that are not before the start. *)
  Definition accepted (rows : list T) (i : nat) : list T :=
    filter (fun r => negb (too_early ts start r)) (firstn i rows).

  (** The i-th record is in range, reading has not ended before it, all the records accepted
      before meet their demands, and [what] is the first one it does not meet. *)
  Definition offends (demands : list T -> list (string * (T -> Prop))) (rows : list T) (i : nat)
             (what : string) : Prop :=
    exists r, nth_error rows i = Some r
      /\ (forall q, In q (firstn i rows) -> at_end ts start end_ q = false)
      /\ too_early ts start r = false /\ at_end ts start end_ r = false
      /\ (forall j q, nth_error (accepted rows i) j = Some q ->
          forall w, ~ first_broken q (demands (firstn j (accepted rows i))) w)
      /\ first_broken r (demands (accepted rows i)) what.
End Offence.

(** "<what> on the line <i + 1>: <line>" *)
Definition names_line (what : string) (i : nat) (line msg : string) : Prop :=
  exists n, number n = Some (Z.of_nat i + 1)%Z /\ msg = what ++ " on the line " ++ n ++ ": " ++ line.

(** * The report of the outliers *)

(** A line with a price record: a mark, its time as a number and as a date (C68), its price
    with two decimals and its volume with four. *)
Definition shows_record {lm as_} (is_outlier : bool) (r : @price_record (ieee lm as_)) (line : string) : Prop :=
  exists t p v, number t = Some (pr_timestamp_sec r) /\ column 2 p (pr_price r) /\ column 4 v (pr_volume r)
    /\ line = (if is_outlier then " x " else "   ") ++ t ++ " [" ++ FormatTimeUTC (pr_timestamp_sec r) ++ "]: "
              ++ p ++ " [" ++ v ++ "]".

(** The lines for the records with the given indices: one line each, and "   ..." exactly
    between two records that are not neighbours in the history. *)
Inductive outlier_report {lm as_} (history : list (@price_record (ieee lm as_)))
  : list (Z * bool) -> list string -> Prop :=
| report_nothing : outlier_report history [] []
| report_last k b r line :
    nth_error history (Z.to_nat k) = Some r -> shows_record b r line ->
    outlier_report history [(k, b)] [line]
| report_adjacent k b r line k' b' rest lines :
    nth_error history (Z.to_nat k) = Some r -> shows_record b r line -> k' = (k + 1)%Z ->
    outlier_report history ((k', b') :: rest) lines ->
    outlier_report history ((k, b) :: (k', b') :: rest) (line :: lines)
| report_apart k b r line k' b' rest lines :
    nth_error history (Z.to_nat k) = Some r -> shows_record b r line -> (k + 1 < k')%Z ->
    outlier_report history ((k', b') :: rest) lines ->
    outlier_report history ((k, b) :: (k', b') :: rest) (line :: "   ..." :: lines).
