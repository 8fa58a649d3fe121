(** The text of a CSV file: numbers in decimal notation, columns, lines; and what the C and
    C++ standards require of the functions that read such numbers. *)
From Coq Require Import ZArith Reals String Ascii Bool.
From Coq Require Import List.
From Flocq Require Import Core BinarySingleNaN.
From Verif.Model Require Import Machine Types Convert MachineIEEE.
From Verif.Spec Require Import ProtoSpec ConsoleSpec.
Import ListNotations.
Local Open Scope string_scope.

(** * Numbers *)

(** An optional sign; true = minus. *)
Inductive sign_text : string -> bool -> Prop :=
| no_sign : sign_text "" false
| plus_sign : sign_text "+" false
| minus_sign : sign_text "-" true.

Definition signed (minus : bool) (n : Z) : Z := if minus then (- n)%Z else n.

(** "12", "+7", "-0012". *)
Inductive integer_text : string -> Z -> Prop :=
| IntegerText sg minus digits n :
    sign_text sg minus -> digits_value digits = Some n -> integer_text (sg ++ digits) (signed minus n).

(** Nothing, "e5", "E-07". *)
Inductive exponent_text : string -> Z -> Prop :=
| no_exponent : exponent_text "" 0
| some_exponent c text e : c = "e"%char \/ c = "E"%char -> integer_text text e -> exponent_text (String c text) e.

(** The text is a number: +n * 10^e, or -n * 10^e if minus is true.
    "12", "-3.25", ".5", "7.", "1.5e-3". *)
Inductive decimal_text : string -> bool -> Z -> Z -> Prop :=
| whole_text sg minus digits n ex e :
    sign_text sg minus -> digits_value digits = Some n -> exponent_text ex e ->
    decimal_text (sg ++ digits ++ ex) minus n e
| point_text sg minus before after n ex e :
    sign_text sg minus -> digits_value (before ++ after) = Some n -> exponent_text ex e ->
    decimal_text (sg ++ before ++ "." ++ after ++ ex) minus n (e - Z.of_nat (String.length after)).

Definition decimal_real (minus : bool) (n e : Z) : R :=
  (IZR (signed minus n) * powerRZ 10 e)%R.

(** The float nearest to the number (ties to even), if the number is not too large. *)
Definition nearest (r : R) (x : f32) : Prop :=
  is_finite x = true /\ B2R x = round radix2 (FLT_exp (-149) 24) ZnearestE r.

(** The text is a number (with this value, not too large for a float) and x is the nearest
    float, with the sign that is written. *)
Definition writes (text : string) (r : R) (x : f32) : Prop :=
  exists minus n e, decimal_text text minus n e /\ r = decimal_real minus n e
    /\ nearest r x /\ Bsign x = minus.
Definition written (text : string) (x : f32) : Prop := exists r, writes text r x.

(** * Lines *)

Definition blank (c : ascii) : Prop :=
  c = " "%char \/ (9 <= nat_of_ascii c <= 13)%nat.
Fixpoint blanks (s : string) : Prop :=
  match s with EmptyString => True | String c s' => blank c /\ blanks s' end.
(** The end of the line, a comma or white space (e.g. the carriage return of a DOS file). *)
Definition ends (s : string) : Prop :=
  match s with EmptyString => True | String c _ => c = ","%char \/ blank c end.

(** Numbers, each after a comma (and white space, if any); then anything that [ends] them.
    What a text of a number says about it is left to [says]. *)
Inductive columns {A} (says : string -> A -> Prop) : list A -> string -> Prop :=
| no_columns s : ends s -> columns says [] s
| column_more b text x xs s :
    blanks b -> says text x -> columns says xs s -> columns says (x :: xs) ("," ++ b ++ text ++ s).

(** A line of a price or OHLC file: the time and the numbers. *)
Inductive csv_line {A} (says : string -> A -> Prop) : Z -> list A -> string -> Prop :=
| CsvLine b text t xs s :
    blanks b -> integer_text text t -> is_int64 t -> columns says xs s -> csv_line says t xs (b ++ text ++ s).

(** The numbers of a line of a side file: separated by commas or white space. *)
Fixpoint separators (s : string) : Prop :=
  match s with EmptyString => True | String c s' => (c = ","%char \/ blank c) /\ separators s' end.
Inductive signals_text : list f32 -> string -> Prop :=
| no_signals s : separators s -> signals_text [] s
| signals_more b text x xs s :
    separators b -> b <> "" -> written text x -> signals_text xs s -> signals_text (x :: xs) (b ++ text ++ s).
Inductive side_csv_line : Z -> list f32 -> string -> Prop :=
| SideCsvLine b text t xs s :
    separators b -> integer_text text t -> is_int64 t -> signals_text xs s ->
    side_csv_line t xs (b ++ text ++ s).

(** * The library *)

(** What scanf (%lld, %f) and operator>> have to do with decimal numbers; nothing is said
    about other texts (hexadecimal numbers, "inf", ...), except that there is no number in
    white space.  [f32] numbers are read correctly rounded. *)
Section Library.
  Context {lm : libm} {as_ : bool} (sc : @scanner (ieee lm as_)).
  Record reads_numbers : Prop := ReadsNumbers {
    reads_integer : forall b text t rest,
      blanks b -> integer_text text t -> is_int64 t -> ends rest ->
      scan_int sc (b ++ text ++ rest) = Some (t, rest);
    reads_decimal : forall b text x rest,
      blanks b -> written text x -> ends rest ->
      scan_float sc (b ++ text ++ rest) = Some (x, rest);
    reads_nothing : forall b, blanks b -> scan_float sc b = None
  }.
End Library.

(** A line for a record. *)
Section Records.
  Context {lm : libm} {as_ : bool}.
  Local Notation I := (ieee lm as_).
  Definition price_line (line : string) (r : @price_record I) : Prop :=
    csv_line written (pr_timestamp_sec r) [pr_price r; pr_volume r] line.
  Definition ohlc_line (line : string) (t : @ohlc_tick I) : Prop :=
    csv_line written (timestamp_sec t) [open t; high t; low t; close t; volume t] line.
  Definition signals_line (line : string) (r : @side_record I) : Prop :=
    side_csv_line (sr_timestamp_sec r) (sr_signal r) line.
End Records.

(** * Sensible rows, by the numbers as they are written *)

(** The text is this number, and it is not too large for a float. *)
Definition says_number (text : string) (r : R) : Prop :=
  exists minus n e, decimal_text text minus n e /\ r = decimal_real minus n e
    /\ (Rabs r <= bpow radix2 128 - bpow radix2 104)%R.

(** The smallest positive float. *)
Definition tiny : R := bpow radix2 (-149).

Definition sensible_price (line : string) (t : Z) : Prop :=
  exists price volume, csv_line says_number t [price; volume] line
    /\ (0 < t)%Z /\ (tiny <= price)%R /\ (0 <= volume)%R.
Definition sensible_ohlc (line : string) (t : Z) : Prop :=
  exists open_ high_ low_ close_ volume_,
    csv_line says_number t [open_; high_; low_; close_; volume_] line
    /\ (0 < t)%Z /\ (tiny <= low_)%R /\ (low_ <= open_ <= high_)%R /\ (low_ <= close_ <= high_)%R
    /\ (0 <= volume_)%R.
