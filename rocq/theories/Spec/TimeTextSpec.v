(** Dates and times as text. *)
From Coq Require Import ZArith String Ascii DecimalString.
Local Open Scope Z_scope.
Local Open Scope string_scope.

(** An integer in decimal ("-" first if negative, no leading zeros). *)
Definition decimal (z : Z) : string := NilZero.string_of_int (Z.to_int z).

(** The two digits of a number in 0..99. *)
Definition digit_char (n : Z) : ascii := ascii_of_nat (48 + Z.to_nat n).
Definition two (n : Z) : string := String (digit_char (n / 10)) (String (digit_char (n mod 10)) "").

(** "YYYY-MM-DD" and "hh:mm:ss". *)
Definition date_text (y m d : Z) : string := decimal y ++ "-" ++ two m ++ "-" ++ two d.
Definition clock_text (hh mm ss : Z) : string := two hh ++ ":" ++ two mm ++ ":" ++ two ss.

(** The texts for a time zone - "Z", or a sign and "hh", "hh:mm" or "hh:mm:ss", with or
    without the colons - and how many seconds that zone is ahead of UTC. *)
Definition sign_text (east : bool) : string := if east then "+" else "-".
Definition signed (east : bool) (n : Z) : Z := if east then n else - n.
Definition separator (s : string) : Prop := s = "" \/ s = ":".
Inductive time_zone : string -> Z -> Prop :=
| zone_utc s : s = "Z" \/ s = "z" -> time_zone s 0
| zone_hours east hh : 0 <= hh <= 23 -> time_zone (sign_text east ++ two hh) (signed east (hh * 3600))
| zone_minutes east hh s1 mm : 0 <= hh <= 23 -> separator s1 -> 0 <= mm <= 59 ->
    time_zone (sign_text east ++ two hh ++ s1 ++ two mm) (signed east (hh * 3600 + mm * 60))
| zone_seconds east hh s1 mm s2 ss : 0 <= hh <= 23 -> separator s1 -> 0 <= mm <= 59 -> separator s2 -> 0 <= ss <= 59 ->
    time_zone (sign_text east ++ two hh ++ s1 ++ two mm ++ s2 ++ two ss) (signed east (hh * 3600 + mm * 60 + ss)).

(** A number of two decimal digits. *)
Definition two_digit_number (n : Z) : Prop := 0 <= n <= 99.
Definition valid_clock (hh mm ss : Z) : Prop := 0 <= hh <= 23 /\ 0 <= mm <= 59 /\ 0 <= ss <= 60.

(** White space: spaces, tabs and line ends. *)
Inductive blank : string -> Prop :=
| blank_none : blank ""
| blank_more n s : List.In n (cons 32 (cons 9 (cons 10 (cons 11 (cons 12 (cons 13 nil))))))%nat -> blank s -> blank (String (ascii_of_nat n) s).
