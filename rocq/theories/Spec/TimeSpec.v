(** The proleptic Gregorian calendar. *)
From Coq Require Import ZArith Bool List.
Import ListNotations.
Local Open Scope Z_scope.

Definition leap_year (y : Z) : bool :=
  (y mod 4 =? 0) && (negb (y mod 100 =? 0) || (y mod 400 =? 0)).

Definition month_length (y m : Z) : Z :=
  if m =? 2 then (if leap_year y then 29 else 28)
  else if (m =? 4) || (m =? 6) || (m =? 9) || (m =? 11) then 30 else 31.

Definition valid_date (y m d : Z) : Prop := 1 <= m <= 12 /\ 1 <= d <= month_length y m.

(** The month after (y, m). *)
Definition next_month (y m : Z) : Z * Z := if m =? 12 then (y + 1, 1) else (y, m + 1).

(** The month k months after (y, m) (before it, if k is negative). *)
Definition month_plus (y m k : Z) : Z * Z :=
  ((12 * y + (m - 1) + k) / 12, (12 * y + (m - 1) + k) mod 12 + 1).

(** The day after (y, m, d). *)
Definition next_day (y m d : Z) : Z * Z * Z :=
  if d =? month_length y m then (next_month y m, 1) else (y, m, d + 1).

(** The day numbers: 1970-01-01 is day 0 and each day is followed by the next one.  There
    is exactly one such numbering of the valid dates (Proofs/TimeProofs.v). *)
Definition day_numbering (day : Z -> Z -> Z -> Z) : Prop :=
  day 1970 1 1 = 0 /\
  forall y m d, valid_date y m d ->
    let '(y', m', d') := next_day y m d in day y' m' d' = day y m d + 1.

(** Unix time t is second s of the day (y, m, d), in the numbering day. *)
Definition at_civil (day : Z -> Z -> Z -> Z) (t y m d s : Z) : Prop :=
  valid_date y m d /\ 0 <= s < 86400 /\ t = 86400 * day y m d + s.
