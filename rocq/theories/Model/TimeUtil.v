(** util/time.cc: adding months.

    absl::ToCivilSecond / absl::CivilSecond / absl::FromCivil in UTC implement the
    proleptic Gregorian calendar (external library, modelled by the usual
    era-based day count).  That these functions are the Gregorian calendar is
    proved in Proofs/TimeProofs.v against a month-length specification.
    absl::Time saturation and int64 overflow are not modelled. *)

From Coq Require Import ZArith.
Local Open Scope Z_scope.

(** Days from 1970-01-01 to the civil day (y, m, d); m in 1..12. *)
Definition days_from_civil (y m d : Z) : Z :=
  let y' := if m <=? 2 then y - 1 else y in
  let era := y' / 400 in
  let yoe := y' - era * 400 in
  let mp := if m <=? 2 then m + 9 else m - 3 in
  let doy := (153 * mp + 2) / 5 + d - 1 in
  let doe := yoe * 365 + yoe / 4 - yoe / 100 + doy in
  era * 146097 + doe - 719468.

(** The civil day (y, m, d) of a day number. *)
Definition civil_from_days (z0 : Z) : Z * Z * Z :=
  let z := z0 + 719468 in
  let era := z / 146097 in
  let doe := z - era * 146097 in
  let yoe := (doe - doe / 1460 + doe / 36524 - doe / 146096) / 365 in
  let doy := doe - (365 * yoe + yoe / 4 - yoe / 100) in
  let mp := (5 * doy + 2) / 153 in
  let d := doy - (153 * mp + 2) / 5 + 1 in
  let m := if mp <? 10 then mp + 3 else mp - 9 in
  let y := yoe + era * 400 + (if m <=? 2 then 1 else 0) in
  (y, m, d).

(** A civil time in UTC. *)
Record civil_second : Type := CivilSecond {
  cs_year : Z; cs_month : Z; cs_day : Z; cs_hour : Z; cs_minute : Z; cs_second : Z
}.

(** absl::ToCivilSecond(FromUnixSeconds(t), UTC). *)
Definition ToCivilSecond (t : Z) : civil_second :=
  let days := t / 86400 in
  let tod := t mod 86400 in
  let '(y, m, d) := civil_from_days days in
  CivilSecond y m d (tod / 3600) ((tod / 60) mod 60) (tod mod 60).

(** absl::ToUnixSeconds(FromCivil(CivilSecond(y, m, d, hh, mm, ss), UTC)): the
    constructor normalises an out-of-range month by carrying into the year and an
    out-of-range day by counting on from the first of the month. *)
Definition FromCivil (y m d hh mm ss : Z) : Z :=
  let m0 := m - 1 in
  let y' := y + m0 / 12 in
  let m' := m0 mod 12 + 1 in
  (days_from_civil y' m' 1 + (d - 1)) * 86400 + hh * 3600 + mm * 60 + ss.

(** util/time.cc:37-48 AddMonthsToTime, AddMonthsToTimestampSec. *)
Definition AddMonthsToTimestampSec (t months : Z) : Z :=
  let cs := ToCivilSecond t in
  FromCivil (cs_year cs) (cs_month cs + months) (cs_day cs)
            (cs_hour cs) (cs_minute cs) (cs_second cs).
