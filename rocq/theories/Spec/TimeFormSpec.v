(** Exactly which texts are times, and which time each of them is. *)
From Coq Require Import ZArith String Ascii.
From Coq Require Import List.
From Verif.Spec Require Import TimeSpec TimeTextSpec.
Import ListNotations.
Local Open Scope Z_scope.
Local Open Scope string_scope.

(** The text of a non-empty sequence of digits, and the number it stands for. *)
Definition digits (ds : list Z) : Prop := ds <> [] /\ Forall (fun d => 0 <= d <= 9) ds.
Fixpoint numeral (ds : list Z) : string :=
  match ds with [] => "" | d :: ds' => String (digit_char d) (numeral ds') end.
Definition numeral_value (ds : list Z) : Z := fold_left (fun v d => 10 * v + d) ds 0.

(** A year: any number of digits, with "-" in front if negative ("-0" is not a year). *)
Definition year_form (s : string) (y : Z) : Prop :=
  exists ds, digits ds
    /\ ((s = numeral ds /\ y = numeral_value ds)
        \/ (s = "-" ++ numeral ds /\ y = - numeral_value ds /\ y <> 0)).
(** The other numbers: one or two digits. *)
Definition short_form (s : string) (v : Z) : Prop :=
  exists ds, digits ds /\ (List.length ds <= 2)%nat /\ s = numeral ds /\ v = numeral_value ds.

Definition date_form (s : string) (y m d : Z) : Prop :=
  exists ys ms ds, year_form ys y /\ short_form ms m /\ short_form ds d
    /\ s = ys ++ "-" ++ ms ++ "-" ++ ds.
Definition clock_form (s : string) (hh mm ss : Z) : Prop :=
  exists hs ms ss', short_form hs hh /\ short_form ms mm /\ short_form ss' ss
    /\ s = hs ++ ":" ++ ms ++ ":" ++ ss'.

(** White space separates a date from a clock; it may be missing if the day has two digits. *)
Definition separated (date gap : string) (d : Z) : Prop :=
  blank gap /\ (gap <> "" \/ exists rest, date = rest ++ "-" ++ two d).

(** The text between leading and trailing white space, and the time it stands for.
    [day] numbers the days; [t] counts seconds. *)
Inductive time_form (day : Z -> Z -> Z -> Z) : string -> Z -> Prop :=
| form_future : time_form day "infinite-future" (2 ^ 63 - 1)
| form_past : time_form day "infinite-past" (- 2 ^ 63)
| form_date date y m d :
    date_form date y m d -> valid_date y m d ->
    time_form day date (86400 * day y m d)
| form_date_zone date y m d gap zone ahead :
    date_form date y m d -> valid_date y m d -> blank gap -> time_zone zone ahead ->
    time_form day (date ++ gap ++ zone) (86400 * day y m d - ahead)
| form_clock date y m d gap clock hh mm ss :
    date_form date y m d -> valid_date y m d -> separated date gap d ->
    clock_form clock hh mm ss -> valid_clock hh mm ss ->
    time_form day (date ++ gap ++ clock) (86400 * day y m d + hh * 3600 + mm * 60 + ss)
| form_clock_zone date y m d gap clock hh mm ss gap' zone ahead :
    date_form date y m d -> valid_date y m d -> separated date gap d ->
    clock_form clock hh mm ss -> valid_clock hh mm ss -> blank gap' -> time_zone zone ahead ->
    time_form day (date ++ gap ++ clock ++ gap' ++ zone)
              (86400 * day y m d + hh * 3600 + mm * 60 + ss - ahead)
| form_rfc3339 date y m d T clock hh mm ss zone ahead :
    date_form date y m d -> valid_date y m d -> T = "T" \/ T = "t" ->
    clock_form clock hh mm ss -> valid_clock hh mm ss -> time_zone zone ahead ->
    time_form day (date ++ T ++ clock ++ zone)
              (86400 * day y m d + hh * 3600 + mm * 60 + ss - ahead).

Definition stands_for (day : Z -> Z -> Z -> Z) (text : string) (t : Z) : Prop :=
  exists before core after, blank before /\ blank after /\ text = before ++ core ++ after
    /\ time_form day core t.
