(** util/time.cc: times as text.

    absl::ParseTime and absl::FormatTime are external; they are modelled after
    absl/time/format.cc and cctz time_zone_format.cc (Abseil LTS of WORKSPACE).  A time is
    its number of seconds since 1970-01-01 00:00:00 UTC; the formats of util/time.cc have
    no subseconds.  The limits of int64 years are not modelled. *)

From Coq Require Import ZArith Bool List String Ascii.
From Verif.Model Require Import TimeUtil Traders Convert.
Import ListNotations.
Local Open Scope Z_scope.

(** util/time.cc:33-35 FormatTimeUTC: "%Y-%m-%d %H:%M:%S" (%Y is not padded, the other
    fields have two digits). *)
Definition FormatTimeUTC (t : Z) : string :=
  let cs := ToCivilSecond t in
  (fmt_d (cs_year cs) ++ "-" ++ fmt_02d (cs_month cs) ++ "-" ++ fmt_02d (cs_day cs) ++ " "
   ++ fmt_02d (cs_hour cs) ++ ":" ++ fmt_02d (cs_minute cs) ++ ":" ++ fmt_02d (cs_second cs))%string.

(** std::isspace in the C locale. *)
Definition is_space (c : ascii) : bool :=
  let n := nat_of_ascii c in ((n =? 32) || ((9 <=? n) && (n <=? 13)))%nat.

Fixpoint skip_spaces (s : string) : string :=
  match s with
  | String c s' => if is_space c then skip_spaces s' else s
  | EmptyString => s
  end.

Definition digit_of (c : ascii) : option Z :=
  let n := Z.of_nat (nat_of_ascii c) in
  if (48 <=? n) && (n <=? 57) then Some (n - 48) else None.

(** The digits at the start of the text, at most [width] of them if [width] > 0 (None =
    no limit): their value, their number and the rest. *)
Fixpoint parse_digits (width : option nat) (s : string) (value : Z) (count : nat)
  : Z * nat * string :=
  match s with
  | String c s' =>
    match digit_of c, width with
    | _, Some O => (value, count, s)
    | Some d, _ =>
      parse_digits (match width with Some (S w) => Some w | _ => None end) s'
                   (value * 10 + d) (S count)
    | None, _ => (value, count, s)
    end
  | EmptyString => (value, count, s)
  end.

(** cctz ParseInt(dp, width, min, max): an optional '-' (counted in the width) and digits;
    "-0" is refused.  [lo], [hi] = None: the int64 limits, not modelled. *)
Definition parse_int (width : option nat) (lo hi : option Z) (s : string) : option (Z * string) :=
  let '(neg, width, s1) :=
    match s with
    | String c s' => if Ascii.eqb c "-"
                     then (true, match width with Some w => Some (pred w) | None => None end, s')
                     else (false, width, s)
    | EmptyString => (false, width, s)
    end in
  let '(v, n, rest) := parse_digits width s1 0 0 in
  if (n =? 0)%nat then None
  else if neg && (v =? 0) then None
  else
    let v := if neg then - v else v in
    if match lo with Some l => l <=? v | None => true end
       && match hi with Some h => v <=? h | None => true end
    then Some (v, rest) else None.

(** An unsigned two digit field of ParseOffset: the value and the rest; exactly two
    characters must have been used. *)
Definition parse_two (hi : Z) (s : string) : option (Z * string) :=
  match parse_int (Some 2%nat) (Some 0) (Some hi) s with
  | Some (v, rest) =>
    if (String.length s - String.length rest =? 2)%nat then Some (v, rest) else None
  | None => None
  end.

Definition skip_colon (s : string) : string :=
  match s with
  | String c s' => if Ascii.eqb c ":" then s' else s
  | EmptyString => s
  end.

(** cctz ParseOffset(dp, ":"): Z, or a sign, hh[[:]mm[[:]ss]]. *)
Definition parse_offset (s : string) : option (Z * string) :=
  match s with
  | EmptyString => None
  | String c s' =>
    if Ascii.eqb c "+" || Ascii.eqb c "-" then
      match parse_two 23 s' with
      | None => None
      | Some (h, s1) =>
        let '(m, sec, rest) :=
          match parse_two 59 (skip_colon s1) with
          | None => (0, 0, s1)
          | Some (m, s2) =>
            match parse_two 59 (skip_colon s2) with
            | None => (m, 0, s2)
            | Some (sec, s3) => (m, sec, s3)
            end
          end in
        let off := (h * 60 + m) * 60 + sec in
        Some (if Ascii.eqb c "-" then - off else off, rest)
      end
    else if Ascii.eqb c "Z" || Ascii.eqb c "z" then Some (0, s')
    else None
  end.

(** The conversions and literals of the five formats. *)
Inductive fmt_item : Type :=
| FChar (c : ascii) | FSpace
| FYear | FMonth | FDay | FHour | FMinute | FSecond
| FT          (* %ET: 'T' or 't' *)
| FOffset.    (* %Ez *)

(** The fields read so far (cctz parse: year 1970, January 1st, 00:00:00, no offset). *)
Record parsed_time : Type := ParsedTime {
  pt_year : Z; pt_month : Z; pt_day : Z; pt_hour : Z; pt_minute : Z; pt_second : Z;
  pt_offset : Z
}.
Definition parsed_init : parsed_time := ParsedTime 1970 1 1 0 0 0 0.

Definition parse_item (i : fmt_item) (p : parsed_time) (s : string)
  : option (parsed_time * string) :=
  let '(ParsedTime y m d hh mm ss off) := p in
  match i with
  | FSpace => Some (p, skip_spaces s)
  | FChar c => match s with
               | String c' s' => if Ascii.eqb c c' then Some (p, s') else None
               | EmptyString => None
               end
  | FT => match s with
          | String c' s' => if Ascii.eqb c' "T" || Ascii.eqb c' "t" then Some (p, s') else None
          | EmptyString => None
          end
  | FYear => option_map (fun x => (ParsedTime (fst x) m d hh mm ss off, snd x))
                        (parse_int None None None s)
  | FMonth => option_map (fun x => (ParsedTime y (fst x) d hh mm ss off, snd x))
                         (parse_int (Some 2%nat) (Some 1) (Some 12) s)
  | FDay => option_map (fun x => (ParsedTime y m (fst x) hh mm ss off, snd x))
                       (parse_int (Some 2%nat) (Some 1) (Some 31) s)
  | FHour => option_map (fun x => (ParsedTime y m d (fst x) mm ss off, snd x))
                        (parse_int (Some 2%nat) (Some 0) (Some 23) s)
  | FMinute => option_map (fun x => (ParsedTime y m d hh (fst x) ss off, snd x))
                          (parse_int (Some 2%nat) (Some 0) (Some 59) s)
  | FSecond => option_map (fun x => (ParsedTime y m d hh mm (fst x) off, snd x))
                          (parse_int (Some 2%nat) (Some 0) (Some 60) s)
  | FOffset => option_map (fun x => (ParsedTime y m d hh mm ss (fst x), snd x))
                          (parse_offset s)
  end.

Fixpoint parse_items (is : list fmt_item) (p : parsed_time) (s : string)
  : option (parsed_time * string) :=
  match is with
  | [] => Some (p, s)
  | i :: is' =>
    match parse_item i p s with
    | Some (p', s') => parse_items is' p' s'
    | None => None
    end
  end.

(** The end of cctz parse: second 60 is second 59 plus one; the civil second is built and
    must have the month and day that were read (February 30th is refused); the offset is
    subtracted. *)
Definition finish_time (p : parsed_time) : option Z :=
  let '(ParsedTime y m d hh mm ss off) := p in
  let '(ss, off) := if ss =? 60 then (59, off - 1) else (ss, off) in
  let t := FromCivil y m d hh mm ss in
  let cs := ToCivilSecond t in
  if (cs_month cs =? m) && (cs_day cs =? d) then Some (t - off) else None.

(** absl::ParseTime(format, input, &time, nullptr), UTC; "infinite-future" and
    "infinite-past" are accepted by every format (ToUnixSeconds gives the int64 limits). *)
Definition absl_ParseTime (format : list fmt_item) (input : string) : option Z :=
  let s := skip_spaces input in
  let literal name := String.prefix name s
                      && String.eqb (skip_spaces (substring (String.length name)
                                                            (String.length s) s)) "" in
  if literal "infinite-future"%string then Some (2 ^ 63 - 1)
  else if literal "infinite-past"%string then Some (- 2 ^ 63)
  else
    match parse_items format parsed_init s with
    | Some (p, rest) => if String.eqb (skip_spaces rest) "" then finish_time p else None
    | None => None
    end.

(** util/time.cc:12-16 kAllowedTimeFormats. *)
Definition fmt_ymd : list fmt_item :=
  [FYear; FChar "-"; FMonth; FChar "-"; FDay].
Definition fmt_hms : list fmt_item :=
  [FHour; FChar ":"; FMinute; FChar ":"; FSecond].
Definition kAllowedTimeFormats : list (list fmt_item) :=
  [fmt_ymd ++ [FT] ++ fmt_hms ++ [FOffset];              (* absl::RFC3339_sec *)
   fmt_ymd ++ [FSpace] ++ fmt_hms ++ [FSpace; FOffset];
   fmt_ymd ++ [FSpace] ++ fmt_hms;
   fmt_ymd ++ [FSpace; FOffset];
   fmt_ymd].

(** util/time.cc:20-31 ParseTime: the first format that fits. *)
Fixpoint first_format (formats : list (list fmt_item)) (datetime : string) : option Z :=
  match formats with
  | [] => None
  | f :: fs =>
    match absl_ParseTime f datetime with
    | Some t => Some t
    | None => first_format fs datetime
    end
  end.

Definition ParseTime (datetime : string) : option Z := first_format kAllowedTimeFormats datetime.
