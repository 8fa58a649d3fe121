(** The list of gaps that convert prints. *)
From Coq Require Import ZArith String Ascii List Permutation.
From Verif.Spec Require Import HistorySpec LogSpec TimeSpec TimeTextSpec.
Import ListNotations.
Local Open Scope Z_scope.
Local Open Scope string_scope.

(** The text is the UTC date and time of t: "YYYY-MM-DD hh:mm:ss". *)
Definition utc_text (t : Z) (text : string) : Prop :=
  forall day, day_numbering day -> exists y m d s, at_civil day t y m d s /\
    text = date_text y m d ++ " " ++ clock_text (s / 3600) ((s / 60) mod 60) (s mod 60).

(** The text is a number of seconds written as hours:minutes:seconds. *)
Definition duration_text (n : Z) (text : string) : Prop :=
  exists h m s hs ms ss, text = hs ++ ":" ++ ms ++ ":" ++ ss /\
    number hs = Some h /\ number ms = Some m /\ number ss = Some s /\
    String.length ms = 2%nat /\ String.length ss = 2%nat /\
    0 <= h /\ 0 <= m < 60 /\ 0 <= s < 60 /\ n = 3600 * h + 60 * m + s.

(** The line names both ends of the gap, as a number and as date and time, and its length. *)
Definition says_gap (line : string) (g : Z * Z) : Prop :=
  exists from until how_long, utc_text (fst g) from /\ utc_text (snd g) until /\
    duration_text (gap_length g) how_long /\
    line = decimal (fst g) ++ " [" ++ from ++ "] - " ++ decimal (snd g) ++ " [" ++ until ++ "]: " ++ how_long.

(** How many of k gaps are listed when n are asked for: a negative number means all. *)
Definition listed (n : Z) (k : nat) : nat := if (n <? 0)%Z then k else Nat.min (Z.to_nat n) k.

(** The lines list the n longest gaps between consecutive times, in chronological order; of
    equally long ones the earlier ones. *)
Definition lists_gaps (n : Z) (times : list Z) (lines : list string) : Prop :=
  exists gaps others, Permutation (gaps ++ others) (consecutive times) /\
    List.length gaps = listed n (List.length (consecutive times)) /\
    chronological gaps /\
    (forall g h, In g gaps -> In h others -> preferred g h) /\
    Forall2 says_gap lines gaps.
