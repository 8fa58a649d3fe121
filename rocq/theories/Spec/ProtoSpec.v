(** What the delimited protocol buffer files are supposed to do, stated on messages and
    on the bytes of the file only. *)
From Coq Require Import ZArith List.
From Verif.Model Require Import Proto.
Import ListNotations.
Local Open Scope Z_scope.

(** The content of a file: numbers from 0 to 255. *)
Definition is_bytes : bytes -> Prop := Forall (fun b => 0 <= b < 256).

(** A field, if present, holds an int64; 32 bits of a float. *)
Definition is_int64 (x : Z) : Prop := - 2 ^ 63 <= x < 2 ^ 63.
Definition is_bits32 (x : Z) : Prop := 0 <= x < 2 ^ 32.
Definition if_present (P : Z -> Prop) (x : option Z) : Prop :=
  match x with Some v => P v | None => True end.

(** Every message that can exist in C++ memory: the fields are of their C++ types.  (The
    library refuses to serialize a message of 2 GiB or more; this concerns only the side
    records, whose length is not fixed.) *)
Definition price_message (m : price_msg) : Prop :=
  if_present is_int64 (pm_timestamp m) /\ if_present is_bits32 (pm_price m)
  /\ if_present is_bits32 (pm_volume m).
Definition tick_message (m : tick_msg) : Prop :=
  if_present is_int64 (tm_timestamp m) /\ if_present is_bits32 (tm_open m)
  /\ if_present is_bits32 (tm_high m) /\ if_present is_bits32 (tm_low m)
  /\ if_present is_bits32 (tm_close m) /\ if_present is_bits32 (tm_volume m).
Definition side_message (m : side_msg) : Prop :=
  if_present is_int64 (sm_timestamp m) /\ Forall is_bits32 (sm_signal m)
  /\ 11 + 5 * Z.of_nat (length (sm_signal m)) < 2 ^ 31.

(** The three message types a history file is made of. *)
Inductive history_type : forall T : message_type, (msg T -> Prop) -> Prop :=
| history_price : history_type PriceRecordType price_message
| history_tick : history_type OhlcTickType tick_message
| history_side : history_type SideInputRecordType side_message.

(** What the callback is supposed to see when the messages [ms] are in the stream and the
    stream ends with status [ending]: it is called on the messages in order, with the
    state left by the previous call; the first call that does not continue is the last. *)
Inductive streamed {A S} (reader : S -> A -> S * reader_status) (ending : status)
  : S -> list A -> S -> status -> Prop :=
| streamed_end s : streamed reader ending s [] s ending
| streamed_continue s m ms s1 s2 st :
    reader s m = (s1, kContinue) -> streamed reader ending s1 ms s2 st ->
    streamed reader ending s (m :: ms) s2 st
| streamed_break s m ms s1 :
    reader s m = (s1, kBreak) -> streamed reader ending s (m :: ms) s1 Ok
| streamed_error s m ms s1 :
    reader s m = (s1, ReaderError) -> streamed reader ending s (m :: ms) s1 Aborted.

(** Every call of the callback on these messages said "continue". *)
Inductive continues {A S} (reader : S -> A -> S * reader_status) : S -> list A -> S -> Prop :=
| continues_nil s : continues reader s [] s
| continues_cons s m s1 ms s2 :
    reader s m = (s1, kContinue) -> continues reader s1 ms s2 -> continues reader s (m :: ms) s2.

(** A callback that in addition records the messages it was given. *)
Definition logging {A S} (reader : S -> A -> S * reader_status) (s : S * list A) (m : A)
  : (S * list A) * reader_status :=
  let (s', st) := reader (fst s) m in ((s', snd s ++ [m]), st).

(** [n] is the number of whole messages in the first [k] bytes of the file of [ms]. *)
Definition whole_messages (T : message_type) (ms : list (msg T)) (k n : nat) : Prop :=
  (n <= length ms)%nat
  /\ (length (WriteDelimitedMessages T (firstn n ms)) <= k)%nat
  /\ (n = length ms \/ (k < length (WriteDelimitedMessages T (firstn (S n) ms)))%nat).
