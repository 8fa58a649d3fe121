(** util/proto.h: delimited protocol buffer streams, and the wire format of the
    three history messages.

    The byte layout is that of protocol buffers 3.17.3 (WORKSPACE:25-29) for proto2
    messages: generated SerializeWithCachedSizes writes the set fields in field-number
    order; int64 is a varint of the two's complement, float is fixed32 little endian,
    repeated float in proto2 is not packed.  HAVE_ZLIB is not defined by any BUILD file
    (README.md:107), so the stream is not compressed.  A float value is represented
    here by its 32 bits.  Fields with unknown numbers are skipped when read (groups,
    wire types 3 and 4, are rejected here: a simplification; no writer of these
    messages emits them). *)

From Coq Require Import ZArith Bool List.
Import ListNotations.
Local Open Scope Z_scope.

(** A byte is an integer in [0, 256). *)
Definition bytes : Type := list Z.

(** WriteVarint64ToArray: 7 bits per byte, least significant first, high bit set on all
    but the last byte.  [fuel] = 10 suffices for 64 bits. *)
Fixpoint write_varint (fuel : nat) (v : Z) : bytes :=
  match fuel with
  | O => []
  | S fuel' => if v <? 128 then [v] else (v mod 128 + 128) :: write_varint fuel' (v / 128)
  end.

Definition write_uint64 (v : Z) : bytes := write_varint 10 v.
(** An int64 is written as its two's complement uint64. *)
Definition write_int64 (v : Z) : bytes := write_uint64 (v mod 2 ^ 64).

(** ReadVarint64: at most 10 bytes; the value is taken modulo 2^64.  [None] if the
    input ends inside the varint or it is longer than 10 bytes. *)
Fixpoint read_varint_loop (fuel : nat) (shift : Z) (acc : Z) (b : bytes) : option (Z * bytes) :=
  match fuel with
  | O => None
  | S fuel' =>
    match b with
    | [] => None
    | x :: b' =>
      let acc' := (acc + (x mod 128) * 2 ^ shift) mod 2 ^ 64 in
      if x <? 128 then Some (acc', b') else read_varint_loop fuel' (shift + 7) acc' b'
    end
  end.

Definition read_varint (b : bytes) : option (Z * bytes) := read_varint_loop 10 0 0 b.

(** uint64 -> int64. *)
Definition to_int64 (v : Z) : Z := if v <? 2 ^ 63 then v else v - 2 ^ 64.

(** fixed32, little endian. *)
Definition write_fixed32 (v : Z) : bytes :=
  [v mod 256; (v / 256) mod 256; (v / 65536) mod 256; (v / 16777216) mod 256].

Definition read_fixed32 (b : bytes) : option (Z * bytes) :=
  match b with
  | b0 :: b1 :: b2 :: b3 :: b' => Some (b0 + b1 * 256 + b2 * 65536 + b3 * 16777216, b')
  | _ => None
  end.

(** Wire types. *)
Definition WT_VARINT : Z := 0.
Definition WT_FIXED64 : Z := 1.
Definition WT_LENGTH : Z := 2.
Definition WT_FIXED32 : Z := 5.

Definition write_tag (field wt : Z) : bytes := write_uint64 (field * 8 + wt).

Definition write_opt {A} (x : option A) (w : A -> bytes) : bytes :=
  match x with Some v => w v | None => [] end.

Definition write_int64_field (field : Z) (x : option Z) : bytes :=
  write_opt x (fun v => write_tag field WT_VARINT ++ write_int64 v).
Definition write_float_field (field : Z) (x : option Z) : bytes :=
  write_opt x (fun v => write_tag field WT_FIXED32 ++ write_fixed32 v).

(** A field as read from the wire. *)
Inductive wire_value : Type :=
| WVarint (v : Z)
| WFixed32 (bits : Z)
| WFixed64
| WBytes (b : bytes).

(** One field: tag and value; [None] on malformed input. *)
Definition read_field (b : bytes) : option (Z * wire_value * bytes) :=
  match read_varint b with
  | None => None
  | Some (tag, b1) =>
    let field := tag / 8 in
    let wt := tag mod 8 in
    if field =? 0 then None
    else if wt =? WT_VARINT then
      match read_varint b1 with Some (v, b2) => Some (field, WVarint v, b2) | None => None end
    else if wt =? WT_FIXED32 then
      match read_fixed32 b1 with Some (v, b2) => Some (field, WFixed32 v, b2) | None => None end
    else if wt =? WT_FIXED64 then
      if 8 <=? Z.of_nat (length b1) then Some (field, WFixed64, skipn 8 b1) else None
    else if wt =? WT_LENGTH then
      match read_varint b1 with
      | Some (n, b2) =>
        if n <=? Z.of_nat (length b2)
        then Some (field, WBytes (firstn (Z.to_nat n) b2), skipn (Z.to_nat n) b2) else None
      | None => None
      end
    else None
  end.

(** A message type: how to write its fields and how a field read from the wire is merged
    into a message (the last value of a singular field wins; a value with the wrong wire
    type goes to the unknown fields, i.e. is ignored). *)
Record message_type : Type := MessageType {
  msg : Type;
  msg_empty : msg;
  msg_write : msg -> bytes;
  msg_merge : msg -> Z -> wire_value -> option msg
}.

(** MergeFromCodedStream on a complete message body. *)
Fixpoint parse_fields (T : message_type) (fuel : nat) (m : msg T) (b : bytes) : option (msg T) :=
  match b with
  | [] => Some m
  | _ =>
    match fuel with
    | O => None
    | S fuel' =>
      match read_field b with
      | None => None
      | Some (field, v, b') =>
        match msg_merge T m field v with
        | None => None
        | Some m' => parse_fields T fuel' m' b'
        end
      end
    end
  end.

Definition parse_message (T : message_type) (b : bytes) : option (msg T) :=
  parse_fields T (length b) (msg_empty T) b.

(** SerializeDelimitedToZeroCopyStream: varint32 size, then the message. *)
Definition serialize_delimited (T : message_type) (m : msg T) : bytes :=
  let body := msg_write T m in
  write_uint64 (Z.of_nat (length body)) ++ body.

(** util/proto.h:104-129 WriteDelimitedMessagesToOStream (the file written, for a stream
    that accepts all bytes). *)
Definition WriteDelimitedMessages (T : message_type) (ms : list (msg T)) : bytes :=
  flat_map (serialize_delimited T) ms.

(** ParseDelimitedFromZeroCopyStream (protobuf delimited_message_util.cc): read the size,
    limit the stream to it, parse, and require that exactly size bytes were consumed. *)
Inductive parse_result (A : Type) : Type :=
| Parsed (a : A) (rest : bytes)
| CleanEof                        (* not parsed, clean_eof = true *)
| ParseError.                     (* not parsed, clean_eof = false *)
Arguments Parsed {A}. Arguments CleanEof {A}. Arguments ParseError {A}.

Definition parse_delimited (T : message_type) (b : bytes) : parse_result (msg T) :=
  match b with
  | [] => CleanEof
  | _ =>
    match read_varint b with
    | None => ParseError
    | Some (size64, b1) =>
      let size := size64 mod 2 ^ 32 in      (* ReadVarint32 keeps the low 32 bits *)
      if size <=? Z.of_nat (length b1) then
        match parse_message T (firstn (Z.to_nat size) b1) with
        | Some m => Parsed m (skipn (Z.to_nat size) b1)
        | None => ParseError
        end
      else ParseError
    end
  end.

(** util/proto.h:27-28 ReaderStatus. *)
Inductive reader_status : Type := kContinue | kBreak | ReaderError.

(** The absl::Status returned. *)
Inductive status : Type := Ok | InvalidArgument | Aborted.

(** util/proto.h:33-65 ReadDelimitedMessagesFromIStream with a stateful reader callback.
    Every message takes at least one byte, so [length b] + 1 iterations suffice. *)
Fixpoint read_delimited_loop (T : message_type) {S} (reader : S -> msg T -> S * reader_status)
         (fuel : nat) (s : S) (b : bytes) : option (S * status) :=
  match fuel with
  | O => None
  | Datatypes.S fuel' =>
    match parse_delimited T b with
    | CleanEof => Some (s, Ok)
    | ParseError => Some (s, InvalidArgument)
    | Parsed m rest =>
      let (s', st) := reader s m in
      match st with
      | ReaderError => Some (s', Aborted)
      | kContinue => read_delimited_loop T reader fuel' s' rest
      | kBreak => Some (s', Ok)
      end
    end
  end.

Definition ReadDelimited (T : message_type) {S} (reader : S -> msg T -> S * reader_status)
           (s : S) (b : bytes) : option (S * status) :=
  read_delimited_loop T reader (Datatypes.S (length b)) s b.

(** util/proto.h:68-76 ReadDelimitedMessagesFromIStream into a vector. *)
Definition push_reader (T : message_type) (s : list (msg T)) (m : msg T)
  : list (msg T) * reader_status := (s ++ [m], kContinue).

Definition ReadDelimitedVector (T : message_type) (b : bytes) : option (list (msg T) * status) :=
  ReadDelimited T (push_reader T) [] b.

(** * The history messages, with field presence *)

(** base/base.proto:8-15 *)
Record price_msg : Type := PriceMsg {
  pm_timestamp : option Z; pm_price : option Z; pm_volume : option Z
}.

Definition price_write (m : price_msg) : bytes :=
  write_int64_field 1 (pm_timestamp m) ++ write_float_field 2 (pm_price m)
  ++ write_float_field 3 (pm_volume m).

Definition price_merge (m : price_msg) (field : Z) (v : wire_value) : option price_msg :=
  Some match v with
       | WVarint x => if field =? 1 then PriceMsg (Some (to_int64 x)) (pm_price m) (pm_volume m) else m
       | WFixed32 x =>
         if field =? 2 then PriceMsg (pm_timestamp m) (Some x) (pm_volume m)
         else if field =? 3 then PriceMsg (pm_timestamp m) (pm_price m) (Some x)
         else m
       | _ => m
       end.

Definition PriceRecordType : message_type :=
  MessageType price_msg (PriceMsg None None None) price_write price_merge.

(** base/base.proto:19-32 *)
Record tick_msg : Type := TickMsg {
  tm_timestamp : option Z; tm_open : option Z; tm_high : option Z; tm_low : option Z;
  tm_close : option Z; tm_volume : option Z
}.

Definition tick_write (m : tick_msg) : bytes :=
  write_int64_field 1 (tm_timestamp m) ++ write_float_field 2 (tm_open m)
  ++ write_float_field 3 (tm_high m) ++ write_float_field 4 (tm_low m)
  ++ write_float_field 5 (tm_close m) ++ write_float_field 6 (tm_volume m).

Definition tick_merge (m : tick_msg) (field : Z) (v : wire_value) : option tick_msg :=
  let '(TickMsg t o h l c w) := m in
  Some match v with
       | WVarint x => if field =? 1 then TickMsg (Some (to_int64 x)) o h l c w else m
       | WFixed32 x =>
         if field =? 2 then TickMsg t (Some x) h l c w
         else if field =? 3 then TickMsg t o (Some x) l c w
         else if field =? 4 then TickMsg t o h (Some x) c w
         else if field =? 5 then TickMsg t o h l (Some x) w
         else if field =? 6 then TickMsg t o h l c (Some x)
         else m
       | _ => m
       end.

Definition OhlcTickType : message_type :=
  MessageType tick_msg (TickMsg None None None None None None) tick_write tick_merge.

(** base/base.proto:36-42 *)
Record side_msg : Type := SideMsg {
  sm_timestamp : option Z; sm_signal : list Z
}.

Definition side_write (m : side_msg) : bytes :=
  write_int64_field 1 (sm_timestamp m)
  ++ flat_map (fun x => write_tag 2 WT_FIXED32 ++ write_fixed32 x) (sm_signal m).

(** A packed field (wire type 2) is also accepted for a repeated float. *)
Fixpoint read_packed (fuel : nat) (b : bytes) : option (list Z) :=
  match b with
  | [] => Some []
  | _ => match fuel with
         | O => None
         | S fuel' =>
           match read_fixed32 b with
           | Some (x, b') => option_map (cons x) (read_packed fuel' b')
           | None => None
           end
         end
  end.

Definition side_merge (m : side_msg) (field : Z) (v : wire_value) : option side_msg :=
  match v with
  | WVarint x => Some (if field =? 1 then SideMsg (Some (to_int64 x)) (sm_signal m) else m)
  | WFixed32 x => Some (if field =? 2 then SideMsg (sm_timestamp m) (sm_signal m ++ [x]) else m)
  | WBytes b =>
    if field =? 2 then
      match read_packed (length b) b with
      | Some xs => Some (SideMsg (sm_timestamp m) (sm_signal m ++ xs))
      | None => None
      end
    else Some m
  | WFixed64 => Some m
  end.

Definition SideInputRecordType : message_type :=
  MessageType side_msg (SideMsg None []) side_write side_merge.
