(** The protocol buffer wire format of a history file, stated as a grammar of its bytes.
    (Groups, which no writer of these messages produces, are not part of it.) *)
From Coq Require Import ZArith List.
From Verif.Model Require Import Proto.
Import ListNotations.
Local Open Scope Z_scope.

(** Base 128, least significant digit first, 128 added to all digits but the last. *)
Inductive base128 : list Z -> Z -> Prop :=
| b128_last x : 0 <= x < 128 -> base128 [x] x
| b128_more x b v : 128 <= x < 256 -> base128 b v -> base128 (x :: b) ((x - 128) + 128 * v).

(** A varint: at most ten digits, of which 64 bits count. *)
Definition varint (b : list Z) (v : Z) : Prop :=
  exists n, base128 b n /\ (length b <= 10)%nat /\ v = n mod 2 ^ 64.

(** Four bytes, little endian. *)
Inductive four_bytes : list Z -> Z -> Prop :=
| FourBytes a b c d : four_bytes [a; b; c; d] (a + b * 256 + c * 65536 + d * 16777216).

(** One field: its number and wire type, then its value. *)
Inductive wire_field : list Z -> Z -> wire_value -> Prop :=
| wire_varint bt bv f v : f <> 0 -> varint bt (8 * f + 0) -> varint bv v -> wire_field (bt ++ bv) f (WVarint v)
| wire_fixed32 bt bv f v : f <> 0 -> varint bt (8 * f + 5) -> four_bytes bv v -> wire_field (bt ++ bv) f (WFixed32 v)
| wire_fixed64 bt bv f : f <> 0 -> varint bt (8 * f + 1) -> length bv = 8%nat -> wire_field (bt ++ bv) f WFixed64
| wire_bytes bt bn bv f : f <> 0 -> varint bt (8 * f + 2) -> varint bn (Z.of_nat (length bv)) ->
    wire_field (bt ++ bn ++ bv) f (WBytes bv).

Inductive wire_fields : list Z -> list (Z * wire_value) -> Prop :=
| wire_none : wire_fields [] []
| wire_one b f v b' fs : wire_field b f v -> wire_fields b' fs -> wire_fields (b ++ b') ((f, v) :: fs).

(** The file: for each message its size (32 bits) and its bytes. *)
Inductive frames : list Z -> list (list Z) -> Prop :=
| frames_none : frames [] []
| frames_one bn n body b bodies : varint bn n -> Z.of_nat (length body) = n mod 2 ^ 32 ->
    frames b bodies -> frames (bn ++ body ++ b) (body :: bodies).

(** The last field with this number and this wire type counts. *)
Fixpoint last_field (sel : Z * wire_value -> option Z) (fs : list (Z * wire_value)) : option Z :=
  match fs with
  | [] => None
  | x :: fs' => match last_field sel fs' with Some v => Some v | None => sel x end
  end.
Definition integer_field (k : Z) (x : Z * wire_value) : option Z :=
  match x with (f, WVarint v) => if f =? k then Some (if v <? 2 ^ 63 then v else v - 2 ^ 64) else None | _ => None end.
Definition float_field (k : Z) (x : Z * wire_value) : option Z :=
  match x with (f, WFixed32 v) => if f =? k then Some v else None | _ => None end.

Definition means_price (fs : list (Z * wire_value)) (m : price_msg) : Prop :=
  pm_timestamp m = last_field (integer_field 1) fs /\ pm_price m = last_field (float_field 2) fs /\
  pm_volume m = last_field (float_field 3) fs.
Definition means_tick (fs : list (Z * wire_value)) (m : tick_msg) : Prop :=
  tm_timestamp m = last_field (integer_field 1) fs /\ tm_open m = last_field (float_field 2) fs /\
  tm_high m = last_field (float_field 3) fs /\ tm_low m = last_field (float_field 4) fs /\
  tm_close m = last_field (float_field 5) fs /\ tm_volume m = last_field (float_field 6) fs.

(** The signals of a side record: field 2, one by one or packed, in order. *)
Inductive packed : list Z -> list Z -> Prop :=
| packed_none : packed [] []
| packed_one a x b xs : four_bytes a x -> packed b xs -> packed (a ++ b) (x :: xs).
Inductive signals : list (Z * wire_value) -> list Z -> Prop :=
| signals_none : signals [] []
| signals_one x fs xs : signals fs xs -> signals ((2, WFixed32 x) :: fs) (x :: xs)
| signals_packed b ys fs xs : packed b ys -> signals fs xs -> signals ((2, WBytes b) :: fs) (ys ++ xs)
| signals_other f v fs xs : (forall x, (f, v) <> (2, WFixed32 x)) -> (forall b, (f, v) <> (2, WBytes b)) ->
    signals fs xs -> signals ((f, v) :: fs) xs.
Definition means_side (fs : list (Z * wire_value)) (m : side_msg) : Prop :=
  sm_timestamp m = last_field (integer_field 1) fs /\ signals fs (sm_signal m).

(** What the fields of a message of each of the three types mean. *)
Inductive meaning : forall T : message_type, (list (Z * wire_value) -> msg T -> Prop) -> Prop :=
| meaning_price : meaning PriceRecordType means_price
| meaning_tick : meaning OhlcTickType means_tick
| meaning_side : meaning SideInputRecordType means_side.

(** The bytes are a file of these messages. *)
Definition file_of {T : message_type} (means : list (Z * wire_value) -> msg T -> Prop) (b : list Z) (ms : list (msg T)) : Prop :=
  exists bodies, frames b bodies /\
    Forall2 (fun body m => exists fs, wire_fields body fs /\ means fs m) bodies ms.
