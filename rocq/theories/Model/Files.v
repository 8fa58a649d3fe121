(** History files on disk: the records of the program and the messages of Proto.v, for the
    IEEE machine.  A float field holds the 32 bits of the float (Flocq's Bits); all NaNs
    are one value in the machine, so a NaN is written with the default payload. *)

From Coq Require Import ZArith String Ascii Bool.
From Coq Require Import List.
From Flocq Require Import Core BinarySingleNaN.
From Flocq Require Binary Bits.
From Verif.Model Require Import Outcome Machine Types Proto MachineIEEE.
Import ListNotations.

Definition f32_bits (x : f32) : Z := Bits.bits_of_b32 (Binary.BSN2B 24 128 Bits.default_nan_pl32 x).
Definition f32_of_bits (z : Z) : f32 := Binary.B2BSN 24 128 (Bits.b32_of_bits z).

(** The getter of an optional field: the value, or 0 if it is not set (proto2). *)
Definition get_int (x : option Z) : Z := match x with Some v => v | None => 0%Z end.
Definition get_float (x : option Z) : f32 :=
  match x with Some v => f32_of_bits v | None => f32_of_Z 0 end.

Section Files.
  Context {lm : libm} {as_ : bool}.
  Local Notation I := (ieee lm as_).

  (** A record whose fields were all set (convert.cc:104-107, 162-168, 215-219;
      history.cc:154-161, 166-173) as a message, and what the getters of a message return. *)
  Definition msg_of_price (r : @price_record I) : price_msg :=
    PriceMsg (Some (pr_timestamp_sec r)) (Some (f32_bits (pr_price r))) (Some (f32_bits (pr_volume r))).
  Definition price_of_msg (m : price_msg) : @price_record I :=
    @PriceRecord I (get_int (pm_timestamp m)) (get_float (pm_price m)) (get_float (pm_volume m)).

  Definition msg_of_tick (t : @ohlc_tick I) : tick_msg :=
    TickMsg (Some (timestamp_sec t)) (Some (f32_bits (open t))) (Some (f32_bits (high t)))
            (Some (f32_bits (low t))) (Some (f32_bits (close t))) (Some (f32_bits (volume t))).
  Definition tick_of_msg (m : tick_msg) : @ohlc_tick I :=
    @OhlcTick I (get_int (tm_timestamp m)) (get_float (tm_open m)) (get_float (tm_high m))
              (get_float (tm_low m)) (get_float (tm_close m)) (get_float (tm_volume m)).

  Definition msg_of_side (r : @side_record I) : side_msg :=
    SideMsg (Some (sr_timestamp_sec r)) (map f32_bits (sr_signal r : list f32)).
  Definition side_of_msg (m : side_msg) : @side_record I :=
    @SideRecord I (get_int (sm_timestamp m)) (map f32_of_bits (sm_signal m)).
End Files.

(** The bytes of a text file as characters. *)
Fixpoint string_of_bytes (b : bytes) : string :=
  match b with
  | [] => EmptyString
  | x :: b' => String (ascii_of_N (Z.to_N x)) (string_of_bytes b')
  end.

(** while (std::getline(infile, line)): the lines of a text; a last line without line feed
    counts, an empty rest after the last line feed does not. *)
Fixpoint getlines (s : string) : list string :=
  match s with
  | EmptyString => []
  | String c s' =>
    if Ascii.eqb c (ascii_of_nat 10) then EmptyString :: getlines s'
    else match getlines s' with
         | [] => [String c EmptyString]
         | l :: ls =>
           (* if the next character is a line feed, [l] is the rest of this line: also then
              the first element of getlines s' is the rest of the current line *)
           String c l :: ls
         end
  end.
