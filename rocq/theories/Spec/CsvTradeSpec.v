(** Lines of a CSV file whose numbers, as they are written, are in the range the traders
    support. *)
From Coq Require Import ZArith Reals String.
From Coq Require Import List.
From Flocq Require Import Core.
From Verif.Spec Require Import CsvTextSpec.
Import ListNotations.
Local Open Scope R_scope.

(** A price between 2^-19 and 2^19 (about 2 * 10^-6 and 5 * 10^5). *)
Definition market_price (r : R) : Prop := bpow radix2 (-19) <= r <= bpow radix2 19.
(** A volume up to 2^16. *)
Definition market_volume (r : R) : Prop := 0 <= r <= bpow radix2 16.

Definition market_price_line (line : string) (t : Z) : Prop :=
  exists price volume, csv_line says_number t [price; volume] line
    /\ market_price price /\ market_volume volume.
Definition market_ohlc_line (line : string) (t : Z) : Prop :=
  exists open_ high_ low_ close_ volume_,
    csv_line says_number t [open_; high_; low_; close_; volume_] line
    /\ market_price low_ /\ market_price high_ /\ low_ <= open_ <= high_ /\ low_ <= close_ <= high_
    /\ market_volume volume_.
