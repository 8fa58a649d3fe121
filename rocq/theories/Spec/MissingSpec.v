(** History files in which fields of some records are not set. *)
From Coq Require Import ZArith String.
From Coq Require Import List.
From Verif.Model Require Import Proto Convert Programs.
Import ListNotations.

(** The record in which every field that is not set is zero; the bits of the float 0 are 0. *)
Definition or_zero (field : option Z) : Z := match field with Some v => v | None => 0%Z end.
Definition filled_price (m : price_msg) : price_msg :=
  PriceMsg (Some (or_zero (pm_timestamp m))) (Some (or_zero (pm_price m))) (Some (or_zero (pm_volume m))).
Definition filled_tick (m : tick_msg) : tick_msg :=
  TickMsg (Some (or_zero (tm_timestamp m))) (Some (or_zero (tm_open m))) (Some (or_zero (tm_high m)))
          (Some (or_zero (tm_low m))) (Some (or_zero (tm_close m))) (Some (or_zero (tm_volume m))).
Definition filled_side (m : side_msg) : side_msg :=
  SideMsg (Some (or_zero (sm_timestamp m))) (sm_signal m).

(** A price is missing. *)
Definition lacks_price (m : price_msg) : Prop := pm_price m = None.
Definition lacks_ohlc (m : tick_msg) : Prop :=
  tm_open m = None \/ tm_high m = None \/ tm_low m = None \/ tm_close m = None.

(** An undamaged file with these records. *)
Definition file_has (env : environment) (file : string) (T : message_type) (ms : list (msg T)) : Prop :=
  exists b, readable env file = Some b /\ ReadDelimitedVector T b = Some (ms, Ok).
