(** What stays the same when a price history is extended. *)
From Coq Require Import ZArith Bool List.
From Verif.Model Require Import Outcome Machine Types.
From Verif.Spec Require Import HistorySpec.
Import ListNotations.
Local Open Scope Z_scope.

Section Spec.
  Context {M : machine}.

  (** Ten well-formed records. *)
  Definition ten_good (q : list price_record) : Prop :=
    (10 <= length (filter (fun r => negb (bad_record r)) q))%nat.

  (** The candles that are over at time t. *)
  Definition over_by (rate t : Z) (ticks : list ohlc_tick) : list ohlc_tick :=
    filter (fun k => timestamp_sec k + rate <=? t) ticks.

  (** The positions before n. *)
  Definition positions_before (n : Z) (l : list Z) : list Z := filter (fun i => i <? n) l.
End Spec.
