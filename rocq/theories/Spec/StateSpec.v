(** What a line of the trader log says, in terms of the story of the run. *)
From Coq Require Import ZArith String Bool.
From Coq Require Import List.
From Verif.Model Require Import Machine Types Account Eval.
From Verif.Spec Require Import LogSpec RunSpec.
Import ListNotations.

Section Spec.
  Context {M : machine} {S : Type}.

  (** The trader was updated on this tick. *)
  Definition updated (r : row S) : bool :=
    match w_update r with Some _ => true | None => false end.

  (** The first four columns, common to both traders: the time of the tick, the balances after
      the orders of the tick, and the closing price of the tick. *)
  Definition seen_columns (r : row S) (cols : list string) : Prop :=
    exists ts, number ts = Some (timestamp_sec (w_tick r))
      /\ cols = [ts; ffmt3 (base_balance (account_after r)); ffmt3 (quote_balance (account_after r));
                 ffmt3 (close (w_tick r))].

  Definition rebalancing_line (r : row S) (line : string) : Prop :=
    seen_columns r (split comma line).

  (** The stop trader adds its mode and the price of the one stop order it just emitted: LONG
      with an order to sell the base balance, CASH with an order to spend the quote balance. *)
  Definition stop_line (r : row S) (line : string) : Prop :=
    exists st price seen mode,
      split comma line = seen ++ [mode; ffmt3 price]
      /\ seen_columns r seen
      /\ ((mode = "LONG"%string
           /\ w_update r = Some (st, [Order (Some STOP) (Some SELL)
                                            (BaseAmount (base_balance (account_after r))) (Some price)]))
          \/ (mode = "CASH"%string
              /\ w_update r = Some (st, [Order (Some STOP) (Some BUY)
                                               (QuoteAmount (quote_balance (account_after r))) (Some price)]))).
End Spec.
