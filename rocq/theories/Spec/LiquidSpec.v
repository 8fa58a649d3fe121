(** A more liquid market, more money, lower fees. *)
From Coq Require Import Reals String List.
From Verif.Model Require Import Outcome Machine Types Account MachineR.
From Verif.Spec Require Import AccountSpec BetterSpec.
Import ListNotations.
Local Open Scope R_scope.

Section Liquid.
  Context {sh : R -> String.string} {as_ : bool}.
  Local Notation E := (exact sh as_).

  (** The owner of a' trades in the same units and with the same limit on volume in a market
      that is at least as liquid, and has at least as much of both currencies. *)
  Definition no_worse (a a' : @account E) : Prop :=
    base_unit a' = base_unit a /\ quote_unit a' = quote_unit a /\ max_volume_ratio a' = max_volume_ratio a /\
    (market_liquidity a : R) <= market_liquidity a' /\
    (base_balance a : R) <= base_balance a' /\ (quote_balance a : R) <= quote_balance a'.

  (** No relative fee exceeds 100%. *)
  Definition moderate (c : @account_config E) : Prop :=
    forall ty, (relative_fee (fees_of c ty) : R) <= 1.

  Inductive executed_all (c : @account_config E) : @account E -> list (@order E * @ohlc_tick E) -> @account E -> Prop :=
  | executed_none a : executed_all c a [] a
  | executed_first a o t a1 l a2 :
      @ExecuteOrder E c o t a = Done (true, a1) -> executed_all c a1 l a2 -> executed_all c a ((o, t) :: l) a2.

  (** A well-formed order for an amount of base currency. *)
  Definition base_order (o : @order E) : Prop :=
    exists ty sd limit x, order_parts o ty sd limit (@BaseAmount E x).
End Liquid.
