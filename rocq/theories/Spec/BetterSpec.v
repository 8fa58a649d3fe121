(** Being better off: more money, lower fees. *)
From Coq Require Import Reals String List.
From Flocq Require Import Core BinarySingleNaN.
From Verif.Model Require Import Outcome Machine Types Account MachineIEEE MachineR.
From Verif.Spec Require Import OrderSpec AccountIEEESpec.
Import ListNotations.
Local Open Scope R_scope.

Section Better.
  Context {lm : libm} {as_ : bool}.
  Local Notation I := (ieee lm as_).

  (** No fee of fc' is higher than in fc. *)
  Definition cheaper (fc fc' : @fee_config I) : Prop :=
    B2R (relative_fee fc' : f32) <= B2R (relative_fee fc : f32) /\
    B2R (fixed_fee fc' : f32) <= B2R (fixed_fee fc : f32) /\
    B2R (minimum_fee fc' : f32) <= B2R (minimum_fee fc : f32).
  Definition cheaper_config (c c' : @account_config I) : Prop :=
    cheaper (market_order_fee_config c) (market_order_fee_config c') /\
    cheaper (stop_order_fee_config c) (stop_order_fee_config c') /\
    cheaper (limit_order_fee_config c) (limit_order_fee_config c').

  (** The owner of a' has at least as much of both currencies as the owner of a and has paid
      no more fees; units, liquidity and volume ratio are the same. *)
  Definition better (a a' : @account I) : Prop :=
    same_settings a a' /\
    B2R (base_balance a : f32) <= B2R (base_balance a' : f32) /\
    B2R (quote_balance a : f32) <= B2R (quote_balance a' : f32) /\
    B2R (total_fee a' : f32) <= B2R (total_fee a : f32).

  (** The orders are all executed, one after the other, each on its tick. *)
  Inductive all_executed (c : @account_config I) : @account I -> list (@order I * @ohlc_tick I) -> @account I -> Prop :=
  | executed_nil a : all_executed c a [] a
  | executed_cons a o t a1 l a2 :
      @ExecuteOrder I c o t a = Done (true, a1) -> all_executed c a1 l a2 -> all_executed c a ((o, t) :: l) a2.
  (** ... and no balance exceeds 2^40 before an order. *)
  Definition within_range (c : @account_config I) (a : @account I) (l : list (@order I * @ohlc_tick I)) : Prop :=
    forall l1 ot l2 a1, l = l1 ++ ot :: l2 -> all_executed c a l1 a1 -> not_exceeded a1.

  (** An order for an amount of base currency. *)
  Definition for_base (o : @order I) : Prop := exists x, o_amount o = @BaseAmount I x.
End Better.

Section BetterExact.
  Context {sh : R -> String.string} {as_ : bool}.
  Local Notation E := (exact sh as_).

  Definition exact_cheaper (fc fc' : @fee_config E) : Prop :=
    (relative_fee fc' : R) <= relative_fee fc /\ (fixed_fee fc' : R) <= fixed_fee fc /\
    (minimum_fee fc' : R) <= minimum_fee fc.
  Definition exact_cheaper_config (c c' : @account_config E) : Prop :=
    exact_cheaper (market_order_fee_config c) (market_order_fee_config c') /\
    exact_cheaper (stop_order_fee_config c) (stop_order_fee_config c') /\
    exact_cheaper (limit_order_fee_config c) (limit_order_fee_config c').
End BetterExact.
