(** When the exchange carries out an order in single precision: the trades that an order may
    stand for, within the rounding errors of FloatTradeSpec, and which of them the account
    can afford. *)
From Coq Require Import Reals ZArith Bool List.
From Flocq Require Import Core BinarySingleNaN.
From Verif.Model Require Import Outcome Machine Types MachineIEEE.
From Verif.Spec Require Import AccountSpec AccountIEEESpec FloatTradeSpec.
Local Open Scope R_scope.

Section Spec.
  Context {lm : libm} {as_ : bool}.
  Local Notation I := (ieee lm as_).

  (** q0 is the amount of quote currency asked for, rounded to units, and f0 its fee. *)
  Definition budget (fc : @fee_config I) (a : @account I) (x q0 f0 : R) : Prop :=
    about_near (B2R (quote_unit a : f32)) x q0 /\
    about_up (B2R (quote_unit a : f32)) (fee_exact fc q0) f0.

  (** What is left of the budget for the trade itself: the fee comes on top of what is paid
      for a purchase, and is taken out of the proceeds of a sale. *)
  Definition net (sd : order_side) (q0 f0 : R) : R :=
    match sd with BUY => q0 - f0 | SELL => q0 + f0 end.

  (** The amount y, limited for a limit order by the most it may trade on the tick. *)
  Definition limited (a : @account I) (t : @ohlc_tick I) (ty : order_type) (y z : R) : Prop :=
    match ty with
    | LIMIT => exists cap, about_cap a t cap /\ z = Rmin y cap
    | _ => z = y
    end.

  (** A trade the order may stand for. *)
  Record possible (c : @account_config I) (a : @account I) (t : @ohlc_tick I)
         (ty : order_type) (sd : order_side) (p : f32) (am : @order_amount I) (tr : trade) : Prop := Possible {
    po_side : tr_side tr = sd;
    po_price : priced a t ty sd p tr;
    po_base :
      match am with
      | NoAmount => False
      | BaseAmount x =>
        exists z, limited a t ty (B2R (x : f32)) z /\ about_near (B2R (base_unit a : f32)) z (tr_base tr)
      | QuoteAmount x =>
        exists q0 f0 z, budget (ffees_of c ty) a (B2R (x : f32)) q0 f0 /\
          limited a t ty (net sd q0 f0 / tr_price tr) z /\ about_down (B2R (base_unit a : f32)) z (tr_base tr)
      end;
    po_quote :
      match sd with
      | BUY => about_up (B2R (quote_unit a : f32)) (tr_base tr * tr_price tr) (tr_quote tr)
      | SELL => about_down (B2R (quote_unit a : f32)) (tr_base tr * tr_price tr) (tr_quote tr)
      end;
    po_fee : about_up (B2R (quote_unit a : f32)) (fee_exact (ffees_of c ty) (tr_quote tr)) (tr_fee tr)
  }.

  (** The order asks for at least one unit, however the roundings turn out; and an order to
      buy for an amount of quote currency asks for no more than the balance. *)
  Definition large_enough (c : @account_config I) (a : @account I) (t : @ohlc_tick I)
             (ty : order_type) (sd : order_side) (p : f32) (am : @order_amount I) : Prop :=
    let bu := B2R (base_unit a : f32) in
    (ty = LIMIT -> forall cap, about_cap a t cap -> bu + tol bu <= cap) /\
    match am with
    | NoAmount => False
    | BaseAmount x => bu <= B2R (x : f32)
    | QuoteAmount x =>
      B2R (quote_unit a : f32) <= B2R (x : f32) /\
      forall q0 f0 P, budget (ffees_of c ty) a (B2R (x : f32)) q0 f0 -> priced a t ty sd p (Trade sd P 0 0 0) ->
        bu + tol bu <= net sd q0 f0 / P /\ (sd = BUY -> f0 < q0 <= B2R (quote_balance a : f32))
    end.

  (** The account has what the trade takes, and a sale yields at least one quote unit. *)
  Definition affordable (a : @account I) (tr : trade) : Prop :=
    match tr_side tr with
    | BUY => tr_quote tr + tr_fee tr <= B2R (quote_balance a : f32)
    | SELL => tr_base tr <= B2R (base_balance a : f32) /\ B2R (quote_unit a : f32) <= tr_quote tr - tr_fee tr
    end.
  (** The same, up to the error. *)
  Definition nearly_affordable (a : @account I) (tr : trade) : Prop :=
    match tr_side tr with
    | BUY => tr_quote tr + tr_fee tr <= B2R (quote_balance a : f32) + tol (B2R (quote_balance a : f32))
    | SELL => tr_base tr <= B2R (base_balance a : f32) /\
              B2R (quote_unit a : f32) <= tr_quote tr - tr_fee tr + tol (tr_quote tr)
    end.
End Spec.
