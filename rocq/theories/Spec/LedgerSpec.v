(** The books of a run: the trades that lead from the opening to the final balances. *)
From Coq Require Import Reals ZArith List.
From Verif.Model Require Import Outcome Machine Types MachineR Eval.
From Verif.Spec Require Import AccountSpec RunSpec.
Local Open Scope R_scope.

Section Spec.
  Context {sh : R -> String.string} {as_ : bool}.
  Local Notation E := (exact sh as_).

  (** An entry of the books: a trade done by an order of this type on this tick. *)
  Record entry : Type := Entry {
    en_tick : @ohlc_tick E;
    en_type : order_type;
    en_trade : trade
  }.

  (** The price is one the tick offered: market and stop orders trade inside the tick's
      price range, a limit order at a price that buyers (sellers) of the tick accept. *)
  Definition price_offered (e : entry) : Prop :=
    let t := en_tick e in
    let p := tr_price (en_trade e) in
    match en_type e, tr_side (en_trade e) with
    | LIMIT, BUY => (low t : R) <= p
    | LIMIT, SELL => p <= high t
    | _, _ => (low t : R) <= p <= high t
    end.

  (** Every entry is a fair trade booked on the account the entry before it left. *)
  Inductive ledger (c : @account_config E) : @account E -> list entry -> @account E -> Prop :=
  | ledger_nil a : ledger c a nil a
  | ledger_cons a e a1 es a2 :
      fair_trade (fees_of c (en_type e)) a (en_trade e) -> booked a (en_trade e) a1 ->
      price_offered e ->
      (en_type e = LIMIT -> 0 < (max_volume_ratio a : R) ->
         tr_base (en_trade e) <= max_volume_ratio a * volume (en_tick e)) ->
      ledger c a1 es a2 -> ledger c a (cons e es) a2.

  (** The entries follow the ticks: first those of the first tick, and so on. *)
  Definition in_tick_order (ticks : list (@ohlc_tick E)) (es : list entry) : Prop :=
    exists parts, es = concat parts /\ Forall2 (fun t part => Forall (fun e => en_tick e = t) part) ticks parts.

  Definition total (f : trade -> R) (es : list entry) : R :=
    fold_right (fun e s => f (en_trade e) + s) 0 es.
  (** What a trade adds to the balances (before its fee). *)
  Definition base_change (tr : trade) : R :=
    match tr_side tr with BUY => tr_base tr | SELL => - tr_base tr end.
  Definition quote_change (tr : trade) : R :=
    match tr_side tr with BUY => - tr_quote tr | SELL => tr_quote tr end.

  (** The trader only ever emits well-formed orders. *)
  Definition careful (te : @trader_emitter E) : Prop :=
    forall st t sig b q st' os, te_update te st t sig b q = Done (st', os) -> Forall well_formed os.

  (** The price never moves. *)
  Definition flat_at (p : R) (t : @ohlc_tick E) : Prop :=
    (open t : R) = p /\ (high t : R) = p /\ (low t : R) = p /\ (close t : R) = p.
End Spec.
