(** Orders for a quote amount: what they trade and when. *)
From Coq Require Import Reals.
From Verif.Model Require Import Outcome Machine Types MachineR.
From Verif.Spec Require Import AccountSpec.
Local Open Scope R_scope.

Section Spec.
  Context {sh : R -> String.string} {as_ : bool}.
  Local Notation E := (exact sh as_).

  (** The most base currency an order may trade on the tick: the volume cap for limit orders,
      the largest float otherwise. *)
  Definition base_cap (a : @account E) (t : @ohlc_tick E) (ty : order_type) (cap : R) : Prop :=
    match ty with LIMIT => volume_cap a t cap | _ => cap = rmaxval end.

  (** The plan for x quote currency at price p: q is x in whole quote units, f the fee for q;
      b the base amount that q less (buying) or plus (selling) this fee is worth, at most the
      cap, rounded down; c the price of b (rounded up when buying, down when selling) and g
      the fee for c. *)
  Record quote_plan (fc : @fee_config E) (a : @account E) (sd : order_side) (p x cap q f b c g : R) : Prop := QuotePlan {
    qp_request : rounded_near (quote_unit a) x q;
    qp_reserved : fee_due fc (quote_unit a) q f;
    qp_base : rounded_down (base_unit a) (Rmin (match sd with BUY => q - f | SELL => q + f end / p) cap) b;
    qp_quote : match sd with BUY => rounded_up | SELL => rounded_down end (quote_unit a) (b * p) c;
    qp_fee : fee_due fc (quote_unit a) c g
  }.

  (** The account can carry the plan out. *)
  Definition feasible (a : @account E) (sd : order_side) (q f b c g : R) : Prop :=
    (quote_unit a : R) <= q /\ (base_unit a : R) <= b /\
    match sd with
    | BUY => f < q /\ q <= quote_balance a
    | SELL => b <= base_balance a /\ (quote_unit a : R) <= c - g
    end.
End Spec.
