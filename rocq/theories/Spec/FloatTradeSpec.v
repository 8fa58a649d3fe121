(** What a trade does to an account whose amounts are single-precision numbers: the exact
    rules of AccountSpec, up to a stated rounding error; and the balances as whole numbers
    of units. *)
From Coq Require Import Reals ZArith Bool List.
From Flocq Require Import Core BinarySingleNaN.
From Verif.Model Require Import Outcome Machine Types MachineIEEE.
From Verif.Spec Require Import AccountSpec AccountIEEESpec SetupSpec.
Local Open Scope R_scope.

(** The error allowed for numbers of magnitude m: one part in a million (2^20), plus
    2^-100 for numbers too small for their relative error to be bounded. *)
Definition tol (m : R) : R := m * bpow radix2 (-20) + bpow radix2 (-100).

(** y is x, an amount computed from numbers of magnitude m, give or take the error. *)
Definition about (m x y : R) : Prop := Rabs (y - x) <= tol m.

(** y is x rounded up / down / to the nearest multiple of u, give or take the error. *)
Definition about_up (u x y : R) : Prop := x - tol (x + u) <= y <= x + u + tol (x + u).
Definition about_down (u x y : R) : Prop := x - u - tol (x + u) <= y <= x + tol (x + u).
Definition about_near (u x y : R) : Prop := x - u / 2 - tol (x + u) <= y <= x + u / 2 + tol (x + u).

Section Spec.
  Context {lm : libm} {as_ : bool}.
  Local Notation I := (ieee lm as_).

  (** The execution price of AccountSpec for a tick of floats. *)
  Definition ideal_price (l : R) (ty : order_type) (sd : order_side) (limit : R) (t : @ohlc_tick I) : R :=
    let o := B2R (open t : f32) in
    match ty, sd with
    | MARKET, BUY => between l o (B2R (high t : f32))
    | MARKET, SELL => between l o (B2R (low t : f32))
    | STOP, BUY => between l (Rmax limit o) (B2R (high t : f32))
    | STOP, SELL => between l (Rmin limit o) (B2R (low t : f32))
    | LIMIT, _ => limit
    end.

  Definition ftriggered (ty : order_type) (sd : order_side) (limit : R) (t : @ohlc_tick I) : Prop :=
    match ty, sd with
    | MARKET, _ => True
    | STOP, BUY => limit <= B2R (high t : f32)
    | STOP, SELL => B2R (low t : f32) <= limit
    | LIMIT, BUY => B2R (low t : f32) <= limit
    | LIMIT, SELL => limit <= B2R (high t : f32)
    end.

  Definition ffees_of (c : @account_config I) (ty : order_type) : @fee_config I :=
    match ty with
    | MARKET => market_order_fee_config c
    | STOP => stop_order_fee_config c
    | LIMIT => limit_order_fee_config c
    end.

  Definition fee_exact (fc : @fee_config I) (amount : R) : R :=
    Rmax (B2R (minimum_fee fc : f32)) (B2R (fixed_fee fc : f32) + B2R (relative_fee fc : f32) * amount).

  (** The trade obeys the rules of the exchange. *)
  Record fair_float (fc : @fee_config I) (a : @account I) (tr : trade) : Prop := FairFloat {
    ff_base_min : B2R (base_unit a : f32) <= tr_base tr;
    ff_base_nonneg : 0 <= tr_base tr;
    ff_quote :
      match tr_side tr with
      | BUY => about_up (B2R (quote_unit a : f32)) (tr_base tr * tr_price tr) (tr_quote tr)
      | SELL => about_down (B2R (quote_unit a : f32)) (tr_base tr * tr_price tr) (tr_quote tr)
      end;
    ff_fee : about_up (B2R (quote_unit a : f32)) (fee_exact fc (tr_quote tr)) (tr_fee tr);
    ff_covered :
      match tr_side tr with
      | BUY => tr_quote tr + tr_fee tr <= B2R (quote_balance a : f32) + tol (B2R (quote_balance a : f32))
      | SELL => tr_base tr <= B2R (base_balance a : f32) /\
                B2R (quote_unit a : f32) <= tr_quote tr - tr_fee tr + tol (tr_quote tr)
      end
  }.

  (** The account after the trade. *)
  Definition booked_float (a : @account I) (tr : trade) (a' : @account I) : Prop :=
    let B := B2R (base_balance a : f32) in let B' := B2R (base_balance a' : f32) in
    let Q := B2R (quote_balance a : f32) in let Q' := B2R (quote_balance a' : f32) in
    let F := B2R (total_fee a : f32) in let F' := B2R (total_fee a' : f32) in
    match tr_side tr with
    | BUY => about (B + tr_base tr) (B + tr_base tr) B' /\ about Q (Q - tr_quote tr - tr_fee tr) Q'
    | SELL => about B (B - tr_base tr) B' /\
              about (Q + tr_quote tr) (Q + tr_quote tr - tr_fee tr) Q'
    end /\ about (F + tr_fee tr) (F + tr_fee tr) F'.

  (** The most a limit order may trade on a tick; without a volume ratio, the largest
      float. *)
  Definition about_cap (a : @account I) (t : @ohlc_tick I) (cap : R) : Prop :=
    (0 < B2R (max_volume_ratio a : f32) ->
       about_down (B2R (base_unit a : f32)) (B2R (max_volume_ratio a : f32) * B2R (volume t : f32)) cap) /\
    (B2R (max_volume_ratio a : f32) = 0 -> cap = (bpow radix2 24 - 1) * bpow radix2 104).

  (** How the traded amount relates to the amount asked for. *)
  Definition about_asked (a : @account I) (t : @ohlc_tick I) (ty : order_type) (am : @order_amount I) (tr : trade) : Prop :=
    let bu := B2R (base_unit a : f32) in let qu := B2R (quote_unit a : f32) in
    match am with
    | NoAmount => False
    | BaseAmount x =>
      match ty with
      | LIMIT => exists cap, about_cap a t cap /\ about_near bu (Rmin (B2R (x : f32)) cap) (tr_base tr)
      | _ => about_near bu (B2R (x : f32)) (tr_base tr)
      end
    | QuoteAmount x =>
      (match tr_side tr with
       | BUY => tr_quote tr + tr_fee tr <= B2R (x : f32) + 4 * qu + 8 * tol (B2R (x : f32) + qu)
       | SELL => tr_quote tr - tr_fee tr <= B2R (x : f32) + 2 * qu + 8 * tol (B2R (x : f32) + qu + tr_fee tr)
       end) /\
      match ty with
      | LIMIT => exists cap, about_cap a t cap /\ tr_base tr <= cap + tol (cap + bu)
      | _ => True
      end
    end.

  (** A balance of n units: the float nearest to n times the unit. *)
  Definition units (u : f32) (n : Z) (x : f32) : Prop := nearest_float (B2R u * IZR n) x.

  (** The account holds nb units of base, nq of quote, and has paid nf quote units of fees. *)
  Definition holds (a : @account I) (nb nq nf : Z) : Prop :=
    units (base_unit a) nb (base_balance a) /\ units (quote_unit a) nq (quote_balance a) /\
    units (quote_unit a) nf (total_fee a).

  (** No balance exceeds 2^20 (about a million) units. *)
  Definition few_units (a : @account I) : Prop :=
    B2R (base_balance a : f32) <= bpow radix2 20 * B2R (base_unit a : f32) /\
    B2R (quote_balance a : f32) <= bpow radix2 20 * B2R (quote_unit a : f32) /\
    B2R (total_fee a : f32) <= bpow radix2 20 * B2R (quote_unit a : f32).

  Definition has_units (a : @account I) : Prop := 0 < B2R (base_unit a : f32) /\ 0 < B2R (quote_unit a : f32).

  (** The trade moves kb units of base and kq units of quote, and costs kf quote units. *)
  Record unit_trade (a : @account I) (tr : trade) (kb kq kf : Z) : Prop := UnitTrade {
    ut_base : exists x, units (base_unit a) kb x /\ tr_base tr = B2R x;
    ut_quote : exists x, units (quote_unit a) kq x /\ tr_quote tr = B2R x;
    ut_fee : exists x, units (quote_unit a) kf x /\ tr_fee tr = B2R x;
    ut_base_nonneg : (0 <= kb)%Z;
    ut_quote_nonneg : (0 <= kq)%Z;
    ut_fee_nonneg : (0 <= kf)%Z
  }.
  Definition base_change (sd : order_side) (k : Z) : Z := match sd with BUY => k | SELL => - k end.
  Definition quote_change (sd : order_side) (k : Z) : Z := match sd with BUY => - k | SELL => k end.

  (** The parts of an order: type, side, price (of no interest for market orders), amount. *)
  Inductive asks (o : @order I) (ty : order_type) (sd : order_side) (p : f32) (am : @order_amount I) : Prop :=
  | Asks : o_type o = Some ty -> o_side o = Some sd -> o_amount o = am -> ok_order_amount am ->
      (ty = MARKET \/ (o_price o = Some p /\ ok_price p)) -> asks o ty sd p am.

  (** The value at price p of nb units of base, nq of quote and nf quote units of fees paid. *)
  Definition units_value (a : @account I) (p : R) (nb nq nf : Z) : R :=
    B2R (base_unit a : f32) * IZR nb * p + B2R (quote_unit a : f32) * IZR nq + B2R (quote_unit a : f32) * IZR nf.

  (** The price of the trade: that of the order's kind, within one part in four million. *)
  Definition priced (a : @account I) (t : @ohlc_tick I) ty sd (p : f32) (tr : trade) : Prop :=
    let v := ideal_price (B2R (market_liquidity a : f32)) ty sd (B2R p) t in
    Rabs (tr_price tr - v) <= v * bpow radix2 (-22) /\ (ty = LIMIT -> tr_price tr = B2R p).

  (** The trade carries out the order on the tick, for this account. *)
  Record carried_out (c : @account_config I) (o : @order I) (t : @ohlc_tick I) (a : @account I) (tr : trade) : Prop := CarriedOut {
    co_order : exists ty p am, asks o ty (tr_side tr) p am /\ ftriggered ty (tr_side tr) (B2R p) t /\
                 priced a t ty (tr_side tr) p tr /\ fair_float (ffees_of c ty) a tr /\ about_asked a t ty am tr
  }.

  (** A sequence of orders as a ledger of numbers of units. *)
  Definition entry : Type := (order_side * (Z * Z * Z))%type.
  Definition sum_Z (f : entry -> Z) (ks : list entry) : Z := fold_right (fun k s => f k + s)%Z 0%Z ks.
  Definition entry_base (k : entry) : Z := let '(sd, (kb, kq, kf)) := k in base_change sd kb.
  Definition entry_quote (k : entry) : Z := let '(sd, (kb, kq, kf)) := k in (quote_change sd kq - kf)%Z.
  Definition entry_fee (k : entry) : Z := let '(sd, (kb, kq, kf)) := k in kf.

  Inductive unit_ledger (execute : @order I -> @ohlc_tick I -> @account I -> outcome (bool * @account I)) (c : @account_config I)
    : @account I -> list (@order I * @ohlc_tick I) -> list entry -> @account I -> Prop :=
  | ul_nil a : unit_ledger execute c a nil nil a
  | ul_rejected a o t l ks a' :
      execute o t a = Done (false, a) -> unit_ledger execute c a l ks a' ->
      unit_ledger execute c a (cons (o, t) l) ks a'
  | ul_traded a o t tr kb kq kf a1 l ks a' :
      execute o t a = Done (true, a1) -> carried_out c o t a tr -> unit_trade a tr kb kq kf ->
      unit_ledger execute c a1 l ks a' ->
      unit_ledger execute c a (cons (o, t) l) (cons (tr_side tr, (kb, kq, kf)) ks) a'.
End Spec.
