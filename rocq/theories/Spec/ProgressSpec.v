(** When a run does not return: the only ways in which it gets stuck. *)
From Coq Require Import Reals ZArith List.
From Flocq Require Import Core BinarySingleNaN.
From Verif.Model Require Import Outcome Machine Types Account SideInput MachineR MachineIEEE Eval Traders.
From Verif.Spec Require Import AccountSpec AccountIEEESpec RunSpec TraderSpec.
Import ListNotations.

Section Spec.
  Context {M : machine}.

  (** The orders emitted last, and the trader as they left it. *)
  Definition pending {S} (rows : list (row S)) : list order :=
    match last_update rows with None => [] | Some (_, os) => os end.
  Definition trader_now (te : trader_emitter) (rows : list (row (te_state te))) : te_state te :=
    match last_update rows with None => te_new te | Some (st, _) => st end.

  (** After the story the first of the pending orders are tried on the next tick, leaving the
      account a. *)
  Definition attempted (cfg : account_config) {S} (rows : list (row S)) (t : ohlc_tick)
             (atts : list (order * bool * account)) (later : list order) (a : account) : Prop :=
    pending rows = map (fun x => fst (fst x)) atts ++ later /\
    tried cfg t (final_account cfg rows) atts /\
    a = List.last (map snd atts) (final_account cfg rows).

  (** The next tick of the run does not complete: one of the pending orders cannot be executed
      (nor rejected), or the trader cannot be updated. *)
  Inductive stuck (cfg : account_config) (hist : option (list side_record)) (te : trader_emitter)
            (rows : list (row (te_state te))) (t : ohlc_tick) : Prop :=
  | stuck_order atts o later a :
      attempted cfg rows t atts (o :: later) a ->
      (forall r, ExecuteOrder cfg o t a <> Done r) -> stuck cfg hist te rows t
  | stuck_trader atts a sig :
      attempted cfg rows t atts [] a ->
      feqb (volume t) (fofZ 0) = false ->
      signals_known hist (timestamp_sec t) sig ->
      (forall r, te_update te (trader_now te rows) t sig (base_balance a) (quote_balance a) <> Done r) ->
      stuck cfg hist te rows t.

  (** An account of the run on these ticks: after a story of some of the ticks, and after
      trying some of the pending orders on the next tick. *)
  Definition reached (cfg : account_config) (hist : option (list side_record)) (te : trader_emitter)
             (ticks : list ohlc_tick) (a : account) : Prop :=
    exists past t rest rows atts later, ticks = past ++ t :: rest /\
      story cfg hist te past rows /\ attempted cfg rows t atts later a.

  (** What the trader was shown in a story. *)
  Definition views {S} (rows : list (row S)) : list view :=
    flat_map (fun r => match w_update r with
                       | None => []
                       | Some _ => [View (w_tick r) (w_signals r) (base_balance (account_after r))
                                         (quote_balance (account_after r))]
                       end) rows.

  (** Timestamps are positive and strictly increasing. *)
  Definition strictly_ordered (ticks : list ohlc_tick) : Prop :=
    (forall t, In t ticks -> (0 < timestamp_sec t)%Z) /\
    forall i j t t', nth_error ticks i = Some t -> nth_error ticks j = Some t' -> (i < j)%nat ->
                     (timestamp_sec t < timestamp_sec t')%Z.
End Spec.

(** Exact arithmetic: what a trader can be shown by an exchange that quotes positive prices
    and never lets the account run empty, and traders that cope with all of it. *)
Section Exact.
  Context {sh : R -> String.string} {as_ : bool}.
  Local Notation E := (exact sh as_).
  Local Open Scope R_scope.

  Definition fair_view (v : @view E) : Prop :=
    0 < (v_price v : R) /\ 0 <= (v_base v : R) /\ 0 <= (v_quote v : R) /\ 0 < (v_base v : R) + v_quote v.

  (** Whatever fair updates at increasing times it is shown, the trader returns, with
      well-formed orders only. *)
  Definition copes (te : @trader_emitter E) : Prop :=
    forall vs, increasing_from 0 vs -> Forall fair_view vs ->
      exists oss, orders_emitted te vs = Done oss /\ Forall (Forall well_formed) oss.

  (** The opening account is sane, has units for both currencies and is not empty. *)
  Record solvent (cfg : @account_config E) : Prop := Solvent {
    so_config : sane_config cfg;
    so_account : sane_account (opening_account cfg);
    so_base_unit : 0 < (cfg_base_unit cfg : R);
    so_quote_unit : 0 < (cfg_quote_unit cfg : R);
    so_owns : 0 < (start_base_balance cfg : R) + start_quote_balance cfg
  }.
End Exact.

(** Single precision: the same, within the supported ranges. *)
Section IEEE.
  Context {lm : libm} {as_ : bool}.
  Local Notation I := (ieee lm as_).
  Local Open Scope R_scope.

  (** Supported settings with units for both currencies, and an opening account that owns at
      least 2^-30 (about 10^-9) of one of them. *)
  Record open_for_business (cfg : @account_config I) : Prop := OpenForBusiness {
    ob_config : ok_config cfg;
    ob_settings : ok_settings (opening_account cfg);
    ob_balances : balances_ok (opening_account cfg);
    ob_base_unit : 0 < B2R (cfg_base_unit cfg : f32);
    ob_quote_unit : 0 < B2R (cfg_quote_unit cfg : f32);
    ob_owns : bpow radix2 (-30) <= B2R (start_base_balance cfg : f32) \/
              bpow radix2 (-30) <= B2R (start_quote_balance cfg : f32)
  }.

  (** A supported tick that closes between 2^-19 and 2^19 (about 2 * 10^-6 and 5 * 10^5). *)
  Definition quoted (t : @ohlc_tick I) : Prop :=
    ok_tick t /\ in_range (bpow radix2 (-19)) (bpow radix2 19) (close t).

  (** Whatever it is shown - prices between 2^-19 and 2^19, balances up to 2^40, not both
      empty - the trader returns, with orders the exchange can execute. *)
  Definition copes_float (te : @trader_emitter I) : Prop :=
    forall vs : list (@view I), increasing_from 0 vs ->
      Forall (fun v : @view I => ok_portfolio (v_price v) (v_base v) (v_quote v)) vs ->
      exists oss, orders_emitted te vs = Done oss /\ Forall (Forall ok_order) oss.
End IEEE.
