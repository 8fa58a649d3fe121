(** The story of a run of a trader on an exchange: one row per tick. *)
From Coq Require Import ZArith List String Bool.
From Verif.Model Require Import Outcome Machine Types Account SideInput Eval.
From Verif.Spec Require Import SideInputSpec IndicatorSpec.
Import ListNotations.

Section Spec.
  Context {M : machine}.

  (** The account a run starts with: the configured balances, units, liquidity and volume
      ratio, and no fee paid yet. *)
  Definition opening_account (cfg : account_config) : account :=
    {| base_balance := start_base_balance cfg;
       quote_balance := start_quote_balance cfg;
       total_fee := fofZ 0;
       base_unit := cfg_base_unit cfg;
       quote_unit := cfg_quote_unit cfg;
       market_liquidity := cfg_market_liquidity cfg;
       max_volume_ratio := cfg_max_volume_ratio cfg |}.

  (** What happens on one tick. *)
  Record row (S : Type) : Type := Row {
    w_tick : ohlc_tick;
    w_account : account;                            (* the account before the tick's orders *)
    w_attempts : list (order * bool * account);     (* each order tried: executed? account after *)
    w_signals : list flt;                           (* the side input signals of this tick *)
    w_update : option (S * list order)              (* the trader's new state and emitted orders *)
  }.
  Arguments w_tick {S}. Arguments w_account {S}. Arguments w_attempts {S}.
  Arguments w_signals {S}. Arguments w_update {S}.

  (** The account after the row's orders. *)
  Definition account_after {S} (r : row S) : account :=
    match rev (w_attempts r) with [] => w_account r | (_, _, a) :: _ => a end.

  (** The most recent update in a sequence of rows. *)
  Fixpoint last_update {S} (rows : list (row S)) : option (S * list order) :=
    match rows with
    | [] => None
    | r :: rows' =>
      match last_update rows' with
      | Some u => Some u
      | None => w_update r
      end
    end.

  (** The orders were tried one after the other, each on the account the previous one left. *)
  Fixpoint tried (cfg : account_config) (t : ohlc_tick) (a : account)
           (l : list (order * bool * account)) : Prop :=
    match l with
    | [] => True
    | (o, ok, a') :: l' => ExecuteOrder cfg o t a = Done (ok, a') /\ tried cfg t a' l'
    end.

  (** The signals the trader may see at time t: those of the latest record known at t
      followed by its age; none before the first record, or without side input. *)
  Definition signals_known (side : option (list side_record)) (t : Z) (sig : list flt) : Prop :=
    match side with
    | None => sig = []
    | Some h => exists r, latest_record h t r /\
                  sig = match r with
                        | None => []
                        | Some r => sr_signal r ++ [fofZ (t - sr_timestamp_sec r)]
                        end
    end.

  (** The row is the right continuation of the rows before it. *)
  Record row_ok (cfg : account_config) (side : option (list side_record)) (te : trader_emitter)
         (before : list (row (te_state te))) (r : row (te_state te)) : Prop := RowOk {
    ro_account :
      w_account r = match rev before with [] => opening_account cfg | b :: _ => account_after b end;
    ro_orders :
      map (fun x => fst (fst x)) (w_attempts r)
        = match last_update before with None => [] | Some (_, os) => os end;
    ro_tried : tried cfg (w_tick r) (w_account r) (w_attempts r);
    ro_signals : signals_known side (timestamp_sec (w_tick r)) (w_signals r);
    ro_update :
      match w_update r with
      | None => feqb (volume (w_tick r)) (fofZ 0) = true
      | Some (st, os) =>
        feqb (volume (w_tick r)) (fofZ 0) = false /\
        te_update te (match last_update before with None => te_new te | Some (st0, _) => st0 end)
                  (w_tick r) (w_signals r)
                  (base_balance (account_after r)) (quote_balance (account_after r))
          = Done (st, os)
      end
  }.

  (** A story: every row is the right continuation of those before it. *)
  Definition story (cfg : account_config) (side : option (list side_record)) (te : trader_emitter)
             (ticks : list ohlc_tick) (rows : list (row (te_state te))) : Prop :=
    map w_tick rows = ticks /\
    forall before r after, rows = before ++ r :: after -> row_ok cfg side te before r.

  (** The log of a story: a tick line, one line per executed order, and a trader line if the
      trader was updated. *)
  Inductive log_line (S : Type) : Type :=
  | TickLine (t : ohlc_tick) (a : account)
  | OrderLine (t : ohlc_tick) (a : account) (o : order)
  | TraderLine (st : S).
  Arguments TickLine {S}. Arguments OrderLine {S}. Arguments TraderLine {S}.

  Definition executed (l : list (order * bool * account)) : list (order * bool * account) :=
    filter (fun x => snd (fst x)) l.

  Definition row_log {S} (r : row S) : list (log_line S) :=
    TickLine (w_tick r) (w_account r)
    :: map (fun x => OrderLine (w_tick r) (snd x) (fst (fst x))) (executed (w_attempts r))
    ++ match w_update r with None => [] | Some (st, _) => [TraderLine st] end.

  Definition story_log {S} (rows : list (row S)) : list (log_line S) := flat_map row_log rows.

  (** Feeding the lines to a logger object. *)
  Definition write_line (lg : logger) {S} (show : S -> string) (l : lg_state lg) (x : log_line S)
    : lg_state lg :=
    match x with
    | TickLine t a => lg_tick lg l t a
    | OrderLine t a o => lg_order lg l t a o
    | TraderLine st => lg_trader lg l (show st)
    end.

  Definition write_lines (lg : logger) {S} (show : S -> string) (lines : list (log_line S))
             (l : lg_state lg) : lg_state lg :=
    fold_left (write_line lg show) lines l.

  Definition executed_count {S} (rows : list (row S)) : Z :=
    Z.of_nat (List.length (flat_map (fun r => executed (w_attempts r)) rows)).

  (** The account at the end of a story. *)
  Definition final_account {S} (cfg : account_config) (rows : list (row S)) : account :=
    match rev rows with [] => opening_account cfg | r :: _ => account_after r end.

  (** The ticks are ordered by time. *)
  Definition time_ordered (ticks : list ohlc_tick) : Prop :=
    forall i j t t', nth_error ticks i = Some t -> nth_error ticks j = Some t' -> (i < j)%nat ->
                     (timestamp_sec t <= timestamp_sec t')%Z.

  (** The side input object was built from the side input history. *)
  Definition side_matches (hist : option (list side_record)) (side : option side_input) : Prop :=
    match hist, side with
    | None, None => True
    | Some h, Some si => good_side_history h /\ NewSideInput h = Done si
    | _, _ => False
    end.

  (** Two side input histories that agree on everything known up to time t. *)
  Definition same_knowledge (s1 s2 : option (list side_record)) (t : Z) : Prop :=
    match s1, s2 with
    | None, None => True
    | Some h1, Some h2 => forall r, (sr_timestamp_sec r <= t)%Z -> In r h1 <-> In r h2
    | _, _ => False
    end.

  (** The reported result in terms of the story. *)
  Definition result_of {S} (cfg : account_config) (first last_ : ohlc_tick) (rows : list (row S))
             (r : execution_result) : Prop :=
    let a := final_account cfg rows in
    r_start_base_balance r = start_base_balance cfg /\
    r_start_quote_balance r = start_quote_balance cfg /\
    r_end_base_balance r = base_balance a /\
    r_end_quote_balance r = quote_balance a /\
    r_start_price r = close first /\
    r_end_price r = close last_ /\
    r_start_value r = fadd (start_quote_balance cfg) (fmul (close first) (start_base_balance cfg)) /\
    r_end_value r = fadd (quote_balance a) (fmul (close last_) (base_balance a)) /\
    r_total_executed_orders r = executed_count rows /\
    r_total_fee r = total_fee a.

  (** The updates of the two reported volatilities, on the ticks on which the trader was
      updated: that of holding one unit of base currency, and that of the account as it was
      after the tick's orders. *)
  Definition market_updates {S} (rows : list (row S)) : list balance_update :=
    flat_map (fun r => match w_update r with
                       | None => []
                       | Some _ => [BalanceUpdate (w_tick r) (fofZ 1) (fofZ 0)]
                       end) rows.
  Definition portfolio_updates {S} (rows : list (row S)) : list balance_update :=
    flat_map (fun r => match w_update r with
                       | None => []
                       | Some _ => [BalanceUpdate (w_tick r) (base_balance (account_after r))
                                                  (quote_balance (account_after r))]
                       end) rows.

  (** The two results agree on everything but the volatilities. *)
  Definition same_but_volatility (r1 r2 : execution_result) : Prop :=
    r_start_base_balance r1 = r_start_base_balance r2 /\
    r_start_quote_balance r1 = r_start_quote_balance r2 /\
    r_end_base_balance r1 = r_end_base_balance r2 /\
    r_end_quote_balance r1 = r_end_quote_balance r2 /\
    r_start_price r1 = r_start_price r2 /\
    r_end_price r1 = r_end_price r2 /\
    r_start_value r1 = r_start_value r2 /\
    r_end_value r1 = r_end_value r2 /\
    r_total_executed_orders r1 = r_total_executed_orders r2 /\
    r_total_fee r1 = r_total_fee r2.
End Spec.
Arguments w_tick {M S}. Arguments w_account {M S}. Arguments w_attempts {M S}.
Arguments w_signals {M S}. Arguments w_update {M S}. Arguments Row {M S}.
Arguments TickLine {M S}. Arguments OrderLine {M S}. Arguments TraderLine {M S}.

(** All accounts of a row: before the orders, and after each of them. *)
Definition row_accounts {M : machine} {S} (r : @row M S) : list (@account M) :=
  w_account r :: map snd (w_attempts r).
