(** The same history at another time, and the same history in another quote currency. *)
From Coq Require Import ZArith List Reals String.
From Verif.Model Require Import Outcome Machine MachineR Types SideInput Eval Traders.
Import ListNotations.

Section Later.
  Context {M : machine}.

  (** The same tick / side input record, d seconds later (earlier if d is negative). *)
  Definition later (d : Z) (t : ohlc_tick) : ohlc_tick :=
    OhlcTick (timestamp_sec t + d) (open t) (high t) (low t) (close t) (volume t).
  Definition later_record (d : Z) (r : side_record) : side_record :=
    SideRecord (sr_timestamp_sec r + d) (sr_signal r).

  (** Both the ticks and the moved ticks lie after time 0. *)
  Definition after_epoch (d : Z) (ticks : list ohlc_tick) : Prop :=
    forall t, In t ticks -> (0 < timestamp_sec t /\ 0 < timestamp_sec t + d)%Z.

  (** The side inputs made from a side input history and from the same history d seconds
      later; or none. *)
  Definition side_inputs (d : Z) (h : option (list side_record)) (s s' : option side_input) : Prop :=
    match h, s, s' with
    | None, None, None => True
    | Some h, Some s, Some s' =>
      NewSideInput h = Done s /\ NewSideInput (map (later_record d) h) = Done s'
    | _, _, _ => False
    end.

  (** One of the traders of the program, with any configuration. *)
  Definition built_in (te : trader_emitter) : Prop :=
    (exists c, te = rebalancing_emitter c) \/ (exists c, te = stop_emitter c).

  (** A period limit d seconds later; 0 (or less) means "no limit" and stays. *)
  Definition later_limit (d x x' : Z) : Prop :=
    ((0 < x /\ 0 < x' /\ x' = x + d) \/ (x <= 0 /\ x' = x))%Z.

  (** The same evaluation period, d seconds later. *)
  Definition later_period (d : Z) (p q : period) : Prop :=
    later_limit d (p_start_timestamp_sec p) (p_start_timestamp_sec q) /\
    later_limit d (p_end_timestamp_sec p) (p_end_timestamp_sec q) /\
    p_result q = p_result p /\ p_final_gain q = p_final_gain p /\
    p_base_final_gain q = p_base_final_gain p.

  (** Two evaluation results that agree on everything except the time. *)
  Definition later_evaluation (d : Z) (r r' : evaluation_result) : Prop :=
    er_name r' = er_name r /\ er_account_config r' = er_account_config r /\
    Forall2 (later_period d) (er_period r) (er_period r') /\
    er_score r' = er_score r /\ er_avg_gain r' = er_avg_gain r /\
    er_avg_base_gain r' = er_avg_base_gain r /\
    er_avg_total_executed_orders r' = er_avg_total_executed_orders r /\
    er_avg_total_fee r' = er_avg_total_fee r.
End Later.
