(** Evaluation of a trader over time windows. *)
From Coq Require Import ZArith Bool List.
From Verif.Model Require Import Outcome Machine Types SideInput TimeUtil Eval.
Import ListNotations.

Section Spec.
  Context {M : machine}.
  Local Open Scope Z_scope.

  (** Window k starts k months after the configured start and lasts the configured number
      of months (month arithmetic: property C25). *)
  Definition window_start (ec : evaluation_config) (k : Z) : Z :=
    AddMonthsToTimestampSec (ec_start_timestamp_sec ec) k.
  Definition window_end (ec : evaluation_config) (k : Z) : Z :=
    AddMonthsToTimestampSec (window_start ec k) (evaluation_period_months ec).

  (** The ticks at or after start and before end_. *)
  Definition ticks_in (history : list ohlc_tick) (start end_ : Z) : list ohlc_tick :=
    filter (fun t => (start <=? timestamp_sec t) && (timestamp_sec t <? end_)) history.

  (** 0, 1, ..., n-1 *)
  Definition offsets (n : Z) : list Z := map Z.of_nat (seq 0 (Z.to_nat n)).

  (** Running a fresh trader on some ticks, without a logger. *)
  Definition run_quietly (cfg : account_config) (side : option side_input) (fast : bool)
             (te : trader_emitter) (ticks : list ohlc_tick) : outcome execution_result :=
    omap fst (ExecuteTrader cfg side fast te null_logger false ticks tt).

  (** The period reported for window [start, end_) with the given ticks. *)
  Definition period_reports (cfg : account_config) (side : option side_input) (fast : bool)
             (te : trader_emitter) (ticks : list ohlc_tick) (start end_ : Z) (p : period) : Prop :=
    p_start_timestamp_sec p = start /\ p_end_timestamp_sec p = end_ /\
    run_quietly cfg side fast te ticks = Done (p_result p) /\
    p_final_gain p = fdiv (r_end_value (p_result p)) (r_start_value (p_result p)) /\
    p_base_final_gain p = fdiv (r_end_price (p_result p)) (r_start_price (p_result p)).

  (** What evaluating one window does to the periods reported so far and to the log:
      nothing if it has no ticks. *)
  Definition evaluate_window (cfg : account_config) (ec : evaluation_config)
             (side : option side_input) (te : trader_emitter) (lg : logger) (has_logger : bool)
             (history : list ohlc_tick) (s : list period * lg_state lg) (w : Z * Z)
    : outcome (list period * lg_state lg) :=
    let (start, end_) := w in
    match ticks_in history start end_ with
    | [] => Done s
    | ticks =>
      do '(res, l) <- ExecuteTrader cfg side (fast_eval ec) te lg has_logger ticks (snd s) ;
      assert_ (fltb (fofZ 0) (r_start_value res)) ;;
      assert_ (fltb (fofZ 0) (r_start_price res) && fltb (fofZ 0) (r_end_price res)) ;;
      Done (fst s ++ [{| p_start_timestamp_sec := start; p_end_timestamp_sec := end_;
                         p_result := res;
                         p_final_gain := fdiv (r_end_value res) (r_start_value res);
                         p_base_final_gain := fdiv (r_end_price res) (r_start_price res) |}], l)
    end.
End Spec.
