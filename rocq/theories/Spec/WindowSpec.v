(** Evaluations of single windows, of cut histories and of longer ranges. *)
From Coq Require Import ZArith Bool List.
From Verif.Model Require Import Outcome Machine Types.
Local Open Scope Z_scope.

(** The evaluation of the range of one reported period as a whole (period 0). *)
Definition only_window {M : machine} (ec : evaluation_config) (p : period) : evaluation_config :=
  {| ec_start_timestamp_sec := p_start_timestamp_sec p;
     ec_end_timestamp_sec := p_end_timestamp_sec p;
     evaluation_period_months := 0;
     fast_eval := fast_eval ec |}.

(** The same evaluation up to another end. *)
Definition until (ec : evaluation_config) (end_ : Z) : evaluation_config :=
  {| ec_start_timestamp_sec := ec_start_timestamp_sec ec;
     ec_end_timestamp_sec := end_;
     evaluation_period_months := evaluation_period_months ec;
     fast_eval := fast_eval ec |}.

(** The history starts in time (a start of 0 or less means "no bound"). *)
Definition clean_start {M : machine} (ec : evaluation_config) (history : list ohlc_tick) : Prop :=
  0 < ec_start_timestamp_sec ec \/
  (ec_start_timestamp_sec ec = 0 /\ forall t, List.In t history -> 0 <= timestamp_sec t).
