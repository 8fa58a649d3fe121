(** From the files convert writes to the results trader prints. *)
From Coq Require Import Reals ZArith List String.
From Flocq Require Import Core BinarySingleNaN.
From Verif.Model Require Import Outcome Machine Types MachineIEEE Eval Traders Files Programs.
From Verif.Spec Require Import AccountIEEESpec OrderSpec EvalSpec ProgramSpec ProgressSpec ReturnSpec.
Import ListNotations.
Local Open Scope R_scope.

Section Pipeline.
  Context {lm : libm} {as_ : bool}.
  Local Notation I := (ieee lm as_).

  (** A price between 2^-19 and 2^19 (about 2 * 10^-6 and 5 * 10^5), a volume up to 2^16. *)
  Definition tradable (r : @price_record I) : Prop :=
    in_range (bpow radix2 (-19)) (bpow radix2 19) (pr_price r) /\ in_range 0 (bpow radix2 16) (pr_volume r).

  (** The trader flags, apart from the tick file: a known trader, sensible money flags, a
      period, and side data (if any) in the files of env. *)
  Record trader_setup (env : environment) (f : trader_flags) (start end_ : Z)
         (side : option (list (@side_record I))) : Prop := TraderSetup {
    ts_times : trader_times f start end_;
    ts_period : (0 < start <= end_)%Z;
    ts_flags : sensible_flags f;
    ts_name : tf_trader f = "rebalancing"%string \/ tf_trader f = "stop"%string;
    ts_side : side_data env (tf_input_side f) start end_ side
  }.

  (** Something is evaluated: windows of at least a month, or the whole period, which then
      contains a tick. *)
  Definition evaluates (f : trader_flags) (start end_ : Z) (ticks : list (@ohlc_tick I)) : Prop :=
    (0 < tf_evaluation_period_months f)%Z \/
    tf_evaluation_period_months f = 0%Z /\ of_period timestamp_sec start end_ ticks <> [].

  (** What the trader program does with these ticks (of its tick file) and side records (of
      its period): it prints its table, or its ranking if asked for, and ends well; or some run
      of one of its traders makes the account exceed the supported range. *)
  Definition exceeds (f : trader_flags) (start end_ : Z) (ticks : list (@ohlc_tick I))
             (side : option (list (@side_record I))) : Prop :=
    exists te ws we a, program_trader (tf_trader f) te /\
      reached (GetAccountConfig f) side te (ticks_in (of_period timestamp_sec start end_ ticks) ws we) a /\
      ~ not_exceeded a.

  Definition prints_table (env : environment) (f : trader_flags) (start end_ : Z)
             (ticks : list (@ohlc_tick I)) (side : option (list (@side_record I))) : Prop :=
    forall sort fuel sched,
      log_possible env f (tf_exchange_log f) -> log_possible env f (tf_trader_log f) ->
      (end_ - start < Z.of_nat fuel)%Z ->
      (exists name rows logs, @trader_main lm as_ env sort fuel sched f
                              = Done (TraderResult EXIT_SUCCESS (Some (Table name rows)) logs)) \/
      exceeds f start end_ ticks side.

  Definition prints_ranking (env : environment) (f : trader_flags) (start end_ : Z)
             (ticks : list (@ohlc_tick I)) (side : option (list (@side_record I))) : Prop :=
    forall sort fuel sched,
      roots_exist lm ->
      (forall i tes, @GetBatchOfTraders I (tf_trader f) = Done tes -> (i < List.length tes)%nat ->
         (end_ - start < Z.of_nat (count_occ Nat.eq_dec sched i))%Z) ->
      (exists rows, @trader_main lm as_ env sort fuel sched f
                    = Done (TraderResult EXIT_SUCCESS (Some (Ranking rows)) [])) \/
      exceeds f start end_ ticks side.

  Definition trades (env : environment) (f : trader_flags) (start end_ : Z)
             (ticks : list (@ohlc_tick I)) (side : option (list (@side_record I))) : Prop :=
    if tf_evaluate_batch f then prints_ranking env f start end_ ticks side
    else prints_table env f start end_ ticks side.
End Pipeline.
