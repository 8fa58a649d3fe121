(** C91: on realistic data no signed integer operation overflows.  The functions of Model/Ints.v
    are the code with every int64_t and int operation checked ([Undefined] on overflow); each theorem says
    that the checked function has the same outcome as the function of the rest of the model, which
    computes with unbounded integers. *)
From Coq Require Import ZArith Bool String List Lia.
From Verif.Model Require Import Outcome Machine Types Account History SideInput Indicators TimeUtil Eval Traders MachineIEEE Ints.
From Verif.Spec Require Import IntSpec.
From Verif.Proofs Require Import Base IntProofs IntRunProofs TraderProofs.
Import ListNotations.
Open Scope Z_scope.

Section IntProps.
  Context {M : machine}.

  (** Resampling, for any sampling rate that is an int and not negative. *)
  Theorem C91_resample : forall l rate lo hi,
    0 <= rate < 2 ^ 31 -> times_within lo hi (map pr_timestamp_sec l) ->
    Resample_int l rate = Resample l rate.
  Proof. exact Resample_agree. Qed.

  Theorem C91_gaps : forall l start end_ top_n lo hi,
    times_within lo hi (start :: end_ :: map pr_timestamp_sec l) ->
    GetPriceHistoryGaps_int l start end_ top_n = Done (GetPriceHistoryGaps l start end_ top_n).
  Proof. exact GetPriceHistoryGaps_agree. Qed.

  (** ... where any two gaps between such times are compared without overflow. *)
  Theorem C91_gap_cmp : forall a b,
    - far <= fst a <= far -> - far <= snd a <= far -> - far <= fst b <= far -> - far <= snd b <= far ->
    gap_cmp_int a b = Done (gap_cmp a b).
  Proof. intros a b H1 H2 H3 H4. apply gap_cmp_agree; split; assumption. Qed.

  Theorem C91_outliers : forall l dev indices lo hi,
    times_within lo hi (map pr_timestamp_sec l) ->
    RemoveOutliers_int l dev indices = Done (RemoveOutliers l dev indices).
  Proof. exact RemoveOutliers_agree. Qed.

  (** Looking up a side input, from any earlier index (or -1). *)
  Theorem C91_side_input : forall si t prev,
    side_input_fits si -> -1 <= prev < GetNumberOfRecords si ->
    GetSideInputIndexHint_int si t prev = GetSideInputIndexHint si t prev /\
    forall i acc, GetSideInputIndexHint si t prev = Done i -> 0 <= i ->
      GetSideInputSignals_int si i acc = GetSideInputSignals si i acc.
  Proof.
    intros si t prev Hs Hp. destruct (GetSideInputIndexHint_agree si t prev Hs Hp) as (E & HI).
    split; [exact E|]. intros i acc Hi H0. apply GetSideInputSignals_agree; [exact Hs|].
    apply HI in Hi. lia.
  Qed.

  (** Every indicator, fed any sequence of ticks (in any order). *)
  Theorem C91_indicators : forall period lo hi l,
    few_periods period lo hi -> times_within lo hi (map timestamp_sec l) ->
    (forall n, foldM (LastN_Update_int sma_handler (fun _ => 0) n period) ([], fofZ 0) l
               = foldM (sma_Update n period) ([], fofZ 0) l) /\
    (forall w, foldM (LastN_Update_int (ema_handler w) ema_count 1 period) ([], NewEmaHelper) l
               = foldM (ema_Update w period) ([], NewEmaHelper) l) /\
    (forall f s g, foldM (LastN_Update_int (macd_handler (macd_weight f) (macd_weight s) (macd_weight g)) macd_count 1 period)
                         ([], MacdState NewEmaHelper NewEmaHelper NewEmaHelper 0) l
                   = foldM (macd_Update f s g period) ([], MacdState NewEmaHelper NewEmaHelper NewEmaHelper 0) l) /\
    (forall n, foldM (LastN_Update_int (rsi_handler n) rsi_count 2 period) ([], RsiState NewEmaHelper NewEmaHelper 0) l
               = foldM (rsi_Update n period) ([], RsiState NewEmaHelper NewEmaHelper 0) l) /\
    (forall n s0, NewStoch n period = Done s0 ->
       foldM (LastN_Update_int stoch_handler stoch_count 1 period) s0 l = foldM (stoch_Update period) s0 l).
  Proof.
    intros period lo hi l HS HT. repeat split; intros.
    - apply (updates_agree sma_handler (fun _ => 0) n period lo hi); auto using sma_counts.
    - apply (updates_agree (ema_handler w) ema_count 1 period lo hi); auto using ema_counts.
    - apply (updates_agree (macd_handler (macd_weight f) (macd_weight s) (macd_weight g)) macd_count 1 period lo hi); auto using macd_counts.
    - apply (updates_agree (rsi_handler n) rsi_count 2 period lo hi); auto using rsi_counts.
    - unfold NewStoch in H. apply bind_done in H as (? & _ & H).
      apply bind_done in H as (mn & Hmn & H). apply bind_done in H as (mx & Hmx & H). injection H as <-.
      unfold NewSlidingMin in Hmn, Hmx. apply bind_done in Hmn as (? & _ & Hmn). apply bind_done in Hmx as (? & _ & Hmx).
      injection Hmn as <-. injection Hmx as <-.
      apply (updates_agree stoch_handler stoch_count 1 period lo hi); auto using stoch_counts.
  Qed.

  (** The checks cover every int counter of every indicator: each is at most the checked one. *)
  Theorem C91_counters :
    (forall h : ema_helper, ema_num_values h <= ema_count h) /\
    (forall s : macd_state, macd_num s <= macd_count s /\ ema_num_values (fast_ema s) <= macd_count s /\
       ema_num_values (slow_ema s) <= macd_count s /\ ema_num_values (signal_ema s) <= macd_count s) /\
    (forall s : rsi_state, rsi_num s <= rsi_count s /\ ema_num_values (upward_mma s) <= rsi_count s /\
       ema_num_values (downward_mma s) <= rsi_count s) /\
    (forall s : stoch_state, st_num s <= stoch_count s /\ mv_num_values (st_fast s) <= stoch_count s /\
       mv_num_values (st_slow s) <= stoch_count s /\ sm_num_values (st_min s) <= stoch_count s /\
       sm_num_values (st_max s) <= stoch_count s) /\
    (forall s : vol_state, vl_num s <= vol_count s /\ mv_num_values (vl_variance s) <= vol_count s).
  Proof.
    unfold ema_count, macd_count, rsi_count, stoch_count, vol_count. repeat split; lia.
  Qed.

  (** Volatility, with any balances along the way. *)
  Theorem C91_volatility : forall w period lo hi (l : list (ohlc_tick * flt * flt)) v0,
    few_periods period lo hi -> times_within lo hi (map (fun x => timestamp_sec (fst (fst x))) l) ->
    NewVolatility w period = Done v0 ->
    foldM (fun v x => vol_Update_int period v (fst (fst x)) (snd (fst x)) (snd x)) v0 l
    = foldM (fun v x => vol_Update period v (fst (fst x)) (snd (fst x)) (snd x)) v0 l.
  Proof.
    intros w period lo hi l v0 HS (Hlo & Hhi & Hl) H. rewrite Forall_map in Hl.
    refine (proj1 (foldM_agree _ _ (fun x : ohlc_tick * flt * flt => lo <= timestamp_sec (fst (fst x)) <= hi)
              (fun _ => counted vol_count period lo hi) l 0 v0 _ Hl _)).
    - intros j v x _ Hv Hx. apply (vol_Update_agree period lo hi); auto.
    - unfold NewVolatility in H. apply bind_done in H as (? & _ & H). injection H as <-. split; cbn; lia.
  Qed.

  (** Executing a trader over a range of ticks, and evaluating it over periods: for any trader without
      integer arithmetic of its own that emits at most m orders at a time ... *)
  Section Run.
    Context (cfg : account_config) (side : option side_input) (lg : logger) (has_logger : bool).
    Context (lo hi : Z) (Hside : match side with Some si => side_input_fits si | None => True end)
            (Hspan : few_periods kSecondsPerDay lo hi).

    Theorem C91_execute : forall fast te m ticks l,
      times_within lo hi (map timestamp_sec ticks) ->
      0 <= m -> emits_at_most m te -> m * Z.of_nat (length ticks) < 2 ^ 31 ->
      ExecuteTrader_int cfg side fast te lg has_logger (te_update te) ticks l
      = ExecuteTrader cfg side fast te lg has_logger ticks l.
    Proof.
      intros fast te m ticks l (Hlo & Hhi & Hl) Hm He Hn. rewrite Forall_map in Hl.
      apply (ExecuteTrader_agree cfg side fast te lg has_logger (te_update te) lo hi m Hm (conj Hlo Hhi) Hspan Hside He (fun _ => True)); auto.
    Qed.

    (** ... for a loop of fewer than 2^31 - 12 iterations ... *)
    Theorem C91_evaluate : forall ec history te m fuel l,
      times_within lo hi (map timestamp_sec history) ->
      0 <= m -> emits_at_most m te -> m * Z.of_nat (length history) < 2 ^ 31 ->
      evaluation_period_months ec < 2 ^ 31 - 12 -> Z.of_nat fuel <= 2 ^ 31 - 12 ->
      EvaluateTrader_int cfg ec history side te lg has_logger (te_update te) fuel l
      = EvaluateTrader cfg ec history side te lg has_logger fuel l.
    Proof.
      intros ec history te m fuel l HT Hm He Hn Hmo Hf.
      apply (EvaluateTrader_agree cfg ec history side te lg has_logger (te_update te) lo hi m Hm HT Hspan Hside He Hn Hmo (fun _ => True)); auto.
    Qed.

    (** ... in particular for RebalancingTrader, which emits at most two orders at a time ... *)
    Theorem C91_evaluate_rebalancing : forall c ec history fuel l,
      times_within lo hi (map timestamp_sec history) ->
      2 * Z.of_nat (length history) < 2 ^ 31 ->
      evaluation_period_months ec < 2 ^ 31 - 12 -> Z.of_nat fuel <= 2 ^ 31 - 12 ->
      EvaluateTrader_int cfg ec history side (rebalancing_emitter c) lg has_logger (rebalancing_update c) fuel l
      = EvaluateTrader cfg ec history side (rebalancing_emitter c) lg has_logger fuel l.
    Proof.
      intros c ec history fuel l HT Hn Hmo Hf.
      apply (C91_evaluate ec history (rebalancing_emitter c) 2 fuel l); try assumption; [lia|].
      intros s t sig b q s' orders H. cbn [rebalancing_emitter te_update] in H. unfold rebalancing_update in H.
      do 3 (apply bind_done in H as (? & _ & H)). injection H as _ <-.
      unfold rebalancing_orders. destruct (fltb _ _); [cbn; lia|]. destruct (fltb _ _); [cbn; lia|].
      destruct (_ && _)%bool; [|cbn; lia].
      rewrite app_length. destruct (fltb _ _), (_ && _)%bool; try destruct (_ && _)%bool; cbn; lia.
    Qed.

    (** ... and for StopTrader, whose Update does compute with timestamps. *)
    Theorem C91_evaluate_stop : forall c ec history fuel l,
      times_within lo hi (map timestamp_sec history) ->
      Z.of_nat (length history) < 2 ^ 31 ->
      evaluation_period_months ec < 2 ^ 31 - 12 -> Z.of_nat fuel <= 2 ^ 31 - 12 ->
      EvaluateTrader_int cfg ec history side (stop_emitter c) lg has_logger (stop_update_int c) fuel l
      = EvaluateTrader cfg ec history side (stop_emitter c) lg has_logger fuel l.
    Proof.
      intros c ec history fuel l HT Hn Hmo Hf.
      apply (EvaluateTrader_agree cfg ec history side (stop_emitter c) lg has_logger (stop_update_int c) lo hi 1 ltac:(lia) HT Hspan Hside) with (J := fun s : te_state (stop_emitter c) => - far <= sp_timestamp s <= far).
      - intros s t sig b q s' orders H. cbn [stop_emitter te_update] in H. unfold stop_update in H.
        do 3 (apply bind_done in H as (? & _ & H)).
        apply bind_done in H as (st & _ & H). apply bind_done in H as (os & H1 & H). injection H as _ <-.
        unfold EmitStopOrder in H1. cbn [sp_mode] in H1.
        destruct (stop_mode _ _ _); [apply bind_done in H1 as (? & _ & H1)| |apply bind_done in H1 as (? & _ & H1)]; injection H1 as <-; cbn; lia.
      - lia.
      - exact Hmo.
      - cbn [te_new stop_emitter stop_init sp_timestamp]. rewrite far_val. lia.
      - intros s t sig b q Hs Ht. destruct HT as (Hlo & Hhi & _).
        destruct (stop_update_agree c s t sig b q Hs ltac:(lia)) as (E & HI).
        split; [exact E|]. intros s' o H. apply HI in H. tauto.
      - exact Hf.
    Qed.
  End Run.

  (** Without ticks in the range (and period 0) the evaluation loop, which never returns with
      unbounded integers (C24), runs into the overflow of its month counter. *)
  Theorem C91_no_ticks_overflow : forall cfg side te lg has_logger update_int ec fuel l,
    evaluation_period_months ec = 0 -> 2 ^ 31 <= Z.of_nat fuel ->
    EvaluateTrader_int cfg ec [] side te lg has_logger update_int fuel l = Undefined.
  Proof.
    intros cfg side te lg hl upd ec fuel l Hp Hf. unfold EvaluateTrader_int.
    assert (L : forall fuel k ps l, 0 <= k -> 2 ^ 31 <= k + Z.of_nat fuel ->
              k < 2 ^ 31 -> eval_loop_int cfg ec [] side te lg hl upd fuel (k, ps, l) = Undefined).
    { clear fuel l Hf. induction fuel as [|fuel IH]; intros k ps l Hk Hf Hb; [lia|].
      cbn [eval_loop_int]. unfold eval_step_int, eval_window_int. rewrite Hp. change (0 >? 0) with false. cbv iota.
      pose proof (cs_month_range (ec_start_timestamp_sec ec)) as HR.
      unfold AddMonthsToTimestampSec_int. generalize dependent (ToCivilSecond (ec_start_timestamp_sec ec)).
      intros cs HR. cbv zeta. unfold int32 at 1. destruct (fits32 _); [|reflexivity]. cbn [bind].
      rewrite Z.gtb_ltb, Z.ltb_irrefl.
      assert (HE : forall s, HistorySubset timestamp_sec [] s (ec_end_timestamp_sec ec) = (0%nat, 0%nat)).
      { intros s. unfold HistorySubset, lower_bound. cbn. destruct (s >? 0), (_ >? 0); reflexivity. }
      rewrite HE. cbn [Nat.eqb].
      unfold int32. destruct (fits32 (k + 1)) eqn:F; [|reflexivity]. cbn [bind].
      unfold fits32 in F. apply andb_prop in F as (_ & F). apply Z.ltb_lt in F.
      apply IH; lia. }
    rewrite L by lia. reflexivity.
  Qed.

  (** The number of periods matters: an exponential moving average over one-second periods whose ticks
      are 70 years apart overflows its counter of values. *)
  Theorem C91_counter_refuted : forall w (t1 t2 : ohlc_tick),
    timestamp_sec t1 = 0 -> 2 ^ 31 + 1 <= timestamp_sec t2 <= far ->
    foldM (LastN_Update_int (ema_handler w) ema_count 1 1) ([], NewEmaHelper) [t1; t2] = Undefined.
  Proof.
    intros w t1 t2 H1 H2. pose proof far_val as FV. cbn [foldM].
    assert (E1 : LastN_Update_int (ema_handler w) ema_count 1 1 ([], NewEmaHelper) t1
                 = Done ([{| timestamp_sec := 0; open := open t1; high := high t1; low := low t1;
                             close := close t1; volume := volume t1 |}],
                         EmaHelper (close t1) (fofZ 0) 1)).
    { unfold LastN_Update_int. rewrite H1. unfold round_down. cbn.
      unfold ema_AddNewValue, ema_UpdateCurrentValue. cbn.
      unfold NewEmaHelper. cbn. unfold assert_. destruct asserts_on; reflexivity. }
    rewrite E1. cbn [bind].
    assert (L : forall fuel t h, 1 <= ema_num_values h < 2 ^ 31 ->
              2 ^ 31 <= ema_num_values h + Z.of_nat fuel ->
              timestamp_sec t = ema_num_values h - 1 ->
              lastn_fill_int (ema_handler w) ema_count fuel 1 1 (timestamp_sec t2) [t] h = Undefined).
    { clear E1. induction fuel as [|fuel IH]; intros t h Hn Hf Ht; [lia|].
      cbn [lastn_fill_int]. rewrite int64_fits by lia. cbn [bind].
      replace (_ <? _) with true by (symmetry; apply Z.ltb_lt; lia).
      unfold NewOhlcTickAdded. cbn [length removelast last handler_int]. change (Z.of_nat 2 <=? 1) with false. cbv iota.
      unfold ema_count. unfold int32. destruct (fits32 _) eqn:F; [|reflexivity]. cbn [bind].
      unfold fits32 in F. apply andb_prop in F as (_ & F). apply Z.ltb_lt in F.
      cbn [ema_handler]. rewrite (proj2 (Z.geb_le (ema_num_values h) 1)) by lia.
      rewrite assert_true. cbn [bind]. unfold ema_AddNewValue, ema_UpdateCurrentValue. cbn [ema_num_values].
      rewrite (Z.gtb_ltb (ema_num_values h + 1) 0), (proj2 (Z.ltb_lt 0 _)) by lia. rewrite assert_true. cbn [bind].
      apply IH; cbn [ema_num_values flat_tick timestamp_sec]; lia. }
    unfold LastN_Update_int. unfold round_down. cbn [Z.eqb].
    change (1 =? 0) with false. cbv iota. rewrite Z.quot_1_r. rewrite int64_fits by lia. cbn [bind]. rewrite Z.mul_1_l. rewrite int64_fits by lia. cbn [bind].
    rewrite L; [reflexivity|cbn; lia| |reflexivity].
    cbn [fill_fuel timestamp_sec ema_num_values]. change (0 <? 1) with true. cbv iota. rewrite Z.sub_0_r, Z.div_1_r, Z2Nat.id by lia. lia.
  Qed.

  (** Timestamps at the end of the range of int64_t do overflow: two trades in the last five seconds. *)
  Theorem C91_resample_refuted : forall p v,
    let r := {| pr_timestamp_sec := 2 ^ 63 - 5; pr_price := p; pr_volume := v |} in
    Resample_int [r; r] 300 = Undefined /\ exists ticks, Resample [r; r] 300 = Done ticks.
  Proof.
    intros p v. cbv zeta. split.
    - unfold Resample_int. cbn [foldM]. unfold resample_step_int at 1. cbn [pr_timestamp_sec].
      change (round_down 300 (2 ^ 63 - 5)) with (Done 9223372036854775800). cbn [bind fill_fuel fill_loop_int].
      unfold resample_step_int. cbn [pr_timestamp_sec].
      change (round_down 300 (2 ^ 63 - 5)) with (Done 9223372036854775800). cbn [bind].
      assert (H : forall fuel t l, timestamp_sec t = 9223372036854775800 ->
                fill_loop_int fuel 300 9223372036854775800 (t :: l) = Undefined).
      { intros fuel t l Ht. destruct fuel; cbn [fill_loop_int]; rewrite Ht; reflexivity. }
      rewrite H by reflexivity. reflexivity.
    - unfold Resample. cbn [foldM]. unfold resample_step at 1. cbn [pr_timestamp_sec].
      change (300 =? 0) with false. change (300 * Z.quot (2 ^ 63 - 5) 300) with 9223372036854775800.
      cbv iota zeta. cbn [bind fill_fuel fill_loop].
      unfold resample_step. cbn [pr_timestamp_sec].
      change (300 =? 0) with false. change (300 * Z.quot (2 ^ 63 - 5) 300) with 9223372036854775800.
      cbv iota zeta.
      assert (H : forall fuel t l, timestamp_sec t = 9223372036854775800 ->
                fill_loop fuel 300 9223372036854775800 (t :: l) = Done (t :: l)).
      { intros fuel t l Ht. destruct fuel; cbn [fill_loop]; rewrite Ht; reflexivity. }
      rewrite H by reflexivity. cbn [bind timestamp_sec]. rewrite Z.ltb_irrefl, Z.eqb_refl, assert_true.
      cbn [bind]. unfold omap. cbn [bind]. eexists. reflexivity.
  Qed.

  (** ... and so does the comparison of gaps that cover most of it. *)
  Theorem C91_gaps_refuted : forall p v,
    let r t := {| pr_timestamp_sec := t; pr_price := p; pr_volume := v |} in
    GetPriceHistoryGaps_int [r (- 2 ^ 62); r (2 ^ 62)] 0 0 10 = Undefined.
  Proof. intros p v. reflexivity. Qed.

  (** Five years of minute data, 2017 to 2021, meet the conditions with a wide margin. *)
  Example C91_ex_span : few_periods kSecondsPerDay 1483228800 1640995200 /\ few_periods 60 1483228800 1640995200 /\
    few_periods 1 1483228800 1640995200.
  Proof. repeat split; unfold kSecondsPerDay; lia. Qed.

  Example C91_ex_times : forall p v,
    times_within 1483228800 1640995200
      (map pr_timestamp_sec (map (fun i => {| pr_timestamp_sec := 1483228800 + 60 * Z.of_nat i; pr_price := p; pr_volume := v |})
                                 (seq 0 (Z.to_nat 2629440)))).
  Proof.
    intros p v. unfold times_within. rewrite far_val. split; [lia|]. split; [lia|].
    rewrite map_map. apply Forall_map. cbn [pr_timestamp_sec]. apply Forall_forall. intros i Hi.
    apply in_seq in Hi. lia.
  Qed.

  Example C91_ex_side : forall (x : flt),
    side_input_fits {| num_signals := 1; timestamp_sec_history := [1483228800; 1483315200]; data := [x; x] |}.
  Proof.
    intros x. unfold side_input_fits, GetNumberOfSignals, GetNumberOfRecords. rewrite far_val.
    cbn [num_signals timestamp_sec_history length]. repeat constructor; lia.
  Qed.
End IntProps.
