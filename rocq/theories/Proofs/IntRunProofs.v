(** Checked integer arithmetic in the indicators, the traders, ExecuteTrader and EvaluateTrader. *)
From Coq Require Import ZArith Bool String List Lia.
From Verif.Model Require Import Outcome Machine Types Account Search History SideInput Indicators TimeUtil Eval Traders Ints.
From Verif.Proofs Require Import Base SearchProofs TimeProofs IntProofs.
From Verif.Spec Require Import IntSpec.
Import ListNotations.
Open Scope Z_scope.

Section IntRun.
  Context {M : machine}.

  (** * The indicators' counters *)
  Lemma ema_update_num h v w h' : ema_UpdateCurrentValue h v w = Done h' -> ema_num_values h' = ema_num_values h.
  Proof. unfold ema_UpdateCurrentValue. intros H. apply bind_done in H as (? & _ & H). injection H as <-. reflexivity. Qed.
  Lemma ema_add_num h v w h' : ema_AddNewValue h v w = Done h' -> ema_num_values h' = ema_num_values h + 1.
  Proof. unfold ema_AddNewValue. intros H. apply ema_update_num in H. exact H. Qed.
  Lemma mv_update_num s v s' : mv_UpdateCurrentValue s v = Done s' -> mv_num_values s' = mv_num_values s.
  Proof. unfold mv_UpdateCurrentValue. intros H. apply bind_done in H as (? & _ & H). injection H as <-. reflexivity. Qed.
  Lemma mv_add_num s v : mv_num_values (mv_AddNewValue s v) = mv_num_values s + 1.
  Proof.
    unfold mv_AddNewValue. destruct (_ || _).
    - destruct (_ =? _); reflexivity.
    - destruct (_ <=? _); [|reflexivity]. destruct (mv_window s); reflexivity.
  Qed.
  Lemma sm_update_num s v s' : sm_UpdateCurrentValue s v = Done s' -> sm_num_values s' = sm_num_values s.
  Proof. unfold sm_UpdateCurrentValue. intros H. apply bind_done in H as (? & _ & H). injection H as <-. reflexivity. Qed.
  Lemma sm_add_num s v s' : sm_AddNewValue s v = Done s' -> sm_num_values s' = sm_num_values s + 1.
  Proof.
    unfold sm_AddNewValue. intros H. destruct (_ || _); [injection H as <-; reflexivity|].
    apply bind_done in H as (w & _ & H). apply sm_update_num in H. exact H.
  Qed.

  Lemma ema_counts weight : counts_ticks (ema_handler weight) ema_count.
  Proof.
    intros s ticks e s' Hs H. unfold ema_count in *. destruct e; cbn [ema_handler] in H;
      apply bind_done in H as (? & _ & H).
    - apply ema_update_num in H. lia.
    - apply ema_add_num in H. lia.
    - apply ema_add_num in H. lia.
  Qed.

  Lemma macd_counts f w g : counts_ticks (macd_handler f w g) macd_count.
  Proof.
    intros s ticks e s' Hs H. unfold macd_count in *. destruct e; cbn [macd_handler] in H;
      apply bind_done in H as (? & _ & H); unfold macd_LastTickUpdated, macd_NewTickAdded in H;
      apply bind_done in H as (e1 & H1 & H); apply bind_done in H as (e2 & H2 & H);
      apply bind_done in H as (e3 & H3 & H); injection H as <-;
      cbn [macd_num fast_ema slow_ema signal_ema].
    - apply ema_update_num in H1, H2, H3. lia.
    - apply ema_add_num in H1, H2, H3. lia.
    - apply ema_add_num in H1, H2, H3. lia.
  Qed.

  Lemma rsi_counts n : counts_ticks (rsi_handler n) rsi_count.
  Proof.
    intros s ticks e s' Hs H. unfold rsi_count in *. destruct e; cbn [rsi_handler] in H;
      apply bind_done in H as (? & _ & H); unfold rsi_LastTickUpdated, rsi_NewTickAdded in H;
      apply bind_done in H as (ch & _ & H);
      apply bind_done in H as (e1 & H1 & H); apply bind_done in H as (e2 & H2 & H);
      injection H as <-; cbn [rsi_num upward_mma downward_mma].
    - apply ema_update_num in H1, H2. lia.
    - apply ema_add_num in H1, H2. lia.
    - apply ema_add_num in H1, H2. lia.
  Qed.

  Lemma stoch_counts : counts_ticks stoch_handler stoch_count.
  Proof.
    intros s ticks e s' Hs H. unfold stoch_count in *. destruct e; cbn [stoch_handler] in H;
      apply bind_done in H as (? & _ & H); unfold stoch_LastTickUpdated, stoch_NewTickAdded in H;
      apply bind_done in H as (e1 & H1 & H); apply bind_done in H as (e2 & H2 & H);
      apply bind_done in H as (k & _ & H).
    - apply bind_done in H as (e3 & H3 & H); apply bind_done in H as (e4 & H4 & H).
      injection H as <-. cbn [st_num st_fast st_slow st_min st_max].
      unfold sx_UpdateCurrentValue in H2.
      apply sm_update_num in H1, H2. apply mv_update_num in H3, H4. lia.
    - injection H as <-. cbn [st_num st_fast st_slow st_min st_max]. rewrite !mv_add_num.
      unfold sx_AddNewValue in H2. apply sm_add_num in H1, H2. lia.
    - injection H as <-. cbn [st_num st_fast st_slow st_min st_max]. rewrite !mv_add_num.
      unfold sx_AddNewValue in H2. apply sm_add_num in H1, H2. lia.
  Qed.

  Lemma vol_counts : counts_ticks vol_handler vol_count.
  Proof.
    intros s ticks e s' Hs H. unfold vol_count in *. destruct e; cbn [vol_handler] in H;
      apply bind_done in H as (? & _ & H); apply bind_done in H as (p & _ & H);
      apply bind_done in H as (r & _ & H).
    - apply bind_done in H as (v & Hv & H). injection H as <-. cbn [vl_num vl_variance].
      apply mv_update_num in Hv. lia.
    - injection H as <-. cbn [vl_num vl_variance]. rewrite mv_add_num. lia.
    - injection H as <-. cbn [vl_num vl_variance]. rewrite mv_add_num. lia.
  Qed.

  Lemma sma_counts : counts_ticks (S := flt) sma_handler (fun _ => 0).
  Proof. intros s ticks e s' _ _. destruct e; lia. Qed.

  (** Any number of updates of an indicator, from a fresh one. *)
  Lemma updates_agree {S} (handler : S -> list ohlc_tick -> tick_event -> outcome S) count n period lo hi s0 l :
    counts_ticks handler count -> count s0 = 0 -> few_periods period lo hi ->
    times_within lo hi (map timestamp_sec l) ->
    foldM (LastN_Update_int handler count n period) ([], s0) l = foldM (LastN_Update handler n period) ([], s0) l.
  Proof.
    intros HC H0 HS (Hlo & Hhi & Hl). rewrite Forall_map in Hl.
    apply (foldM_agree _ _ (fun t => lo <= timestamp_sec t <= hi)
             (fun _ => counted count period lo hi) l 0 ([], s0)); [|exact Hl|].
    - intros j s a _ Hs Ha. apply (LastN_Update_agree handler count HC n period lo hi); try assumption; [auto|lia].
    - split; cbn [fst snd]; lia.
  Qed.

  Lemma vol_Update_agree period lo hi v t b q :
    - far <= lo /\ hi <= far -> few_periods period lo hi ->
    counted vol_count period lo hi v -> lo <= timestamp_sec t <= hi ->
    vol_Update_int period v t b q = vol_Update period v t b q /\
    forall v', vol_Update period v t b q = Done v' -> counted vol_count period lo hi v'.
  Proof.
    intros HF HS HV Ht. unfold vol_Update_int, vol_Update.
    apply (LastN_Update_agree vol_handler vol_count vol_counts 2 period lo hi HF HS ltac:(lia)); [|exact Ht].
    destruct v as [tk [vb vq vp vv vn]]. exact HV.
  Qed.

  (** * StopTrader *)
  Lemma stop_update_agree c s t sig b q :
    - far <= sp_timestamp s <= far -> - far <= timestamp_sec t <= far ->
    stop_update_int c s t sig b q = stop_update c s t sig b q /\
    forall s' o, stop_update c s t sig b q = Done (s', o) -> - far <= sp_timestamp s' <= far /\ length o = 1%nat.
  Proof.
    intros Hs Ht. split.
    - unfold stop_update_int, stop_update. pose proof far_val as FV.
      do 3 (apply bind_ext; intros _ _).
      rewrite int64_fits by (unfold max_allowed_gap_sec; lia). cbn [bind].
      destruct (_ || _); [reflexivity|].
      f_equal. apply bind_ext. intros _ _. rewrite int64_fits by lia. cbn [bind]. f_equal. lia.
    - intros s' o H. unfold stop_update in H.
      do 3 (apply bind_done in H as (? & _ & H)).
      apply bind_done in H as (st & _ & H). apply bind_done in H as (os & H1 & H).
      injection H as <- <-. cbn [sp_timestamp]. split; [exact Ht|].
      unfold EmitStopOrder in H1. cbn [sp_mode] in H1.
      destruct (stop_mode _ _ _); [apply bind_done in H1 as (? & _ & H1)| |apply bind_done in H1 as (? & _ & H1)]; injection H1 as <-; reflexivity.
  Qed.

  (** * ExecuteTrader *)
  Section Execute.
    Context (cfg : account_config) (side : option side_input) (fast : bool)
            (te : trader_emitter) (lg : logger) (has_logger : bool).
    Context (update_int : te_state te -> ohlc_tick -> list flt -> flt -> flt -> outcome (te_state te * list order)).
    Context (lo hi m : Z) (Hm : 0 <= m) (Hfar : - far <= lo /\ hi <= far)
            (Hspan : few_periods kSecondsPerDay lo hi)
            (Hside : match side with Some si => side_input_fits si | None => True end)
            (Hemits : emits_at_most m te)
            (J : te_state te -> Prop)
            (HJ : forall s t sig b q, J s -> lo <= timestamp_sec t <= hi ->
                    update_int s t sig b q = te_update te s t sig b q /\
                    forall s' o, te_update te s t sig b q = Done (s', o) -> J s').

    Definition prev_within (prev : Z) : Prop :=
      match side with Some si => -1 <= prev < GetNumberOfRecords si | None => True end.

    Definition run_inv (k : Z) (s : exec_state te lg) : Prop :=
      prev_within (x_prev_index te lg s) /\
      Z.of_nat (length (x_orders te lg s)) <= m /\
      0 <= x_executed te lg s <= m * k /\
      counted vol_count kSecondsPerDay lo hi (x_base_vol te lg s) /\
      counted vol_count kSecondsPerDay lo hi (x_trader_vol te lg s) /\
      J (x_trader te lg s).

    Lemma side_input_part_agree t sig prev :
      prev_within prev -> lo <= timestamp_sec t <= hi ->
      side_input_part_int side t sig prev = side_input_part side t sig prev /\
      forall r, side_input_part side t sig prev = Done r -> prev_within (snd r).
    Proof.
      unfold prev_within, side_input_part_int, side_input_part. pose proof far_val as FV.
      destruct side as [si|]; [|intros _ _; split; [reflexivity|intros; exact I]].
      intros Hp Ht. destruct (GetSideInputIndexHint_agree si (timestamp_sec t) prev Hside Hp) as (E & HI).
      rewrite E. destruct (GetSideInputIndexHint si (timestamp_sec t) prev) as [i| | | |]; cbn [bind];
        try (split; [reflexivity|intros ? ?; discriminate]).
      specialize (HI i eq_refl).
      destruct (i >=? 0) eqn:C; [|split; [reflexivity|intros r H; injection H as <-; exact Hp]].
      apply Z.geb_le in C.
      rewrite GetSideInputSignals_agree by (assumption || lia).
      split.
      - apply bind_ext. intros sts Hsts. apply bind_ext. intros s _.
        assert (- far <= sts <= far).
        { destruct Hside as (_ & _ & _ & HT). unfold GetSideInputTimestamp, at_ in Hsts.
          destruct (i <? 0); [discriminate|]. destruct (nth_error _ _) eqn:N; [|discriminate].
          injection Hsts as ->. apply nth_error_In in N. rewrite Forall_forall in HT. apply HT. exact N. }
        rewrite int64_fits by lia. reflexivity.
      - intros r H. apply bind_done in H as (? & _ & H). apply bind_done in H as (? & _ & H).
        injection H as <-. exact HI.
    Qed.

    Lemma order_step_agree t j s o :
      0 <= j < 2 ^ 31 - 1 -> 0 <= snd (fst s) <= j ->
      order_step_int cfg lg has_logger t s o = order_step cfg lg has_logger t s o /\
      forall s', order_step cfg lg has_logger t s o = Done s' -> 0 <= snd (fst s') <= j + 1.
    Proof.
      destruct s as [[a k] l]. cbn [fst snd]. intros Hj Hk. unfold order_step_int, order_step.
      split.
      - apply bind_ext. intros [b a'] _. destruct b; [|reflexivity]. rewrite int32_fits by lia. reflexivity.
      - intros s' H. apply bind_done in H as ([b a'] & _ & H). destruct b; injection H as <-; cbn [fst snd]; lia.
    Qed.

    Lemma tick_step_agree j s t :
      0 <= j -> m * (j + 1) < 2 ^ 31 -> run_inv j s -> lo <= timestamp_sec t <= hi ->
      tick_step_int cfg side fast te lg has_logger update_int s t
        = tick_step cfg side fast te lg has_logger s t /\
      forall s', tick_step cfg side fast te lg has_logger s t = Done s' -> run_inv (j + 1) s'.
    Proof.
      intros Hj Hmj (Hp & Ho & Hx & Hb & Hv & HJs) Ht.
      unfold tick_step_int, tick_step.
      destruct (side_input_part_agree t (x_signals te lg s) (x_prev_index te lg s) Hp Ht) as (E & HI).
      rewrite E. destruct (side_input_part _ _ _ _) as [[sig prev]| | | |]; cbn [bind];
        try (split; [reflexivity|intros ? ?; discriminate]).
      specialize (HI _ eq_refl). cbn [snd] in HI. clear E.
      set (l1 := log_if _ _ _ _).
      destruct (foldM_agree (order_step_int cfg lg has_logger t) (order_step cfg lg has_logger t)
                  (fun _ => True) (fun j s => 0 <= snd (fst s) <= j) (x_orders te lg s) (m * j)
                  (x_account te lg s, x_executed te lg s, l1)) as (E & HO).
      { intros i s1 o Hi Hs1 _. apply order_step_agree; [|exact Hs1]. nia. }
      { apply Forall_forall. intros; exact I. }
      { cbn [fst snd]. exact Hx. }
      rewrite E. destruct (foldM (order_step _ _ _ _) _ _) as [[[a k] l2]| | | |]; cbn [bind];
        try (split; [reflexivity|intros ? ?; discriminate]).
      specialize (HO _ eq_refl). cbn [fst snd] in HO. clear E.
      assert (HK : 0 <= k <= m * (j + 1)) by lia.
      destruct (feqb _ _).
      { split; [reflexivity|]. intros s' H. injection H as <-. repeat split; cbn; try assumption; lia || apply Hb || apply Hv. }
      destruct (HJ (x_trader te lg s) t sig (base_balance a) (quote_balance a) HJs Ht) as (E & HU).
      rewrite E. destruct (te_update te _ _ _ _ _) as [[ts orders]| | | |] eqn:U; cbn [bind];
        try (split; [reflexivity|intros ? ?; discriminate]).
      specialize (HU _ _ eq_refl). apply Hemits in U. clear E.
      destruct fast.
      { cbn [bind]. split; [reflexivity|]. intros s' H. injection H as <-.
        repeat split; cbn; try assumption; lia || apply Hb || apply Hv. }
      destruct (vol_Update_agree kSecondsPerDay lo hi (x_base_vol te lg s) t (fofZ 1) (fofZ 0) Hfar Hspan Hb Ht) as (E1 & HB).
      rewrite E1. destruct (vol_Update _ (x_base_vol te lg s) _ _ _) as [bv| | | |]; cbn [bind];
        try (split; [reflexivity|intros ? ?; discriminate]).
      specialize (HB _ eq_refl).
      destruct (vol_Update_agree kSecondsPerDay lo hi (x_trader_vol te lg s) t (base_balance a) (quote_balance a) Hfar Hspan Hv Ht) as (E2 & HV).
      rewrite E2. destruct (vol_Update _ (x_trader_vol te lg s) _ _ _) as [tv| | | |]; cbn [bind];
        try (split; [reflexivity|intros ? ?; discriminate]).
      specialize (HV _ eq_refl).
      split; [reflexivity|]. intros s' H. injection H as <-.
      repeat split; cbn; try assumption; lia || apply HB || apply HV.
    Qed.

    Lemma ExecuteTrader_agree (J0 : J (te_new te)) ticks l :
      Forall (fun t => lo <= timestamp_sec t <= hi) ticks -> m * Z.of_nat (length ticks) < 2 ^ 31 ->
      ExecuteTrader_int cfg side fast te lg has_logger update_int ticks l
        = ExecuteTrader cfg side fast te lg has_logger ticks l.
    Proof.
      intros Hl Hn. unfold ExecuteTrader_int, ExecuteTrader. destruct ticks as [|first ticks']; [reflexivity|].
      set (ticks := first :: ticks') in *. apply bind_ext. intros s0 H0.
      f_equal. refine (proj1 (foldM_agree _ _ (fun t => lo <= timestamp_sec t <= hi) run_inv ticks 0 s0 _ Hl _)).
      - intros j s a Hj Hs Ha. apply tick_step_agree; try assumption; [lia|]. nia.
      - unfold exec_init in H0. apply bind_done in H0 as (bv & H1 & H0). apply bind_done in H0 as (tv & H2 & H0).
        injection H0 as <-.
        assert (HV : forall v, NewVolatility 0 kSecondsPerDay = Done v -> counted vol_count kSecondsPerDay lo hi v).
        { intros v Hv. unfold NewVolatility in Hv. apply bind_done in Hv as (? & _ & Hv). injection Hv as <-.
          split; cbn; lia. }
        repeat split; cbn; try lia; try (apply HV; assumption); try assumption.
        unfold prev_within. destruct side; [|exact I]. unfold GetNumberOfRecords. lia.
    Qed.
  End Execute.

  (** * EvaluateTrader *)
  Lemma cs_month_range t : 1 <= cs_month (ToCivilSecond t) <= 12.
  Proof. destruct (to_civil t) as (y & m & d & s & H & E). rewrite E. cbn [cs_month]. apply H. Qed.

  Lemma AddMonths_agree t k : - 2 ^ 31 <= k < 2 ^ 31 - 12 ->
    AddMonthsToTimestampSec_int t k = Done (AddMonthsToTimestampSec t k).
  Proof.
    intros H. pose proof (cs_month_range t) as HR. unfold AddMonthsToTimestampSec_int, AddMonthsToTimestampSec.
    generalize dependent (ToCivilSecond t). intros cs HR. cbv zeta.
    rewrite int32_fits by lia. reflexivity.
  Qed.

  Section Evaluate.
    Context (cfg : account_config) (ec : evaluation_config) (history : list ohlc_tick)
            (side : option side_input) (te : trader_emitter) (lg : logger) (has_logger : bool).
    Context (update_int : te_state te -> ohlc_tick -> list flt -> flt -> flt -> outcome (te_state te * list order)).
    Context (lo hi m : Z) (Hm : 0 <= m) (Htimes : times_within lo hi (map timestamp_sec history))
            (Hspan : few_periods kSecondsPerDay lo hi)
            (Hside : match side with Some si => side_input_fits si | None => True end)
            (Hemits : emits_at_most m te)
            (Hmany : m * Z.of_nat (length history) < 2 ^ 31)
            (Hmonths : evaluation_period_months ec < 2 ^ 31 - 12)
            (J : te_state te -> Prop) (J0 : J (te_new te))
            (HJ : forall s t sig b q, J s -> lo <= timestamp_sec t <= hi ->
                    update_int s t sig b q = te_update te s t sig b q /\
                    forall s' o, te_update te s t sig b q = Done (s', o) -> J s').

    Lemma range_sub {A} (l : list A) b e : incl (range l b e) l /\ (length (range l b e) <= length l)%nat.
    Proof.
      unfold range. split.
      - intros x H.
        rewrite <- (firstn_skipn b l). apply in_or_app. right.
        rewrite <- (firstn_skipn (e - b) (skipn b l)). apply in_or_app. left. exact H.
      - rewrite firstn_length, skipn_length. lia.
    Qed.

    Lemma eval_window_agree k : 0 <= k < 2 ^ 31 - 12 -> eval_window_int ec k = Done (eval_window ec k).
    Proof.
      intros Hk. unfold eval_window_int, eval_window. rewrite AddMonths_agree by lia. cbn [bind].
      destruct (evaluation_period_months ec >? 0) eqn:C; [|reflexivity].
      rewrite Z.gtb_ltb in C. apply Z.ltb_lt in C. rewrite AddMonths_agree by lia. reflexivity.
    Qed.

    Lemma eval_step_agree k ps l : 0 <= k < 2 ^ 31 - 12 ->
      eval_step_int cfg ec history side te lg has_logger update_int (k, ps, l)
        = eval_step cfg ec history side te lg has_logger (k, ps, l).
    Proof.
      intros Hk. unfold eval_step_int, eval_step. rewrite eval_window_agree by exact Hk. cbn [bind].
      destruct (eval_window ec k) as [start end_]. destruct (end_ >? _); [reflexivity|].
      destruct (HistorySubset _ _ _ _) as [b e].
      rewrite (int32_fits (k + 1)) by lia. cbn [bind].
      destruct (b =? e)%nat; [reflexivity|]. destruct (e <? b)%nat; [reflexivity|].
      destruct Htimes as (Hlo & Hhi & Hl). rewrite Forall_map in Hl.
      destruct (range_sub history b e) as (Hi & Hlen).
      rewrite (ExecuteTrader_agree cfg side (fast_eval ec) te lg has_logger update_int lo hi m Hm (conj Hlo Hhi) Hspan Hside Hemits J HJ J0).
      - reflexivity.
      - rewrite Forall_forall in *. intros x Hx. apply Hl. apply Hi. exact Hx.
      - nia.
    Qed.

    Lemma eval_step_next k ps l k' ps' l' :
      eval_step cfg ec history side te lg has_logger (k, ps, l) = Done (inl (k', ps', l')) -> k' = k + 1.
    Proof.
      unfold eval_step. destruct (eval_window ec k) as [start end_]. destruct (end_ >? _); [discriminate|].
      destruct (HistorySubset _ _ _ _) as [b e].
      destruct (b =? e)%nat; [intros H; injection H as <- _ _; reflexivity|]. destruct (e <? b)%nat; [discriminate|].
      intros H. apply bind_done in H as ([r l1] & _ & H). do 2 (apply bind_done in H as (? & _ & H)).
      destruct (_ =? _); [discriminate|]. injection H as <- _ _. reflexivity.
    Qed.

    Lemma eval_loop_agree fuel : forall k ps l, 0 <= k -> k + Z.of_nat fuel <= 2 ^ 31 - 12 ->
      eval_loop_int cfg ec history side te lg has_logger update_int fuel (k, ps, l)
        = eval_loop cfg ec history side te lg has_logger fuel (k, ps, l).
    Proof.
      induction fuel as [|fuel IH]; intros k ps l Hk Hf; cbn [eval_loop_int eval_loop]; [reflexivity|].
      rewrite eval_step_agree by lia. apply bind_ext. intros [[[k' ps'] l']|[ps' l']] E; [|reflexivity].
      apply eval_step_next in E. apply IH; lia.
    Qed.

    Lemma EvaluateTrader_agree fuel l : Z.of_nat fuel <= 2 ^ 31 - 12 ->
      EvaluateTrader_int cfg ec history side te lg has_logger update_int fuel l
        = EvaluateTrader cfg ec history side te lg has_logger fuel l.
    Proof. intros H. unfold EvaluateTrader_int, EvaluateTrader. rewrite eval_loop_agree by lia. reflexivity. Qed.
  End Evaluate.
End IntRun.
