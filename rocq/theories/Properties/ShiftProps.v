(** C116: a run depends only on time differences. *)
From Coq Require Import String Reals ZArith Bool List Lra Lia.
From Flocq Require Import Core BinarySingleNaN.
From Verif.Model Require Import Outcome Machine MachineR MachineIEEE Types Account SideInput Indicators Eval Traders.
From Verif.Spec Require Import SeriesSpec HistorySpec ShiftSpec.
From Verif.Proofs Require Import Base RunPairs SimProofs ShiftProofs.
Import ListNotations.

Section Later.
  Context {M : machine} (d : Z) (cfg : account_config) (h : option (list side_record))
          (s s' : option side_input) (te : trader_emitter) (lg lg' : logger) (hl hl' : bool).

  (** Without the volatilities: any shift. *)
  Theorem C116_fast : forall ticks l l',
    built_in te -> side_inputs d h s s' -> after_epoch d ticks ->
    omap fst (ExecuteTrader cfg s' true te lg' hl' (map (later d) ticks) l')
    = omap fst (ExecuteTrader cfg s true te lg hl ticks l).
  Proof.
    intros ticks l l' Ht Hs Hp. symmetry. apply orel_eq. unfold omap.
    eapply orel_bind; [apply (run_shift d cfg s s' true te lg lg' hl hl' ticks l l' Ht); eauto using side_inputs_later; discriminate|].
    intros x y _ _ E. exact E.
  Qed.

  (** With the volatilities: a whole number of days. *)
  Theorem C116_run : forall ticks l l' k,
    built_in te -> side_inputs d h s s' -> after_epoch d ticks -> (d = 86400 * k)%Z ->
    omap fst (ExecuteTrader cfg s' false te lg' hl' (map (later d) ticks) l')
    = omap fst (ExecuteTrader cfg s false te lg hl ticks l).
  Proof.
    intros ticks l l' k Ht Hs Hp Hd. symmetry. apply orel_eq. unfold omap.
    eapply orel_bind; [apply (run_shift d cfg s s' false te lg lg' hl hl' ticks l l' Ht); eauto using side_inputs_later|].
    - intros _. exists k. unfold kSecondsPerDay. lia.
    - intros x y _ _ E. exact E.
  Qed.

  (** An evaluation over one period. *)
  Theorem C116_evaluation : forall fast history start end_ start' end_' fuel l l' r z,
    built_in te -> side_inputs d h s s' -> after_epoch d history ->
    (fast = false -> exists k, d = 86400 * k)%Z ->
    ordered timestamp_sec history -> (start <= end_ \/ end_ <= 0)%Z ->
    later_limit d start start' -> later_limit d end_ end_' ->
    (exists t, In t history /\ in_interval start end_ (timestamp_sec t) = true) -> (0 < fuel)%nat ->
    EvaluateTrader cfg (EvaluationConfig start end_ 0 fast) history s te lg hl fuel l = Done (r, z) ->
    exists r' z',
      EvaluateTrader cfg (EvaluationConfig start' end_' 0 fast) (map (later d) history) s' te lg' hl' fuel l'
      = Done (r', z') /\ later_evaluation d r r'.
  Proof.
    intros fast history start end_ start' end_' fuel l l' r z Ht Hs Hp Hd Ho Hse Ls Le Hne Hf H.
    assert (Hd' : fast = false -> exists k, (d = k * kSecondsPerDay)%Z).
    { intros Ef. destruct (Hd Ef) as [k ->]. exists k. unfold kSecondsPerDay. lia. }
    pose proof (evaluation_shift d cfg fast s s' te lg lg' hl hl' history start end_ start' end_' l l' fuel
                  Ht Hd' (side_inputs_later d h s s' Hs) Hp Ho Hse Ls Le Hne Hf) as X.
    rewrite H in X. destruct (EvaluateTrader _ (EvaluationConfig start' _ _ _) _ _ _ _ _ _ _) as [[r' z']| | | |];
      try contradiction. exists r', z'. split; [reflexivity|exact X].
  Qed.
End Later.

(** The condition on the volatilities is needed: they are taken per calendar day. *)
Section Days.
  Context (sh : R -> string) (as_ : bool).
  Local Notation E := (exact sh as_).
  Local Open Scope R_scope.

  (** Two ticks an hour apart on one day; half a day later midnight is between them. *)
  Definition noon_ticks : list (@ohlc_tick E) :=
    [@OhlcTick E 1483268400 1 1 1 1 1; @OhlcTick E 1483272000 1 2 1 2 1].
  Definition no_fee : @fee_config E := @FeeConfig E 0 0 0.
  Definition noon_cfg : @account_config E := @AccountConfig E 1 0 0 0 no_fee no_fee no_fee 0 0.
  (** All in base currency. *)
  Definition holder : @trader_emitter E := @rebalancing_emitter E (@RebalancingConfig E 1 1).
  Definition base_volatility (ticks : list (@ohlc_tick E)) : outcome (option R) :=
    omap (fun x => @r_base_volatility E (fst x))
         (@ExecuteTrader E noon_cfg None false holder null_logger false ticks tt).

  Lemma hold t st sig : 0 < @close E t -> (@rb_timestamp E st < @timestamp_sec E t)%Z ->
    @te_update E holder st t sig (1 : R) (0 : R)
    = Done (@RebalancingState E 1 0 (@timestamp_sec E t) (@close E t), []).
  Proof.
    intros Hc Ht. cbn [te_update holder rebalancing_emitter]. unfold rebalancing_update.
    rewrite Z.gtb_ltb, (proj2 (Z.ltb_lt _ _) Ht), assert_true. cbn [bind].
    cbn [fltb exact fofZ]. rewrite (Rlt_bool_true 0 (close t)) by exact Hc. rewrite assert_true. cbn [bind].
    rewrite (Rlt_bool_true 0 1) by lra. cbn [orb]. rewrite assert_true. cbn [bind].
    unfold rebalancing_orders. cbn [fltb exact fofZ alpha epsilon fmul fadd fsub fdiv flit].
    set (p := close t : R) in *. change (0 < p) in Hc.
    replace (1 * p / (1 * p + 0)) with 1 by (field; lra).
    rewrite (Rlt_bool_false (1 * (1 + 1)) 1) by lra.
    rewrite (Rlt_bool_false 1 (1 * (1 - 1))) by lra.
    rewrite (Rlt_bool_false (1 / 1000000) 0) by lra.
    rewrite andb_false_r. reflexivity.
  Qed.

  Lemma hold_step lgs n bv tv st t :
    @volume E t = 1 -> 0 < @close E t -> (@rb_timestamp E st < @timestamp_sec E t)%Z ->
    @tick_step E noon_cfg None false holder null_logger false
       (@ExecState E holder null_logger (@InitAccount E noon_cfg) [] (-1) [] n bv tv st lgs) t
    = do bv' <- @vol_Update E kSecondsPerDay bv t (1 : R) (0 : R) ;
      do tv' <- @vol_Update E kSecondsPerDay tv t (1 : R) (0 : R) ;
      Done (@ExecState E holder null_logger (@InitAccount E noon_cfg) [] (-1) [] n bv' tv'
              (@RebalancingState E 1 0 (@timestamp_sec E t) (@close E t)) lgs).
  Proof.
    intros Hv Hc Ht. unfold tick_step. cbn [side_input_part bind x_account x_orders x_executed x_log foldM x_signals x_prev_index x_base_vol x_trader_vol x_trader].
    rewrite Hv. cbn [feqb exact fofZ]. rewrite (Req_bool_false 1 0) by lra.
    cbn [InitAccount base_balance quote_balance start_base_balance start_quote_balance noon_cfg].
    rewrite hold by assumption. cbn [bind]. reflexivity.
  Qed.

  Local Notation v0 := (@VolState E 0 0 [] (@NewMeanVar E 0) 0%Z).
  Definition two_updates (t1 t2 : @ohlc_tick E) : outcome R :=
    do w1 <- @vol_Update E kSecondsPerDay ([], v0) t1 (1 : R) (0 : R) ;
    do w2 <- @vol_Update E kSecondsPerDay w1 t2 (1 : R) (0 : R) ;
    Done (@vol_Get E w2 : R).


  Lemma noon_run t1 t2 v :
    @volume E t1 = 1 -> @volume E t2 = 1 -> 0 < @close E t1 -> 0 < @close E t2 ->
    (0 < @timestamp_sec E t1 < @timestamp_sec E t2)%Z ->
    two_updates t1 t2 = Done v ->
    base_volatility [t1; t2] = Done (Some (v * sqrt 365)).
  Proof.
    intros V1 V2 C1 C2 Ht H. unfold two_updates in H.
    apply bind_done in H as (w1 & U1 & H). apply bind_done in H as (w2 & U2 & H). injection H as H.
    unfold base_volatility, ExecuteTrader, exec_init, NewVolatility, LastN_check.
    change (2 >? 0)%Z with true. change (kSecondsPerDay >? 0)%Z with true. rewrite assert_true.
    cbn [bind foldM omap]. change (@fofZ E 0) with 0. change (@te_new E holder) with (@rebalancing_init E).
    rewrite hold_step by (try assumption; cbn; lia). rewrite U1. cbn [bind].
    rewrite hold_step by (try assumption; cbn; lia). rewrite U2. cbn [bind omap fst exec_result r_base_volatility x_base_vol].
    unfold annualize. cbn [d2f f2d dmul dsqrt dofZ exact]. unfold omap. cbn. rewrite H. reflexivity.
  Qed.
End Days.

Local Open Scope R_scope.

Lemma one_day sh as_ :
  two_updates sh as_ (@OhlcTick (exact sh as_) 1483268400 1 1 1 1 1) (@OhlcTick (exact sh as_) 1483272000 1 2 1 2 1) = Done 0.
Proof.
  transitivity (Done (sqrt 0)); [|rewrite sqrt_0; reflexivity].
  transitivity (Done (sqrt
       ((ln ((1 * 1 + 0) / (1 * 2 + 0)) * ln ((1 * 1 + 0) / (1 * 2 + 0)) +
         (0 + 0 * 0)) / 1 -
        (ln ((1 * 1 + 0) / (1 * 2 + 0)) + (0 + 0)) / 1 *
        ((ln ((1 * 1 + 0) / (1 * 2 + 0)) + (0 + 0)) / 1)))).
  - destruct as_; cbv -[Rplus Rminus Rmult Rdiv Ropp sqrt ln Rlt_bool Rle_bool Req_bool IZR]; reflexivity.
  - do 2 f_equal. field.
Qed.

Lemma two_days sh as_ :
  two_updates sh as_ (@OhlcTick (exact sh as_) 1483313400 1 1 1 1 1) (@OhlcTick (exact sh as_) 1483317000 1 2 1 2 1)
  = Done (sqrt (ln (1 / 2) * ln (1 / 2) / 4)).
Proof.
  transitivity (Done (sqrt
       ((ln ((1 * 1 + 0) / (1 * 2 + 0)) * ln ((1 * 1 + 0) / (1 * 2 + 0)) +
         (0 + 0 * 0 +
          ln ((1 * 1 + 0) / (1 * 1 + 0)) * ln ((1 * 1 + 0) / (1 * 1 + 0)))) /
        2 -
        (ln ((1 * 1 + 0) / (1 * 2 + 0)) +
         (0 + 0 + ln ((1 * 1 + 0) / (1 * 1 + 0)))) / 2 *
        ((ln ((1 * 1 + 0) / (1 * 2 + 0)) +
          (0 + 0 + ln ((1 * 1 + 0) / (1 * 1 + 0)))) / 2)))).
  - destruct as_; cbv -[Rplus Rminus Rmult Rdiv Ropp sqrt ln Rlt_bool Rle_bool Req_bool IZR]; reflexivity.
  - do 2 f_equal. replace ((1 * 1 + 0) / (1 * 1 + 0)) with 1 by field. rewrite ln_1.
    replace ((1 * 1 + 0) / (1 * 2 + 0)) with (1 / 2) by field. field.
Qed.

(** A run whose volatility changes when it is moved by half a day and half an hour. *)
Theorem C116_volatility_refuted : forall sh as_,
  exists cfg c ticks d,
    after_epoch d ticks /\
    omap (fun x => @r_base_volatility (exact sh as_) (fst x))
      (@ExecuteTrader (exact sh as_) cfg None false (rebalancing_emitter c) null_logger false (map (later d) ticks) tt)
    <> omap (fun x => r_base_volatility (fst x))
      (@ExecuteTrader (exact sh as_) cfg None false (rebalancing_emitter c) null_logger false ticks tt).
Proof.
  intros sh as_. exists (noon_cfg sh as_), (@RebalancingConfig (exact sh as_) 1 1), (noon_ticks sh as_), 45000%Z.
  split.
  { intros t [<-|[<-|[]]]; cbn; lia. }
  change (base_volatility sh as_ (map (later 45000) (noon_ticks sh as_)) <> base_volatility sh as_ (noon_ticks sh as_)).
  unfold noon_ticks, later. cbn [map timestamp_sec open high low close volume].
  change (1483268400 + 45000)%Z with 1483313400%Z. change (1483272000 + 45000)%Z with 1483317000%Z.
  rewrite (noon_run sh as_ _ _ (sqrt (ln (1 / 2) * ln (1 / 2) / 4))); try reflexivity; try (cbn; lra || lia);
    [|apply two_days].
  rewrite (noon_run sh as_ _ _ 0); try reflexivity; try (cbn; lra || lia); [|apply one_day].
  intros H. injection H as H. rewrite Rmult_0_l in H.
  assert (L : ln (1 / 2) < 0) by (rewrite <- ln_1; apply ln_increasing; lra).
  assert (0 < sqrt (ln (1 / 2) * ln (1 / 2) / 4)) by (apply sqrt_lt_R0; nra).
  assert (0 < sqrt 365) by (apply sqrt_lt_R0; lra). nra.
Qed.

(** Concrete case: an hourly history with a side input, moved by a day and 12345 seconds;
    the stop trader sells at 90 and buys back at about 93.5. *)
Section Example.
  Context (lm : libm) (as_ : bool).
  Local Notation I := (ieee lm as_).

  Definition fl (x : Z) : @flt I := @fofZ I x.
  Definition ex_tick (ts o hi lo c : Z) : @ohlc_tick I := @OhlcTick I ts (fl o) (fl hi) (fl lo) (fl c) (fl 10).
  Definition ex_ticks : list (@ohlc_tick I) :=
    [ex_tick 1483268400 100 110 95 100; ex_tick 1483272000 100 105 80 85; ex_tick 1483275600 85 95 85 95].
  Definition ex_side : list (@side_record I) :=
    [@SideRecord I 1483268000 [fl 1; fl 2]; @SideRecord I 1483272000 [fl 3; fl 4]].
  Definition free : @fee_config I := @FeeConfig I (fl 0) (fl 0) (fl 0).
  Definition ex_cfg : @account_config I := @AccountConfig I (fl 1) (fl 0) (fl 0) (fl 0) free free free (fl 1) (fl 0).
  Definition ex_te : @trader_emitter I := stop_emitter default_stop.

  Definition ex_run (d : Z) : outcome execution_result :=
    do s <- @NewSideInput I (map (later_record d) ex_side) ;
    omap fst (@ExecuteTrader I ex_cfg (Some s) true ex_te null_logger false (map (later d) ex_ticks) tt).

End Example.

Lemma C116_ex_hypotheses lm as_ :
  built_in (ex_te lm as_) /\ after_epoch 98745 (ex_ticks lm as_) /\
  (exists s s', side_inputs 98745 (Some (ex_side lm as_)) (Some s) (Some s')).
Proof.
  split; [right; eexists; reflexivity|]. split.
  { intros t [<-|[<-|[<-|[]]]]; cbn; lia. }
  cbn [side_inputs]. destruct as_; eexists; eexists; split; reflexivity.
Qed.

Lemma C116_ex_same lm as_ d s s' :
  after_epoch d (ex_ticks lm as_) -> side_inputs d (Some (ex_side lm as_)) (Some s) (Some s') ->
  ex_run lm as_ d
  = omap fst (ExecuteTrader (ex_cfg lm as_) (Some s) true (ex_te lm as_) null_logger false (ex_ticks lm as_) tt).
Proof.
  intros Hd [Hs Hs']. unfold ex_run. rewrite Hs'. cbn [bind].
  apply (C116_fast d (ex_cfg lm as_) (Some (ex_side lm as_)) (Some s) (Some s')); [|split; assumption|exact Hd].
  right. eexists. reflexivity.
Qed.

Lemma C116_ex lm as_ :
  omap (fun r => (@r_total_executed_orders (ieee lm as_) r, B2SF (r_end_quote_balance r : f32), B2SF (r_end_base_balance r : f32)))
       (ex_run lm as_ 98745)
  = Done (2%Z, SpecFloat.S754_zero false, SpecFloat.S754_finite false 16149192 (-24)).
Proof. destruct as_; vm_compute; reflexivity. Qed.
