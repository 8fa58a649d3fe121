(** C42-C52: the tick window, the indicators and their sliding-window helpers. *)
From Coq Require Import Reals ZArith Bool List Lia Lra.
From Flocq Require Import Core BinarySingleNaN.
From Verif.Model Require Import Outcome Machine Types Indicators MachineR MachineIEEE.
From Verif.Spec Require Import SeriesSpec IndicatorSpec.
From Verif.Proofs Require Import Base FloatLemmas SeriesProofs LastNProofs OrderLaws SeriesValid HelperProofs MinProofs
     MeanProofs IndicatorProofs StochProofs RsiProofs VolProofs.
Import ListNotations.

Lemma Done_eq {A} (x y : A) : Done x = Done y -> x = y.
Proof. congruence. Qed.

Section AnyMachine.
  Context {M : machine}.
  Local Open Scope flt_scope.

  (** ** C42 The window, for every owner whose callbacks return. *)
  Theorem C42_window {S} (handler : S -> list ohlc_tick -> tick_event -> outcome S) n p s0 us :
    (forall s w e, exists s', handler s w e = Done s') ->
    (0 < n)%Z -> (0 < p)%Z -> ordered timestamp_sec us ->
    LastN_check n p = Done tt /\
    exists s, foldM (LastN_Update handler n p) ([], s0) us
              = Done (rev (lastn (Z.to_nat n) (series p us)), s).
  Proof.
    intros Hh Hn Hp Ho. split; [apply LastN_check_ok; assumption|]. apply window_any; assumption.
  Qed.

  (** ** C43 The callbacks, recorded in order and replayed on an empty window. *)
  Theorem C43_callbacks n p us :
    (0 < n)%Z -> (0 < p)%Z -> ordered timestamp_sec us ->
    exists es, foldM (LastN_Update record_event n p) ([], []) us
               = Done (rev (lastn (Z.to_nat n) (series p us)), es)
               /\ replay (Z.to_nat n) [] es (lastn (Z.to_nat n) (series p us)).
  Proof. apply window_events. Qed.

  (** ** C45 The exponential moving average. *)
  Theorem C45_ema (smoothing : flt) (ema_length p : Z) us :
    (0 < p)%Z -> ordered timestamp_sec us ->
    let w := smoothing / (#1 + fofZ ema_length) in
    exists s0 s, NewEma p = Done s0 /\ foldM (ema_Update (ema_weight smoothing ema_length) p) s0 us = Done s /\
      ema_Get s = ema_of w (map close (series p us)) /\
      ema_GetNumOhlcTicks s = Z.of_nat (length (series p us)).
  Proof.
    intros Hp Ho w. eexists _, _. unfold NewEma. rewrite LastN_check_ok by lia. split; [reflexivity|].
    split; [apply ema_run; assumption|]. unfold ema_Get, ema_GetNumOhlcTicks. cbn [snd]. split.
    - apply eh_ema.
    - rewrite eh_num, !map_length. reflexivity.
  Qed.

  (** ** C46 MACD. *)
  Theorem C46_macd (fast_length slow_length signal_smoothing p : Z) us :
    (0 < p)%Z -> ordered timestamp_sec us ->
    let w n := #2 / (#1 + fofZ n) in
    let closes := map close (series p us) in
    let fast := ema_of (w fast_length) closes in
    let slow := ema_of (w slow_length) closes in
    let signal := ema_of (w signal_smoothing) (macd_series (w fast_length) (w slow_length) closes) in
    exists s0 s, NewMacd p = Done s0 /\
      foldM (macd_Update fast_length slow_length signal_smoothing p) s0 us = Done s /\
      macd_GetFast s = fast /\ macd_GetSlow s = slow /\ macd_GetSeries s = fast - slow /\
      macd_GetSignal s = signal /\ macd_GetDivergence s = (fast - slow) - signal /\
      macd_GetNumOhlcTicks s = Z.of_nat (length (series p us)).
  Proof.
    intros Hp Ho w closes fast slow signal. eexists _, _. unfold NewMacd. rewrite LastN_check_ok by lia.
    split; [reflexivity|]. split; [apply macd_run0; assumption|].
    unfold macd_GetDivergence, macd_GetSeries, macd_GetSignal, macd_GetFast, macd_GetSlow, macd_GetNumOhlcTicks, macd_of.
    cbn [snd fast_ema slow_ema signal_ema macd_num]. rewrite !weighted_ema. repeat split.
  Qed.

  (** ** C47 RSI: the formula. *)
  Theorem C47_rsi_formula (num_periods p : Z) us :
    (0 < p)%Z -> ordered timestamp_sec us ->
    let up := mma_of num_periods (upward_changes (series p us)) in
    let down := mma_of num_periods (downward_changes (series p us)) in
    exists s0 s, NewRsi p = Done s0 /\ foldM (rsi_Update num_periods p) s0 us = Done s /\
      rsi_GetUp s = up /\ rsi_GetDown s = down /\ rsi_Get s = rsi_of up down /\
      rsi_GetNumOhlcTicks s = Z.of_nat (length (series p us)).
  Proof.
    intros Hp Ho up down. eexists _, _. unfold NewRsi. rewrite LastN_check_ok by lia. split; [reflexivity|].
    split; [apply rsi_run; assumption|]. unfold rsi_Get, rsi_GetUp, rsi_GetDown, rsi_GetNumOhlcTicks, rsi_of_series.
    cbn [snd upward_mma downward_mma rsi_num]. rewrite !mma_current. repeat split.
  Qed.

  (** ** C51 Volatility: the returns that enter the variance helper, bit-exactly. *)
  Theorem C51_volatility_values (window_size p : Z) xs :
    (0 < p)%Z -> ordered timestamp_sec (map bu_tick xs) ->
    exists s0 s, NewVolatility window_size p = Done s0 /\
      foldM (fun s x => vol_Update p s (bu_tick x) (bu_base x) (bu_quote x)) s0 xs = Done s /\
      vol_Get s = mv_GetStandardDeviation
                    (fold_left mv_AddNewValue
                       (map (fun ab => flog (fst ab / snd ab)) (value_steps p xs)) (NewMeanVar window_size)) /\
      vol_GetNumOhlcTicks s = Z.of_nat (length (series p (map bu_tick xs))).
  Proof.
    intros Hp Ho. eexists. unfold NewVolatility. rewrite LastN_check_ok by lia. cbn [bind].
    destruct (vol_run window_size p Hp xs Ho) as (s & E & (V1 & V2 & _)).
    exists (window 2 (series p (map bu_tick xs)), s). split; [reflexivity|]. split; [exact E|].
    unfold vol_Get, vol_GetNumOhlcTicks. cbn [snd]. rewrite V1, V2. split; [reflexivity|].
    unfold period_values, series. rewrite !map_length. reflexivity.
  Qed.

  (** ** C52 The indicators depend only on the periodic ticks. *)
  Theorem C52_indicators p us us' : (0 < p)%Z ->
    ordered timestamp_sec us -> ordered timestamp_sec us' -> series p us = series p us' ->
    (forall w s0, NewEma p = Done s0 -> foldM (ema_Update w p) s0 us = foldM (ema_Update w p) s0 us') /\
    (forall a b c s0, NewMacd p = Done s0 -> foldM (macd_Update a b c p) s0 us = foldM (macd_Update a b c p) s0 us') /\
    (forall n s0, NewRsi p = Done s0 -> foldM (rsi_Update n p) s0 us = foldM (rsi_Update n p) s0 us') /\
    (forall n s0, (0 < n)%Z -> NewStoch n p = Done s0 -> foldM (stoch_Update p) s0 us = foldM (stoch_Update p) s0 us').
  Proof.
    intros Hp Ho Ho' E. split; [|split; [|split]].
    - intros w s0 H0. unfold NewEma in H0. rewrite LastN_check_ok in H0 by lia. apply Done_eq in H0. subst s0.
      rewrite !ema_run, E by assumption. reflexivity.
    - intros a b c s0 H0. unfold NewMacd in H0. rewrite LastN_check_ok in H0 by lia. apply Done_eq in H0. subst s0.
      etransitivity; [apply macd_run0; assumption|]. rewrite E. symmetry. apply macd_run0; assumption.
    - intros n s0 H0. unfold NewRsi in H0. rewrite LastN_check_ok in H0 by lia. apply Done_eq in H0. subst s0.
      rewrite !rsi_run, E by assumption. reflexivity.
    - intros n s0 Hn H0. rewrite (NewStoch_ok n Hn p Hp) in H0. apply Done_eq in H0. subst s0.
      apply (run_same_series stoch_handler 1 ltac:(lia) p Hp (stoch0 n) (stoch_ok n) (stoch_ok0 n)
               (stoch_ok_add n Hn) (stoch_upd n Hn) us us' Ho Ho' E).
  Qed.

  (** The helpers depend only on the current values. *)
  Theorem C52_mean_variance_helper n ops : legal ops ->
    foldM (apply_op (fun s v => Done (mv_AddNewValue s v)) mv_UpdateCurrentValue) (NewMeanVar n) ops
    = Done (fold_left mv_AddNewValue (op_values ops) (NewMeanVar n)).
  Proof.
    intros HL.
    destruct (run_ops (fun s v => Done (mv_AddNewValue s v)) mv_UpdateCurrentValue (fun s vs => s = mv_of n vs))
      with (s0 := NewMeanVar n) (ops := ops) as (s & E & ->); auto.
    - intros s vs v ->. eexists. split; [reflexivity|]. rewrite mv_of_snoc. reflexivity.
    - intros s vs a b ->. rewrite mv_of_snoc, mv_Update by (rewrite mv_of_num; lia). eexists. split; [reflexivity|].
      rewrite mv_of_snoc. reflexivity.
  Qed.

  Theorem C52_minimum_helper n s0 ops : (0 < n)%Z -> legal ops -> NewSlidingMin n = Done s0 ->
    exists s, foldM (apply_op sm_AddNewValue sm_UpdateCurrentValue) s0 ops = Done s /\
              foldM sm_AddNewValue s0 (op_values ops) = Done s.
  Proof.
    intros Hn HL H0. rewrite (NewSlidingMin_ok n Hn) in H0. apply Done_eq in H0. subst s0.
    set (s0 := SlidingMin n (#0) (#0) [] 0).
    destruct (run_ops sm_AddNewValue sm_UpdateCurrentValue
      (fun s vs => sm_ok n s vs /\ foldM sm_AddNewValue s0 vs = Done s /\
                   forall vs0 a, vs = vs0 ++ [a] -> exists s1, sm_ok n s1 vs0 /\ foldM sm_AddNewValue s0 vs0 = Done s1 /\
                                   sm_AddNewValue s1 a = Done s)) with (s0 := s0) (ops := ops) as (s & E & _ & H & _); auto.
    - intros s vs v (H1 & H2 & _). destruct (sm_Add n s vs v Hn H1) as (s' & E & H3 & _). exists s'. split; [exact E|].
      split; [exact H3|]. split; [rewrite foldM_snoc, H2; exact E|].
      intros vs0 a Ea. apply app_inj_tail in Ea as [-> ->]. eauto.
    - intros s vs a b (H1 & H2 & H3). destruct (H3 vs a eq_refl) as (s1 & K1 & K2 & K3).
      destruct (sm_Add n s1 vs a Hn K1) as (s' & E & _ & U). assert (s' = s) as -> by congruence. rewrite (U b).
      destruct (sm_Add n s1 vs b Hn K1) as (s2 & E2 & O2 & _). exists s2. split; [exact E2|]. split; [exact O2|].
      split; [rewrite foldM_snoc, K2; exact E2|]. intros vs0 c Ec. apply app_inj_tail in Ec as [<- <-]. eauto.
    - split; [repeat split; auto|]. split; [reflexivity|]. intros [|? ?] a Ea; discriminate.
    - exists s. split; assumption.
  Qed.
  Theorem C52_maximum_helper n s0 ops : (0 < n)%Z -> legal ops -> NewSlidingMin n = Done s0 ->
    exists s, foldM (apply_op sx_AddNewValue sx_UpdateCurrentValue) s0 ops = Done s /\
              foldM sx_AddNewValue s0 (op_values ops) = Done s.
  Proof.
    intros Hn HL H0. rewrite (NewSlidingMin_ok n Hn) in H0. apply Done_eq in H0. subst s0.
    set (s0 := SlidingMin n (#0) (#0) [] 0).
    destruct (run_ops sx_AddNewValue sx_UpdateCurrentValue
      (fun s vs => sm_ok n s (map fopp vs) /\ foldM sx_AddNewValue s0 vs = Done s /\
                   forall vs0 a, vs = vs0 ++ [a] -> exists s1, sm_ok n s1 (map fopp vs0) /\ foldM sx_AddNewValue s0 vs0 = Done s1 /\
                                   sx_AddNewValue s1 a = Done s)) with (s0 := s0) (ops := ops) as (s & E & _ & H & _); auto.
    - intros s vs v (H1 & H2 & _). destruct (sm_Add n s _ (- v) Hn H1) as (s' & E & H3 & _). exists s'. split; [exact E|].
      split; [rewrite map_app; exact H3|]. split; [rewrite foldM_snoc, H2; exact E|].
      intros vs0 a Ea. apply app_inj_tail in Ea as [-> ->]. eauto.
    - intros s vs a b (H1 & H2 & H3). destruct (H3 vs a eq_refl) as (s1 & K1 & K2 & K3).
      destruct (sm_Add n s1 _ (- a) Hn K1) as (s' & E & _ & U). unfold sx_AddNewValue in K3. assert (s' = s) as -> by congruence.
      unfold sx_UpdateCurrentValue. rewrite (U (- b)).
      destruct (sm_Add n s1 _ (- b) Hn K1) as (s2 & E2 & O2 & _). exists s2. split; [exact E2|]. split; [rewrite map_app; exact O2|].
      split; [rewrite foldM_snoc, K2; exact E2|]. intros vs0 c Ec. apply app_inj_tail in Ec as [<- <-]. eauto.
    - split; [repeat split; auto|]. split; [reflexivity|]. intros [|? ?] a Ea; discriminate.
    - exists s. split; assumption.
  Qed.

  (** ** C49, C50 The window size the helpers report is the number of values their window
      holds: at most the configured size, and all of them with the mean's size 0. *)
  Theorem C49_window_size n s0 ops : (0 < n)%Z -> legal ops -> NewSlidingMin n = Done s0 ->
    (exists s, foldM (apply_op sm_AddNewValue sm_UpdateCurrentValue) s0 ops = Done s /\
       sm_GetWindowSize s = Z.of_nat (length (lastn (Z.to_nat n) (op_values ops)))) /\
    (exists s, foldM (apply_op sx_AddNewValue sx_UpdateCurrentValue) s0 ops = Done s /\
       sm_GetWindowSize s = Z.of_nat (length (lastn (Z.to_nat n) (op_values ops)))).
  Proof.
    intros Hn HL H0. rewrite (NewSlidingMin_ok n Hn) in H0. apply Done_eq in H0. subst s0.
    set (s0 := SlidingMin n (#0) (#0) [] 0).
    assert (G : forall s vs, sm_ok n s vs -> forall k : nat, length vs = k ->
      sm_GetWindowSize s = Z.of_nat (Nat.min (Z.to_nat n) k)).
    { intros s vs (A & B & _) k <-. unfold sm_GetWindowSize. rewrite A, B. lia. }
    split.
    - destruct (run_ops sm_AddNewValue sm_UpdateCurrentValue (fun s vs => sm_ok n s vs /\
        forall vs0 a, vs = vs0 ++ [a] -> exists s1, sm_ok n s1 vs0 /\ sm_AddNewValue s1 a = Done s))
        with (s0 := s0) (ops := ops) as (s & E & H & _); auto.
      + intros s vs v (H1 & _). destruct (sm_Add n s vs v Hn H1) as (s' & E & H3 & _). exists s'. split; [exact E|].
        split; [exact H3|]. intros vs0 a Ea. apply app_inj_tail in Ea as [-> ->]. eauto.
      + intros s vs a b (H1 & H3). destruct (H3 vs a eq_refl) as (s1 & K1 & K3).
        destruct (sm_Add n s1 vs a Hn K1) as (s' & E & _ & U). assert (s' = s) as -> by congruence. rewrite (U b).
        destruct (sm_Add n s1 vs b Hn K1) as (s2 & E2 & O2 & _). exists s2. split; [exact E2|]. split; [exact O2|].
        intros vs0 c Ec. apply app_inj_tail in Ec as [<- <-]. eauto.
      + split; [repeat split; auto|]. intros [|? ?] a Ea; discriminate.
      + exists s. split; [exact E|]. rewrite lastn_length. apply (G s _ H). reflexivity.
    - destruct (run_ops sx_AddNewValue sx_UpdateCurrentValue (fun s vs => sm_ok n s (map fopp vs) /\
        forall vs0 a, vs = vs0 ++ [a] -> exists s1, sm_ok n s1 (map fopp vs0) /\ sx_AddNewValue s1 a = Done s))
        with (s0 := s0) (ops := ops) as (s & E & H & _); auto.
      + intros s vs v (H1 & _). destruct (sm_Add n s _ (- v) Hn H1) as (s' & E & H3 & _). exists s'. split; [exact E|].
        split; [rewrite map_app; exact H3|]. intros vs0 a Ea. apply app_inj_tail in Ea as [-> ->]. eauto.
      + intros s vs a b (H1 & H3). destruct (H3 vs a eq_refl) as (s1 & K1 & K3). unfold sx_AddNewValue in K3.
        destruct (sm_Add n s1 _ (- a) Hn K1) as (s' & E & _ & U). assert (s' = s) as -> by congruence.
        unfold sx_UpdateCurrentValue. rewrite (U (- b)).
        destruct (sm_Add n s1 _ (- b) Hn K1) as (s2 & E2 & O2 & _). exists s2. split; [exact E2|].
        split; [rewrite map_app; exact O2|]. intros vs0 c Ec. apply app_inj_tail in Ec as [<- <-]. eauto.
      + split; [repeat split; auto|]. intros [|? ?] a Ea; discriminate.
      + exists s. split; [exact E|]. rewrite lastn_length. apply (G s _ H). apply map_length.
  Qed.

  Theorem C50_window_size n ops : (0 <= n)%Z -> legal ops ->
    exists s, foldM (apply_op (fun s v => Done (mv_AddNewValue s v)) mv_UpdateCurrentValue) (NewMeanVar n) ops = Done s /\
      mv_GetWindowSize s = Z.of_nat (length (last_or_all n (op_values ops))).
  Proof.
    intros Hn HL. rewrite (C52_mean_variance_helper n ops HL). eexists. split; [reflexivity|].
    set (vs := op_values ops). fold (mv_of n vs). unfold mv_GetWindowSize. rewrite mv_of_num.
    assert (W : mv_window_size (mv_of n vs) = n).
    { clear. induction vs as [|v vs IH] using rev_ind; [reflexivity|]. rewrite mv_of_snoc.
      unfold mv_AddNewValue. rewrite IH. destruct (_ || _)%bool.
      - destruct (n =? 0)%Z; reflexivity.
      - destruct (n <=? _)%Z; [|reflexivity]. destruct (_ ++ _); reflexivity. }
    rewrite W. unfold last_or_all. destruct (Z.eqb_spec n 0) as [->|H0]; [reflexivity|]. rewrite lastn_length. lia.
  Qed.
End AnyMachine.

(** ** C49 Minimum and maximum: a machine with ordered floats. *)
Section MinMax.
  Context {M : machine} (O : real_order M).

  Lemma neg_ops {S} (add upd : S -> flt -> outcome S) ops : forall s,
    foldM (apply_op (fun s v => add s (fopp v)) (fun s v => upd s (fopp v))) s ops
    = foldM (apply_op add upd) s (map (fun op => match op with Add v => Add (fopp v) | Replace v => Replace (fopp v) end) ops).
  Proof.
    induction ops as [|op ops IH]; intros s; [reflexivity|]. destruct op; cbn [map foldM apply_op]; apply bind_ext; intros s' _; apply IH.
  Qed.

  Lemma neg_values ops :
    op_values (map (fun op => match op with Add v => Add (fopp v) | Replace v => Replace (fopp v) end) ops)
    = map fopp (op_values ops).
  Proof.
    induction ops as [|op ops IH] using rev_ind; [reflexivity|]. rewrite map_app. cbn [map].
    rewrite !op_values_snoc, IH. destruct op; rewrite map_app; [reflexivity|]. cbn [map]. f_equal.
    destruct (list_snoc (op_values ops)) as [->|(l & a & ->)]; [reflexivity|].
    rewrite map_app. cbn [map]. rewrite !removelast_last. reflexivity.
  Qed.

  Lemma max_ops n ops : (0 < n)%Z -> legal ops -> ops <> [] -> (forall op, In op ops -> op_value not_nan op) ->
    exists s0 s, NewSlidingMin n = Done s0 /\
      foldM (apply_op sx_AddNewValue sx_UpdateCurrentValue) s0 ops = Done s /\
      is_max (sx_Get s) (lastn (Z.to_nat n) (op_values ops)).
  Proof.
    intros Hn HL Hne Hv.
    set (ops' := map (fun op => match op with Add v => Add (fopp v) | Replace v => Replace (fopp v) end) ops).
    assert (Hopp : forall x, not_nan x -> not_nan (fopp x)).
    { intros x Hx. apply (not_nan_num O) in Hx. apply (not_nan_num O). apply (val_opp M O). exact Hx. }
    destruct (min_ops O n ops') as (s0 & s & E0 & E & H); auto.
    - unfold ops'. destruct ops as [|[v|v] ops]; cbn in *; auto.
    - unfold ops'. destruct ops; [congruence|discriminate].
    - intros op Hop. unfold ops' in Hop. apply in_map_iff in Hop as (o & <- & Ho). specialize (Hv o Ho).
      destruct o; cbn in Hv; apply Hopp; exact Hv.
    - exists s0, s. split; [exact E0|]. split.
      + rewrite <- E. apply (neg_ops sm_AddNewValue sm_UpdateCurrentValue).
      + unfold ops' in H. rewrite neg_values, lastn_map in H. apply (opp_max O); [|exact H].
        intros x Hx. apply (not_nan_num O). apply lastn_in in Hx.
        clear - Hx Hv. revert x Hx. induction ops as [|op ops IH] using rev_ind; [intros x []|]. intros x Hx. rewrite op_values_snoc in Hx.
        assert (Hop := Hv op ltac:(apply in_or_app; right; left; reflexivity)).
        assert (IH' := IH (fun o Ho => Hv o ltac:(apply in_or_app; left; exact Ho))).
        destruct op as [v|v]; apply in_app_or in Hx as [Hx|[<-|[]]]; try exact Hop.
        * apply IH'. exact Hx.
        * apply IH'. destruct (list_snoc (op_values ops)) as [E|(l & a & E)]; rewrite E in Hx |- *; [destruct Hx|].
          rewrite removelast_last in Hx. apply in_or_app. auto.
  Qed.
End MinMax.

Section Exact.
  Context (sh : R -> String.string) (as_ : bool).
  Notation E := (exact sh as_).
  Local Open Scope R_scope.

  Theorem C49_minimum_exact n (ops : list (window_op R)) : (0 < n)%Z -> legal ops -> ops <> [] ->
    exists s0 s, @NewSlidingMin E n = Done s0 /\
      foldM (apply_op (@sm_AddNewValue E) (@sm_UpdateCurrentValue E)) s0 ops = Done s /\
      @is_min E (@sm_Get E s) (lastn (Z.to_nat n) (op_values ops)).
  Proof.
    intros Hn HL Hne. apply (@min_ops E (exact_order sh as_)); auto.
    intros op _. destruct op; cbn; unfold not_nan; cbn; apply Rle_bool_true; lra.
  Qed.

  Theorem C49_maximum_exact n (ops : list (window_op R)) : (0 < n)%Z -> legal ops -> ops <> [] ->
    exists s0 s, @NewSlidingMin E n = Done s0 /\
      foldM (apply_op (@sx_AddNewValue E) (@sx_UpdateCurrentValue E)) s0 ops = Done s /\
      @is_max E (@sx_Get E s) (lastn (Z.to_nat n) (op_values ops)).
  Proof.
    intros Hn HL Hne. apply (@max_ops E (exact_order sh as_)); auto.
    intros op _. destruct op; cbn; unfold not_nan; cbn; apply Rle_bool_true; lra.
  Qed.

  (** ** C44 The simple moving average. *)
  Theorem C44_sma n p (us : list (@ohlc_tick E)) : (0 < n)%Z -> (0 < p)%Z -> ordered timestamp_sec us ->
    exists s0 s, @NewSma E n p = Done s0 /\ foldM (@sma_Update E n p) s0 us = Done s /\
      @sma_Get E s = mean (map close (lastn (Z.to_nat n) (series p us))).
  Proof.
    intros Hn Hp Ho. eexists. unfold NewSma. rewrite LastN_check_ok by lia. cbn [bind].
    destruct (@run_updates E R (@sma_handler E) n Hn p Hp
      (fun sum ser => sum = Rsum (map close (lastn (Z.to_nat n) ser)))) with (s0 := 0) (us := us) as (s & E1 & H1); auto.
    - intros s ser t ->. eexists. split; [reflexivity|]. unfold add_event.
      destruct (Nat.ltb_spec (length ser) (Z.to_nat n)) as [H|H].
      + rewrite (lastn_snoc_short _ ser t H), map_app, Rsum_app. cbn. f_equal. symmetry. apply Rplus_0_r.
      + rewrite lastn_snoc_full by lia. rewrite map_app, Rsum_app.
        assert (Hh : nth (length ser - Z.to_nat n) ser t = hd t (lastn (Z.to_nat n) ser))
          by (unfold lastn; rewrite hd_skipn; reflexivity).
        rewrite Hh. destruct (lastn (Z.to_nat n) ser) as [|r w] eqn:Ew.
        * apply (f_equal (@length _)) in Ew. rewrite lastn_length in Ew. cbn in Ew. lia.
        * cbn [hd tl map]. unfold Rsum. cbn. change (@flt E) with R. ring.
    - intros s ser t0 t1 ->. eexists. split; [reflexivity|].
      replace (Z.to_nat n) with (S (Z.to_nat n - 1)) by lia. rewrite !lastn_snoc_S, !map_app, !Rsum_app. unfold Rsum. cbn.
      change (@flt E) with R. ring.
    - exists (window n (series p us), s). split; [reflexivity|]. split; [exact E1|]. subst s.
      unfold sma_Get, sma_GetNumOhlcTicks. cbn [fst snd]. unfold window. rewrite rev_length.
      destruct (lastn (Z.to_nat n) (series p us)) as [|t w]; [reflexivity|].
      replace (Z.of_nat (length (t :: w)) =? 0)%Z with false by (symmetry; apply Z.eqb_neq; cbn [length]; lia).
      rewrite mean_eq by discriminate. rewrite map_length. cbn [fdiv fofZ exact]. rewrite INR_IZR_INZ. reflexivity.
  Qed.

  (** ** C50 Mean, variance and standard deviation. *)
  Theorem C50_mean_variance n (ops : list (window_op R)) : (0 <= n)%Z -> legal ops ->
    exists s, foldM (apply_op (fun s v => Done (@mv_AddNewValue E s v)) (@mv_UpdateCurrentValue E)) (@NewMeanVar E n) ops = Done s /\
      @mv_GetMean E s = mean (last_or_all n (op_values ops)) /\
      @mv_GetVariance E s = variance (last_or_all n (op_values ops)) /\
      0 <= @mv_GetVariance E s /\
      @mv_GetStandardDeviation E s = sqrt (variance (last_or_all n (op_values ops))).
  Proof.
    intros Hn HL. rewrite (@C52_mean_variance_helper E n ops HL). eexists. split; [reflexivity|].
    pose proof (mean_of sh as_ n (op_values ops) Hn) as A. pose proof (variance_of sh as_ n (op_values ops) Hn) as B.
    split; [exact A|]. split; [exact B|]. split; [|exact (f_equal sqrt B)].
    eapply Rle_trans; [apply (variance_nonneg (last_or_all n (op_values ops)))|]. right. symmetry. exact B.
  Qed.

  (** ** C51 Volatility: standard deviation of the log returns. *)
  Theorem C51_volatility N p xs : (0 <= N)%Z -> (0 < p)%Z -> ordered timestamp_sec (map bu_tick xs) ->
    (forall v, In v (@initial_value E xs :: period_values p xs) -> 0 < v) ->
    exists s0 s, @NewVolatility E N p = Done s0 /\
      foldM (fun s x => @vol_Update E p s (bu_tick x) (bu_base x) (bu_quote x)) s0 xs = Done s /\
      @vol_Get E s
      = sqrt (variance (last_or_all N (map (fun step => ln (snd step / fst step)) (@value_steps E p xs)))).
  Proof.
    intros HN Hp Ho Hpos. eexists. unfold NewVolatility. rewrite LastN_check_ok by lia. cbn [bind].
    destruct (vol_exact sh as_ N p xs HN Hp Ho Hpos) as (s & E1 & E2 & _). exists s. split; [reflexivity|]. split; assumption.
  Qed.

  (** Positive prices and non-negative balances (not both zero) have positive values. *)
  Lemma worth_pos (x : @balance_update E) (price : R) :
    0 < price -> 0 <= bu_base x -> 0 <= bu_quote x -> 0 < bu_base x + bu_quote x -> 0 < @worth E x price.
  Proof.
    intros H1 H2 H3 H4. unfold worth. cbn [fadd fmul exact]. destruct (Rle_lt_or_eq_dec _ _ H2) as [H|H].
    - pose proof (Rmult_lt_0_compat _ _ H H1). change (@flt E) with R in *. lra.
    - rewrite <- H in *. change (@flt E) with R in *. lra.
  Qed.

  Theorem C51_positive p (xs : list (@balance_update E)) : (0 < p)%Z -> xs <> [] -> ordered timestamp_sec (map bu_tick xs) ->
    (forall x, In x xs -> 0 < open (bu_tick x) /\ 0 < close (bu_tick x) /\
                          0 <= bu_base x /\ 0 <= bu_quote x /\ 0 < bu_base x + bu_quote x) ->
    forall v, In v (@initial_value E xs :: period_values p xs) -> 0 < v.
  Proof.
    intros Hp Hne Ho Hx v [<-|Hv].
    - destruct xs as [|x xs]; [congruence|]. destruct (Hx x (or_introl eq_refl)) as (A & _ & B & C & D). apply worth_pos; assumption.
    - revert v Hv Hx. induction xs as [|x xs IH] using rev_ind; intros v Hv Hx; [destruct Hv|].
      destruct (Hx x ltac:(apply in_or_app; right; left; reflexivity)) as (_ & A & B & C & D).
      destruct (list_snoc xs) as [->|(xs0 & x0 & ->)].
      + cbn [app] in Hv. rewrite values_first in Hv by exact Hp. destruct Hv as [<-|[]]. apply worth_pos; assumption.
      + destruct (Hx x0 ltac:(apply in_or_app; left; apply in_or_app; right; left; reflexivity)) as (_ & A0 & _).
        assert (IHv : forall v, In v (period_values p (xs0 ++ [x0])) -> 0 < v).
        { intros v' Hv'. apply IH; [destruct xs0; discriminate| |exact Hv'|].
          - rewrite map_app in Ho. apply ordered_snoc in Ho. apply Ho.
          - intros y Hy. apply Hx. apply in_or_app. left. exact Hy. }
        destruct (values_snoc p Hp xs0 x0 x Ho) as (older & E0 & E1). rewrite E1 in Hv.
        destruct (_ <? _)%Z.
        * apply in_app_or in Hv as [Hv|Hv]; [apply IHv; exact Hv|]. apply in_app_or in Hv as [Hv|[<-|[]]].
          -- apply repeat_spec in Hv as ->. apply worth_pos; assumption.
          -- apply worth_pos; assumption.
        * apply in_app_or in Hv as [Hv|[<-|[]]]; [|apply worth_pos; assumption].
          apply IHv. rewrite E0. apply in_or_app. left. exact Hv.
  Qed.

  (** ** C48 Stochastic oscillator in exact arithmetic. *)
  Theorem C48_stochastic n p us : (0 < n)%Z -> (0 < p)%Z -> us <> [] -> ordered timestamp_sec us ->
    (forall u, In u us -> @valid_tick E u) ->
    exists s0 s, @NewStoch E n p = Done s0 /\ foldM (@stoch_Update E p) s0 us = Done s /\
      @is_min E (@stoch_GetLow E s) (map low (lastn (Z.to_nat n) (series p us))) /\
      @is_max E (@stoch_GetHigh E s) (map high (lastn (Z.to_nat n) (series p us))) /\
      (exists t, hd_error (rev (series p us)) = Some t /\
                 @stoch_GetK E s = @k_of E (@stoch_GetLow E s) (@stoch_GetHigh E s) (close t)) /\
      0 <= @stoch_GetK E s <= 100 /\
      @stoch_GetK E s = percent_k sh as_ n (series p us) /\
      @stoch_GetFastD E s = fast_d sh as_ n (series p us) /\
      @stoch_GetSlowD E s = slow_d sh as_ n (series p us).
  Proof.
    intros Hn Hp Hne Ho Hv. destruct (stoch_run_exact sh as_ n Hn p us Hp Ho) as (s & E1 & X1 & X2 & X3).
    exists ([], @stoch0 E n), (window 1 (series p us), s). split; [apply NewStoch_ok; assumption|]. split; [exact E1|].
    unfold stoch_GetLow, stoch_GetHigh, stoch_GetK, stoch_GetFastD, stoch_GetSlowD. cbn [snd].
    pose proof (@series_valid E (exact_order sh as_) p Hp us Ho Hv) as Hsv.
    assert (Hs : exists ser0 t, series p us = ser0 ++ [t]).
    { destruct (list_snoc us) as [->|(us0 & u0 & ->)]; [congruence|].
      destruct (series_last p Hp us0 u0 Ho) as (older & -> & _). eauto. }
    destruct Hs as (ser0 & t & Es). rewrite Es in *.
    destruct (stoch_extrema (exact_order sh as_) n Hn s (ser0 ++ [t]) X1 ltac:(destruct ser0; discriminate) ltac:(intros; split; reflexivity)) as [Hmin Hmax].
    split; [exact Hmin|]. split; [exact Hmax|].
    assert (Ek : latest_k s = @k_of E (sm_Get (st_min s)) (sx_Get (st_max s)) (close t)).
    { destruct X1 as (_ & _ & X1). apply (X1 ser0 t eq_refl). }
    split; [exists t; split; [rewrite rev_app_distr; reflexivity|exact Ek]|].
    destruct (price_between (exact_order sh as_) n Hn s ser0 t X1) as (_ & _ & _ & P1 & P2 & P3); auto.
    split; [rewrite Ek; apply k_range; split; assumption|].
    split.
    { rewrite Ek. unfold percent_k. rewrite rev_app_distr. cbn [rev app].
      f_equal.
      - apply (is_min_unique sh as_); assumption.
      - apply (is_max_unique sh as_); assumption. }
    rewrite X2, X3. rewrite !mean_of by lia. split; reflexivity.
  Qed.
End Exact.

Section IEEE.
  Context (lm : libm) (as_ : bool).
  Notation I := (ieee lm as_).
  Local Open Scope R_scope.

  Theorem C49_minimum_float n (ops : list (window_op f32)) : (0 < n)%Z -> legal ops -> ops <> [] ->
    (forall op, In op ops -> op_value (fun x => is_nan x = false) op) ->
    exists s0 s, @NewSlidingMin I n = Done s0 /\
      foldM (apply_op (@sm_AddNewValue I) (@sm_UpdateCurrentValue I)) s0 ops = Done s /\
      @is_min I (@sm_Get I s) (lastn (Z.to_nat n) (op_values ops)).
  Proof.
    intros Hn HL Hne Hv. apply (@min_ops I (ieee_order lm as_)); auto.
    intros op Hop. specialize (Hv op Hop). destruct op; cbn in *; apply (not_nan_num (ieee_order lm as_)); cbn; unfold fnum; rewrite Hv; reflexivity.
  Qed.

  Theorem C49_maximum_float n (ops : list (window_op f32)) : (0 < n)%Z -> legal ops -> ops <> [] ->
    (forall op, In op ops -> op_value (fun x => is_nan x = false) op) ->
    exists s0 s, @NewSlidingMin I n = Done s0 /\
      foldM (apply_op (@sx_AddNewValue I) (@sx_UpdateCurrentValue I)) s0 ops = Done s /\
      @is_max I (@sx_Get I s) (lastn (Z.to_nat n) (op_values ops)).
  Proof.
    intros Hn HL Hne Hv. apply (@max_ops I (ieee_order lm as_)); auto.
    intros op Hop. specialize (Hv op Hop). destruct op; cbn in *; apply (not_nan_num (ieee_order lm as_)); cbn; unfold fnum; rewrite Hv; reflexivity.
  Qed.

  (** ** C47 The RSI stays between 0 and 100 in floats. *)
  Theorem C47_rsi_range (num_periods p : Z) us :
    (1 <= num_periods < 2 ^ 31)%Z -> (0 < p)%Z -> ordered timestamp_sec us ->
    (forall u : @ohlc_tick I, In u us ->
       is_finite (open u) = true /\ 0 <= B2R (open u) <= bpow radix2 127 /\
       is_finite (close u) = true /\ 0 <= B2R (close u) <= bpow radix2 127) ->
    exists s0 s, @NewRsi I p = Done s0 /\ foldM (@rsi_Update I num_periods p) s0 us = Done s /\
      is_finite (@rsi_Get I s) = true /\ 0 <= B2R (@rsi_Get I s) <= 100.
  Proof.
    intros Hn Hp Ho Hu. destruct (@C47_rsi_formula I num_periods p us Hp Ho) as (s0 & s & E0 & E1 & _ & _ & E2 & _).
    exists s0, s. split; [exact E0|]. split; [exact E1|]. rewrite E2.
    destruct (changes_bounded lm as_ 127 p us ltac:(lia)) as [H1 H2].
    { intros u Hin. destruct (Hu u Hin) as (A & B & C & D). split; split; assumption. }
    apply rsi_range; apply mma_bounded; auto; lia.
  Qed.

  (** ** C48 The stochastic oscillator in floats. *)
  Lemma nneg_between k (x : f32) : (k < 128)%Z -> fnum x = true -> 0 <= ext x <= bpow radix2 k -> nneg k x.
  Proof.
    intros Hk Hx [H1 H2]. pose proof big_pos. assert (bpow radix2 k < big) by (apply bpow_lt; exact Hk).
    destruct (finite_cases x Hx) as [F|[->| ->]]; [|exfalso; unfold ext in *; lra|exfalso; unfold ext in *; lra].
    split; [exact F|]. rewrite <- ext_finite by exact F. auto.
  Qed.

  Lemma fold_fmax_in (Q : f32 -> Prop) l : forall x, Q x -> (forall y, In y l -> Q y) -> Q (fold_left (@fmax I) l x).
  Proof.
    induction l as [|a l IH]; intros x Hx Hl; [exact Hx|]. cbn [fold_left]. apply IH.
    - unfold fmax. destruct (@fltb I x a); [apply Hl; left; reflexivity|exact Hx].
    - intros y Hy. apply Hl. right. exact Hy.
  Qed.

  Lemma period_high (Q : f32 -> Prop) p us b : Q (f32_of_Z 0) ->
    (forall u : @ohlc_tick I, In u us -> Q (high u) /\ Q (close u)) -> Q (@high I (period_tick p us b)).
  Proof.
    intros H0 H. unfold period_tick. destruct (in_period p us b) as [|u rest] eqn:E.
    - cbn. destruct (rev (before_period p us b)) as [|x l] eqn:Eb; [auto|].
      assert (Hx : In x us).
      { assert (Hx : In x (rev (before_period p us b))) by (rewrite Eb; left; reflexivity).
        apply in_rev in Hx. apply filter_In in Hx. apply Hx. }
      apply H; exact Hx.
    - assert (Hin : forall y, In y (u :: rest) -> In y us)
        by (intros y Hy; rewrite <- E in Hy; apply filter_In in Hy; apply Hy).
      cbn [high]. apply fold_fmax_in.
      + apply H. apply Hin. left. reflexivity.
      + intros y Hy. apply in_map_iff in Hy as (z & <- & Hz). apply H. apply Hin. right. exact Hz.
  Qed.

  Theorem C48_stochastic_float n p us : (0 < n)%Z -> (0 < p)%Z -> us <> [] -> ordered timestamp_sec us ->
    (forall u, In u us -> @valid_tick I u) ->
    exists s0 s, @NewStoch I n p = Done s0 /\ foldM (@stoch_Update I p) s0 us = Done s /\
      @is_min I (@stoch_GetLow I s) (map low (lastn (Z.to_nat n) (series p us))) /\
      @is_max I (@stoch_GetHigh I s) (map high (lastn (Z.to_nat n) (series p us))) /\
      (exists t, hd_error (rev (series p us)) = Some t /\
                 @stoch_GetK I s = @k_of I (@stoch_GetLow I s) (@stoch_GetHigh I s) (close t)) /\
      ((forall u, In u us -> is_finite (high u) = true /\ B2R (high u) <= bpow radix2 120) ->
       is_finite (@stoch_GetK I s) = true /\ 0 <= B2R (@stoch_GetK I s) <= 100 + bpow radix2 (-17)).
  Proof.
    intros Hn Hp Hne Ho Hv. set (O := ieee_order lm as_).
    destruct (stoch_run O n Hn p us Hp Ho) as (s & E1 & X1).
    exists ([], @stoch0 I n), (window 1 (series p us), s). split; [apply NewStoch_ok; assumption|]. split; [exact E1|].
    unfold stoch_GetLow, stoch_GetHigh, stoch_GetK. cbn [snd].
    pose proof (@series_valid I O p Hp us Ho Hv) as Hsv.
    assert (Hs : exists ser0 t, series p us = ser0 ++ [t]).
    { destruct (list_snoc us) as [->|(us0 & u0 & ->)]; [congruence|].
      destruct (series_last p Hp us0 u0 Ho) as (older & -> & _). eauto. }
    destruct Hs as (ser0 & t & Es).
    assert (Hhigh : (forall u, In u us -> is_finite (high u) = true /\ B2R (high u) <= bpow radix2 120) ->
                    forall x, In x (series p us) -> nneg 120 (high x)).
    { intros Hb x Hx. apply in_map_iff in Hx as (b & <- & _). apply (period_high (nneg 120)).
      - split; [reflexivity|]. cbn. lra.
      - intros u Hu. destruct (Hb u Hu) as [F B]. apply Hv in Hu. apply (valid_iff O) in Hu. unfold valid_val in Hu.
        destruct Hu as (A1 & A2 & A3 & A4 & A5 & B1 & B2 & B3 & B4 & B5 & B6). cbn in A4, B1, B2, B3, B4, B5.
        rewrite (ext_finite (high u) F) in *.
        split; [split; [exact F|lra]|]. apply nneg_between; [lia|exact A4|lra]. }
    rewrite Es in *.
    assert (Hnum : forall x, In x (ser0 ++ [t]) -> num_tick O x).
    { intros x Hx. apply Hsv in Hx. apply (valid_iff O) in Hx. unfold valid_val in Hx. split; tauto. }
    destruct (stoch_extrema O n Hn s (ser0 ++ [t]) X1 ltac:(destruct ser0; discriminate) Hnum) as [Hmin Hmax].
    split; [exact Hmin|]. split; [exact Hmax|].
    assert (Ek : latest_k s = @k_of I (sm_Get (st_min s)) (sx_Get (st_max s)) (close t)).
    { destruct X1 as (_ & _ & X1). apply (X1 ser0 t eq_refl). }
    split; [exists t; split; [rewrite rev_app_distr; reflexivity|exact Ek]|].
    intros Hb. specialize (Hhigh Hb).
    destruct (price_between O n Hn s ser0 t X1 Hsv) as (N1 & N2 & N3 & P1 & P2 & P3).
    change (0 < ext (@sm_Get I (st_min s))) in P1. change (ext (@sm_Get I (st_min s)) <= ext (@close I t)) in P2.
    change (ext (@close I t) <= ext (@sx_Get I (st_max s))) in P3.
    assert (Nhi : nneg 120 (@sx_Get I (st_max s))).
    { destruct Hmax as [Hin _]. apply in_map_iff in Hin as (x & <- & Hx). apply Hhigh. apply lastn_in in Hx. exact Hx. }
    assert (Bhi : ext (@sx_Get I (st_max s)) <= bpow radix2 120) by (rewrite ext_finite by apply Nhi; apply Nhi).
    assert (Nlo : nneg 120 (@sm_Get I (st_min s))) by (apply nneg_between; [lia|exact N1|lra]).
    assert (Nc : nneg 120 (@close I t)) by (apply nneg_between; [lia|exact N3|lra]).
    rewrite !ext_finite in * by (apply Nhi || apply Nlo || apply Nc).
    rewrite Ek. apply k_range_ieee; auto.
  Qed.
End IEEE.

(** ** What floats break *)
Definition zf (z : Z) : f32 := f32_of_Z z.
Definition flat_tick_at (lm : libm) (as_ : bool) (t : Z) (c : f32) : @ohlc_tick (ieee lm as_) :=
  @OhlcTick (ieee lm as_) t c c c c (zf 1).

Section Refuted.
  Context (lm : libm) (as_ : bool).
  Notation I := (ieee lm as_).

  (** C44, literal: N = 1, closes 2^25 and then 1: the reported average of the last close is 0. *)
  Theorem C44_float_refuted :
    bind (@NewSma I 1 60) (fun s0 =>
    bind (foldM (@sma_Update I 1 60) s0 [flat_tick_at lm as_ 0 (zf (2 ^ 25)); flat_tick_at lm as_ 60 (zf 1)]) (fun s =>
      Done (B2SF (@sma_Get I s)))) = Done (B2SF (zf 0)).
  Proof. clear; destruct as_; vm_compute; reflexivity. Qed.

  (** C48, literal upper bound 100 for %K: low 1, high and close 671092. *)
  Theorem C48_float_100_refuted :
    bind (@NewStoch I 5 60) (fun s0 =>
    bind (foldM (@stoch_Update I 60) s0 [@OhlcTick I 0 (zf 1) (zf 671092) (zf 1) (zf 671092) (zf 1)]) (fun s =>
      Done (Bltb (zf 100) (@stoch_GetK I s)))) = Done true.
  Proof. clear; destruct as_; vm_compute; reflexivity. Qed.

  (** C50, literal: two equal values 1 + 2^-12 have a negative variance, and their standard
      deviation is NaN. *)
  Theorem C50_float_refuted :
    let a : f32 := Bdiv mode_NE (zf 4097) (zf 4096) in
    let s := @mv_AddNewValue I (@mv_AddNewValue I (@NewMeanVar I 2) a) a in
    Bltb (@mv_GetVariance I s) (zf 0) = true /\ is_nan (@mv_GetStandardDeviation I s) = true.
  Proof. clear; vm_compute; split; reflexivity. Qed.

  (** C52 does not extend to the SMA: two update sequences with the same periodic tick. *)
  Theorem C52_sma_refuted :
    let us1 := [flat_tick_at lm as_ 0 (zf (2 ^ 25)); @OhlcTick I 1 (zf (2 ^ 25)) (zf (2 ^ 25)) (zf 1) (zf 1) (zf 1)] in
    let us2 := [@OhlcTick I 0 (zf (2 ^ 25)) (zf (2 ^ 25)) (zf 1) (zf 1) (zf 2)] in
    series 60 us1 = series 60 us2 /\
    forall s0, @NewSma I 3 60 = Done s0 ->
      bind (foldM (@sma_Update I 3 60) s0 us1) (fun s => Done (B2SF (@sma_Get I s))) = Done (B2SF (zf 0)) /\
      bind (foldM (@sma_Update I 3 60) s0 us2) (fun s => Done (B2SF (@sma_Get I s))) = Done (B2SF (zf 1)).
  Proof.
    cbv zeta. split.
    - unfold series.
      match goal with |- map _ (grid 60 ?u) = map _ (grid 60 ?v) =>
        assert (grid 60 u = [0%Z]) as -> by reflexivity; assert (grid 60 v = [0%Z]) as -> by reflexivity end.
      cbn [map]. f_equal. unfold period_tick.
      match goal with |- match in_period 60 ?u 0 with _ => _ end = match in_period 60 ?v 0 with _ => _ end =>
        assert (in_period 60 u 0 = u) as -> by reflexivity; assert (in_period 60 v 0 = v) as -> by reflexivity end.
      cbn [map fold_left last open high low close volume flat_tick_at].
      f_equal; apply B2SF_inj; vm_compute; reflexivity.
    - intros s0 E. unfold NewSma in E. rewrite LastN_check_ok in E by lia. apply Done_eq in E. subst s0.
      clear; destruct as_; vm_compute; split; reflexivity.
  Qed.
End Refuted.

(** ** Non-trivial cases: several updates per period, and a skipped period. *)
Section Examples.
  Context (lm : libm) (as_ : bool).
  Notation I := (ieee lm as_).
  Notation ft := (flat_tick_at lm as_).
  Definition some_updates := [ft 3 (zf 10); ft 30 (zf 12); ft 70 (zf 9); ft 200 (zf 11)].

  (** The aggregation has four periods (the third is a flat filler at price 9). *)
  Lemma some_series : map (fun t => (timestamp_sec t, B2SF (@close I t))) (series 60 some_updates)
    = [(0%Z, B2SF (zf 12)); (60%Z, B2SF (zf 9)); (120%Z, B2SF (zf 9)); (180%Z, B2SF (zf 11))].
  Proof. vm_compute. reflexivity. Qed.

  Lemma some_ordered : ordered timestamp_sec some_updates.
  Proof.
    intros i j x y Hi Hj Hij.
    do 4 (destruct i as [|i]; [do 4 (destruct j as [|j]; [cbn in Hi, Hj; injection Hi as <-; injection Hj as <-; cbn; lia|]);
                               destruct j; discriminate|]). destruct i; discriminate.
  Qed.

  Lemma some_valid u : In u some_updates -> @valid_tick I u.
  Proof. intros [<-|[<-|[<-|[<-|[]]]]]; vm_compute; repeat split. Qed.

  (** The hypotheses of C47 and C48 hold for them. *)
  Lemma some_bounded u : In u some_updates -> is_finite (high u) = true /\ (0 <= B2R (high u) <= bpow radix2 120)%R.
  Proof.
    assert (K : forall z, (0 <= z <= 1000)%Z -> is_finite (zf z) = true /\ (0 <= B2R (zf z) <= bpow radix2 120)%R).
    { intros z Hz. unfold zf. destruct (ofZ_finite z ltac:(lia)) as [F ->]. split; [exact F|]. split; [apply IZR_le; lia|].
      apply Rle_trans with (bpow radix2 10); [|apply bpow_le; lia]. cbn. apply IZR_le. lia. }
    intros [<-|[<-|[<-|[<-|[]]]]]; apply K; lia.
  Qed.

  (** A sequence of operations on the minimum: 3, 1 replaced by 4, 2, 5 with window 2. *)
  Lemma some_minimum :
    let ops := [Add (zf 3); Add (zf 1); Replace (zf 4); Add (zf 2); Add (zf 5)] in
    map B2SF (op_values ops) = map B2SF [zf 3; zf 4; zf 2; zf 5] /\
    bind (@NewSlidingMin I 2) (fun s0 =>
      bind (foldM (apply_op (@sm_AddNewValue I) (@sm_UpdateCurrentValue I)) s0 ops) (fun s => Done (B2SF (@sm_Get I s))))
    = Done (B2SF (zf 2)).
  Proof. clear; destruct as_; vm_compute; split; reflexivity. Qed.
End Examples.

Print Assumptions C42_window.
Print Assumptions C43_callbacks.
Print Assumptions C45_ema.
Print Assumptions C46_macd.
Print Assumptions C47_rsi_formula.
Print Assumptions C52_indicators.
Print Assumptions C49_minimum_float.
Print Assumptions C44_sma.
Print Assumptions C50_mean_variance.
Print Assumptions C51_volatility.
Print Assumptions C48_stochastic.
Print Assumptions C48_stochastic_float.
Print Assumptions C47_rsi_range.
