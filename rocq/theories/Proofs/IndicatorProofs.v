(** The tick window and the averages built on it (any machine). *)
From Coq Require Import ZArith Bool List Lia.
From Verif.Model Require Import Outcome Machine Types Indicators.
From Verif.Spec Require Import SeriesSpec IndicatorSpec.
From Verif.Proofs Require Import Base SeriesProofs LastNProofs HelperProofs.
Import ListNotations.

Section Window.
  Context {M : machine}.

  Lemma LastN_check_ok n p : (0 < n)%Z -> (0 < p)%Z -> LastN_check n p = Done tt.
  Proof.
    intros H1 H2. unfold LastN_check.
    rewrite (proj2 (Z.gtb_lt n 0)), (proj2 (Z.gtb_lt p 0)) by lia. rewrite !assert_true. reflexivity.
  Qed.

  Lemma replay_snoc n w es w1 e w2 : replay n w es w1 -> replay1 n w1 e w2 -> replay n w (es ++ [e]) w2.
  Proof.
    intros H1 H2. induction H1 as [w|w e0 w0 es w1 H0 H1 IH].
    - cbn. econstructor; [exact H2|constructor].
    - cbn [app]. econstructor; [exact H0|]. apply IH. exact H2.
  Qed.

  Lemma lastn_snoc_S {A} k (l : list A) x : lastn (S k) (l ++ [x]) = lastn k l ++ [x].
  Proof.
    unfold lastn. rewrite app_length. cbn [length]. replace (length l + 1 - S k)%nat with (length l - k)%nat by lia.
    apply skipn_snoc. lia.
  Qed.

  (** The callbacks replayed on an empty window give the window. *)
  Lemma window_events n p us : (0 < n)%Z -> (0 < p)%Z -> ordered timestamp_sec us ->
    exists es, foldM (LastN_Update record_event n p) ([], []) us = Done (window n (series p us), es)
               /\ replay (Z.to_nat n) [] es (lastn (Z.to_nat n) (series p us)).
  Proof.
    intros Hn Hp Ho.
    apply (run_updates record_event n Hn p Hp (fun es ser => replay (Z.to_nat n) [] es (lastn (Z.to_nat n) ser))); auto.
    - intros es ser t H. eexists. split; [reflexivity|]. eapply replay_snoc; [exact H|].
      unfold add_event. destruct (Nat.ltb_spec (length ser) (Z.to_nat n)) as [Hl|Hl].
      + rewrite (lastn_snoc_short _ ser t Hl), (lastn_short _ ser) by lia. constructor. exact Hl.
      + rewrite lastn_snoc_full by lia.
        assert (Hh : nth (length ser - Z.to_nat n) ser t = hd t (lastn (Z.to_nat n) ser))
          by (unfold lastn; rewrite hd_skipn; reflexivity).
        rewrite Hh. destruct (lastn (Z.to_nat n) ser) as [|r w] eqn:E.
        * apply (f_equal (@length _)) in E. rewrite lastn_length in E. cbn in E. lia.
        * cbn [hd tl]. constructor. rewrite <- E, lastn_length. lia.
    - intros es ser t0 t1 H. eexists. split; [reflexivity|]. eapply replay_snoc; [exact H|].
      replace (Z.to_nat n) with (S (Z.to_nat n - 1)) by lia. rewrite !lastn_snoc_S. constructor.
    - constructor.
  Qed.

  (** For arbitrary callbacks that return. *)
  Lemma window_any {S} (handler : S -> list ohlc_tick -> tick_event -> outcome S) n p s0 us :
    (forall s w e, exists s', handler s w e = Done s') ->
    (0 < n)%Z -> (0 < p)%Z -> ordered timestamp_sec us ->
    exists s, foldM (LastN_Update handler n p) ([], s0) us = Done (rev (lastn (Z.to_nat n) (series p us)), s).
  Proof.
    intros Hh Hn Hp Ho.
    destruct (run_updates handler n Hn p Hp (fun _ _ => True)) with (s0 := s0) (us := us) as (s & E & _); auto.
    - intros s ser t _. destruct (Hh s (window n (ser ++ [t])) (add_event n ser t)) as [s' E]. eauto.
    - intros s ser t0 t1 _. destruct (Hh s (window n (ser ++ [t1])) (TickUpdated t0 t1)) as [s' E]. eauto.
    - exists s. exact E.
  Qed.

  Lemma sma_state n p us : (0 < n)%Z -> (0 < p)%Z -> ordered timestamp_sec us ->
    exists sum, foldM (sma_Update n p) ([], fofZ 0) us = Done (window n (series p us), sum).
  Proof.
    intros Hn Hp Ho.
    destruct (window_any sma_handler n p (fofZ 0) us) as [s E]; auto.
    - intros s w e. eexists. reflexivity.
    - exists s. exact E.
  Qed.
End Window.

Section Averages.
  Context {M : machine}.
  Local Open Scope flt_scope.

  Lemma one_event {S} (f : S -> list ohlc_tick -> tick_event -> outcome S) ser t :
    add_event 1 ser t = match ser with [] => TickAdded t | _ => TickAddedRemoved (nth (length ser - 1) ser t) t end.
  Proof. unfold add_event. destruct ser; reflexivity. Qed.

  Lemma geb_1 (k : nat) : (Z.of_nat (S k) >=? 1)%Z = true.
  Proof. rewrite Z.geb_leb. apply Z.leb_le. lia. Qed.

  (** *** EMA *)
  Section Ema.
    Context (w : flt).
    Definition ema_I (h : ema_helper) (ser : list ohlc_tick) : Prop :=
      h = eh_of (map (fun v => (v, w)) (map close ser)).

    Lemma ema_num ser : ema_num_values (eh_of (map (fun v => (v, w)) (map close ser))) = Z.of_nat (length ser).
    Proof. rewrite eh_num, !map_length. reflexivity. Qed.

    Lemma ema_add_step ser t :
      ema_handler w (eh_of (map (fun v => (v, w)) (map close ser))) (window 1 (ser ++ [t])) (add_event 1 ser t)
      = Done (eh_add (eh_of (map (fun v => (v, w)) (map close ser))) (close t, w)).
    Proof.
      pose proof (ema_num ser) as Hnum. set (h := eh_of _) in *. clearbody h. unfold add_event. destruct ser as [|t0 ser].
      - change (length (@nil ohlc_tick) <? Z.to_nat 1)%nat with true. cbn [ema_handler]. rewrite Hnum, assert_true. cbn [bind].
        apply eh_Add. rewrite Hnum. lia.
      - replace (length (t0 :: ser) <? Z.to_nat 1)%nat with false by (symmetry; apply Nat.ltb_ge; cbn; lia).
        cbn [ema_handler]. rewrite Hnum. cbn [length]. rewrite geb_1, assert_true. cbn [bind].
        apply eh_Add. rewrite Hnum. lia.
    Qed.

    Lemma ema_I_add h ser t : ema_I h ser ->
      exists h', ema_handler w h (window 1 (ser ++ [t])) (add_event 1 ser t) = Done h' /\ ema_I h' (ser ++ [t]).
    Proof.
      intros ->. rewrite ema_add_step. eexists. split; [reflexivity|]. unfold ema_I.
      rewrite !map_app. cbn [map]. rewrite eh_of_snoc. reflexivity.
    Qed.

    Lemma ema_I_upd h ser t0 t1 h' : ema_I h ser ->
      ema_handler w h (window 1 (ser ++ [t0])) (add_event 1 ser t0) = Done h' ->
      ema_handler w h' (window 1 (ser ++ [t1])) (TickUpdated t0 t1)
      = ema_handler w h (window 1 (ser ++ [t1])) (add_event 1 ser t1).
    Proof.
      intros ->. rewrite !ema_add_step. intros E. assert (E' := E). injection E' as <-. cbn [ema_handler].
      assert (Hn : ema_num_values (eh_add (eh_of (map (fun v => (v, w)) (map close ser))) (close t0, w)) = Z.of_nat (S (length ser))).
      { cbn [eh_add ema_num_values]. rewrite ema_num. lia. }
      rewrite Hn, geb_1, assert_true. cbn [bind]. apply eh_Update. rewrite ema_num. lia.
    Qed.

    Lemma ema_run p us : (0 < p)%Z -> ordered timestamp_sec us ->
      foldM (ema_Update w p) ([], NewEmaHelper) us
      = Done (window 1 (series p us), eh_of (map (fun v => (v, w)) (map close (series p us)))).
    Proof.
      intros Hp Ho. destruct (run_replace (ema_handler w) 1 ltac:(lia) p Hp NewEmaHelper ema_I eq_refl ema_I_add ema_I_upd us Ho)
        as (s & E & _ & ->). exact E.
    Qed.
  End Ema.

  (** *** MACD *)
  Section Macd.
    Context (wf ws wg : flt).

    Lemma macd_series_snoc cs c : macd_series wf ws (cs ++ [c])
      = macd_series wf ws cs ++ [ema_of wf (cs ++ [c]) - ema_of ws (cs ++ [c])].
    Proof.
      unfold macd_series. rewrite app_length. cbn [length]. rewrite seq_app, map_app. cbn [seq map].
      replace (1 + length cs)%nat with (length (cs ++ [c])) by (rewrite app_length; cbn; lia).
      rewrite firstn_all. f_equal. apply map_ext_in. intros i Hi. apply in_seq in Hi.
      rewrite firstn_app. replace (i - length cs)%nat with 0%nat by lia. cbn [firstn]. rewrite app_nil_r. reflexivity.
    Qed.

    Lemma macd_series_length cs : length (macd_series wf ws cs) = length cs.
    Proof. unfold macd_series. rewrite map_length, seq_length. reflexivity. Qed.

    Definition weighted (w : flt) (vs : list flt) : ema_helper := eh_of (map (fun v => (v, w)) vs).

    Lemma weighted_snoc w vs v : weighted w (vs ++ [v]) = eh_add (weighted w vs) (v, w).
    Proof. unfold weighted. rewrite map_app. cbn [map]. apply eh_of_snoc. Qed.
    Lemma weighted_num w vs : ema_num_values (weighted w vs) = Z.of_nat (length vs).
    Proof. unfold weighted. rewrite eh_num, map_length. reflexivity. Qed.
    Lemma weighted_add w vs v : ema_AddNewValue (weighted w vs) v w = Done (weighted w (vs ++ [v])).
    Proof. rewrite weighted_snoc. apply eh_Add. rewrite weighted_num. lia. Qed.
    Lemma weighted_upd w vs a v : ema_UpdateCurrentValue (weighted w (vs ++ [a])) v w = Done (weighted w (vs ++ [v])).
    Proof. rewrite !weighted_snoc. apply eh_Update. rewrite weighted_num. lia. Qed.
    Lemma weighted_ema w vs : current_ema (weighted w vs) = ema_of w vs.
    Proof. apply eh_ema. Qed.

    Definition macd_of (ser : list ohlc_tick) : macd_state :=
      let cs := map close ser in
      MacdState (weighted wf cs) (weighted ws cs) (weighted wg (macd_series wf ws cs)) (Z.of_nat (length ser)).

    Lemma macd_New ser t : macd_NewTickAdded wf ws wg (macd_of ser) t = Done (macd_of (ser ++ [t])).
    Proof.
      unfold macd_NewTickAdded, macd_of. cbn [fast_ema slow_ema signal_ema macd_num].
      rewrite map_app. cbn [map]. rewrite !weighted_add. cbn [bind].
      unfold GetMACDSeries_of. rewrite !weighted_ema, weighted_add. cbn [bind]. rewrite <- macd_series_snoc.
      rewrite app_length. cbn [length]. do 2 f_equal. lia.
    Qed.

    Lemma macd_Upd ser t0 t : macd_LastTickUpdated wf ws wg (macd_of (ser ++ [t0])) t = Done (macd_of (ser ++ [t])).
    Proof.
      unfold macd_LastTickUpdated, macd_of. cbn [fast_ema slow_ema signal_ema macd_num].
      rewrite !map_app. cbn [map]. rewrite !weighted_upd. cbn [bind].
      unfold GetMACDSeries_of. rewrite !weighted_ema, macd_series_snoc, weighted_upd. cbn [bind]. rewrite <- macd_series_snoc.
      rewrite !app_length. reflexivity.
    Qed.

    Lemma macd_step ser t : macd_handler wf ws wg (macd_of ser) (window 1 (ser ++ [t])) (add_event 1 ser t)
      = Done (macd_of (ser ++ [t])).
    Proof.
      unfold add_event. destruct ser as [|t0 ser].
      - change (length (@nil ohlc_tick) <? Z.to_nat 1)%nat with true. cbn [macd_handler]. unfold macd_of at 1. cbn [macd_num length Z.of_nat Z.eqb].
        rewrite assert_true. cbn [bind]. apply (macd_New [] t).
      - replace (length (t0 :: ser) <? Z.to_nat 1)%nat with false by (symmetry; apply Nat.ltb_ge; cbn; lia).
        cbn [macd_handler]. unfold macd_of at 1. cbn [macd_num length]. rewrite geb_1, assert_true. cbn [bind]. apply macd_New.
    Qed.

    Lemma macd_run0 p us : (0 < p)%Z -> ordered timestamp_sec us ->
      foldM (LastN_Update (macd_handler wf ws wg) 1 p) ([], MacdState NewEmaHelper NewEmaHelper NewEmaHelper 0) us
      = Done (window 1 (series p us), macd_of (series p us)).
    Proof.
      intros Hp Ho.
      destruct (run_replace (macd_handler wf ws wg) 1 ltac:(lia) p Hp (macd_of []) (fun s ser => s = macd_of ser) eq_refl)
        with (us := us) as (s & E & _ & ->); auto.
      - intros s ser t ->. rewrite macd_step. eauto.
      - intros s ser t0 t1 s' ->. rewrite !macd_step. intros E. assert (s' = macd_of (ser ++ [t0])) as -> by congruence.
        cbn [macd_handler]. unfold macd_of at 1. cbn [macd_num]. rewrite app_length. cbn [length].
        replace (length ser + 1)%nat with (S (length ser)) by lia. rewrite geb_1, assert_true. cbn [bind]. apply macd_Upd.
    Qed.
  End Macd.

  (** *** RSI *)
  Section Rsi.
    Context (np : Z).

    Definition mma_weights (k : nat) : list flt := map (fun i => rsi_weight (Z.of_nat i) np) (seq 1 k).
    Definition mma_helper (vs : list flt) : ema_helper := eh_of (combine vs (mma_weights (length vs))).

    Lemma combine_app {A B} (a a' : list A) (b b' : list B) : length a = length b ->
      combine (a ++ a') (b ++ b') = combine a b ++ combine a' b'.
    Proof. revert b. induction a as [|x a IH]; intros [|y b] H; try discriminate; cbn; auto. f_equal. apply IH. cbn in H. lia. Qed.

    Lemma mma_weights_length k : length (mma_weights k) = k.
    Proof. unfold mma_weights. rewrite map_length, seq_length. reflexivity. Qed.

    Lemma mma_snoc vs v : mma_helper (vs ++ [v]) = eh_add (mma_helper vs) (v, rsi_weight (Z.of_nat (S (length vs))) np).
    Proof.
      unfold mma_helper. rewrite app_length. cbn [length]. unfold mma_weights. rewrite seq_app, map_app.
      rewrite combine_app by (rewrite map_length, seq_length; reflexivity). cbn [seq map combine]. rewrite eh_of_snoc. reflexivity.
    Qed.

    Lemma mma_num vs : ema_num_values (mma_helper vs) = Z.of_nat (length vs).
    Proof. unfold mma_helper. rewrite eh_num, combine_length, mma_weights_length. f_equal. lia. Qed.

    Lemma mma_add vs v : ema_AddNewValue (mma_helper vs) v (rsi_weight (Z.of_nat (S (length vs))) np) = Done (mma_helper (vs ++ [v])).
    Proof. rewrite mma_snoc. apply eh_Add. rewrite mma_num. lia. Qed.
    Lemma mma_upd vs a v : ema_UpdateCurrentValue (mma_helper (vs ++ [a])) v (rsi_weight (Z.of_nat (S (length vs))) np)
      = Done (mma_helper (vs ++ [v])).
    Proof. rewrite !mma_snoc. apply eh_Update. rewrite mma_num. lia. Qed.

    Lemma mma_current vs : current_ema (mma_helper vs) = mma_of np vs.
    Proof.
      destruct vs as [|v vs]; [reflexivity|]. unfold mma_helper. cbn [length]. unfold mma_weights. cbn [seq map combine].
      rewrite eh_current. cbn [fst mma_of]. generalize v. generalize 2%nat.
      induction vs as [|x vs IH]; intros k e; [reflexivity|]. cbn [length seq map combine fold_left fst snd]. rewrite IH. reflexivity.
    Qed.

    Lemma reference_snoc ser t0 t : reference_prices ((ser ++ [t0]) ++ [t]) = reference_prices (ser ++ [t0]) ++ [close t0].
    Proof.
      unfold reference_prices.
      destruct ser as [|t1 ser]; [reflexivity|]. cbn [app]. rewrite !app_comm_cons. rewrite !removelast_last, map_app. reflexivity.
    Qed.
    Lemma reference_length ser : length (reference_prices ser) = length ser.
    Proof.
      destruct (list_snoc ser) as [->|(l & x & ->)]; [reflexivity|]. unfold reference_prices.
      destruct l as [|y l]; [reflexivity|]. cbn [app]. rewrite app_comm_cons, removelast_last. cbn [map length].
      rewrite app_length, map_length. cbn. lia.
    Qed.

    (** The price the last tick of a non-empty series is compared with. *)
    Definition ref_of (ser : list ohlc_tick) (t : ohlc_tick) : flt :=
      match rev ser with [] => open t | t0 :: _ => close t0 end.

    Lemma changes_snoc (f : flt -> flt -> flt) ser t :
      map (fun x => f (fst x) (snd x)) (combine (reference_prices (ser ++ [t])) (map close (ser ++ [t])))
      = map (fun x => f (fst x) (snd x)) (combine (reference_prices ser) (map close ser)) ++ [f (ref_of ser t) (close t)].
    Proof.
      destruct (list_snoc ser) as [->|(l & t0 & ->)]; [reflexivity|].
      unfold ref_of. rewrite reference_snoc, map_app. rewrite combine_app by (rewrite reference_length, map_length; reflexivity).
      rewrite map_app. cbn [map combine fst snd]. rewrite (rev_app_distr l [t0]). reflexivity.
    Qed.

    Lemma up_snoc ser t : upward_changes (ser ++ [t]) = upward_changes ser ++ [upward (ref_of ser t) (close t)].
    Proof. apply changes_snoc. Qed.
    Lemma down_snoc ser t : downward_changes (ser ++ [t]) = downward_changes ser ++ [downward (ref_of ser t) (close t)].
    Proof. apply changes_snoc. Qed.
    Lemma up_length ser : length (upward_changes ser) = length ser.
    Proof. unfold upward_changes. rewrite map_length, combine_length, reference_length, map_length. lia. Qed.
    Lemma down_length ser : length (downward_changes ser) = length ser.
    Proof. unfold downward_changes. rewrite map_length, combine_length, reference_length, map_length. lia. Qed.

    Lemma change_eq ser t : GetUpwardDownwardChange (window 2 (ser ++ [t]))
      = Done (upward (ref_of ser t) (close t), downward (ref_of ser t) (close t)).
    Proof.
      destruct (list_snoc ser) as [->|(l & t0 & ->)].
      - change (window 2 ([] ++ [t])) with [t]. unfold GetUpwardDownwardChange, ref_of, upward, downward. cbn [rev].
        destruct (close t >=? open t); reflexivity.
      - assert (E : window 2 ((l ++ [t0]) ++ [t]) = [t; t0]).
        { unfold window. change (Z.to_nat 2) with 2%nat. rewrite !lastn_snoc_S. unfold lastn. rewrite Nat.sub_0_r, skipn_all. reflexivity. }
        rewrite E. unfold GetUpwardDownwardChange. cbn [length]. rewrite assert_true. cbn [bind rev app].
        unfold ref_of. rewrite rev_app_distr. cbn [rev app]. unfold upward, downward. destruct (close t >=? close t0); reflexivity.
    Qed.

    Definition rsi_of_series (ser : list ohlc_tick) : rsi_state :=
      RsiState (mma_helper (upward_changes ser)) (mma_helper (downward_changes ser)) (Z.of_nat (length ser)).

    Lemma rsi_New ser t : rsi_NewTickAdded np (rsi_of_series ser) (window 2 (ser ++ [t])) = Done (rsi_of_series (ser ++ [t])).
    Proof.
      unfold rsi_NewTickAdded, rsi_of_series. cbn [upward_mma downward_mma rsi_num]. rewrite change_eq. cbn [bind fst snd].
      replace (Z.of_nat (length ser) + 1)%Z with (Z.of_nat (S (length ser))) by lia.
      rewrite <- (up_length ser) at 1. rewrite mma_add. cbn [bind].
      rewrite <- (down_length ser) at 1. rewrite mma_add. cbn [bind].
      rewrite up_snoc, down_snoc, app_length. cbn [length]. do 2 f_equal. lia.
    Qed.

    Lemma rsi_Upd ser t0 t : rsi_LastTickUpdated np (rsi_of_series (ser ++ [t0])) (window 2 (ser ++ [t]))
      = Done (rsi_of_series (ser ++ [t])).
    Proof.
      unfold rsi_LastTickUpdated, rsi_of_series. cbn [upward_mma downward_mma rsi_num]. rewrite change_eq. cbn [bind fst snd].
      rewrite !up_snoc, !down_snoc.
      replace (Z.of_nat (length (ser ++ [t0]))) with (Z.of_nat (S (length (upward_changes ser)))) at 1
        by (rewrite up_length, app_length; cbn [length]; lia).
      rewrite mma_upd. cbn [bind].
      replace (Z.of_nat (length (ser ++ [t0]))) with (Z.of_nat (S (length (downward_changes ser)))) at 1
        by (rewrite down_length, app_length; cbn [length]; lia).
      rewrite mma_upd. cbn [bind]. rewrite !app_length. reflexivity.
    Qed.

    Lemma rsi_step ser t : rsi_handler np (rsi_of_series ser) (window 2 (ser ++ [t])) (add_event 2 ser t)
      = Done (rsi_of_series (ser ++ [t])).
    Proof.
      unfold add_event. destruct (Nat.ltb_spec (length ser) (Z.to_nat 2)) as [H|H]; cbn [rsi_handler];
        unfold rsi_of_series at 1; cbn [rsi_num].
      - replace (Z.of_nat (length ser) <=? 1)%Z with true by (symmetry; apply Z.leb_le; lia).
        rewrite assert_true. cbn [bind]. apply rsi_New.
      - replace (Z.of_nat (length ser) >=? 2)%Z with true by (symmetry; rewrite Z.geb_leb; apply Z.leb_le; lia).
        rewrite assert_true. cbn [bind]. apply rsi_New.
    Qed.

    Lemma rsi_run p us : (0 < p)%Z -> ordered timestamp_sec us ->
      foldM (rsi_Update np p) ([], RsiState NewEmaHelper NewEmaHelper 0) us
      = Done (window 2 (series p us), rsi_of_series (series p us)).
    Proof.
      intros Hp Ho.
      destruct (run_replace (rsi_handler np) 2 ltac:(lia) p Hp (rsi_of_series []) (fun s ser => s = rsi_of_series ser) eq_refl)
        with (us := us) as (s & E & _ & ->); auto.
      - intros s ser t ->. rewrite rsi_step. eauto.
      - intros s ser t0 t1 s' ->. rewrite !rsi_step. intros E. assert (s' = rsi_of_series (ser ++ [t0])) as -> by congruence.
        cbn [rsi_handler]. unfold rsi_of_series at 1. cbn [rsi_num]. rewrite app_length. cbn [length].
        replace (length ser + 1)%nat with (S (length ser)) by lia. rewrite geb_1, assert_true. cbn [bind]. apply rsi_Upd.
    Qed.
  End Rsi.

  (** *** Stochastic oscillator: replacing the latest tick is like adding it *)
  Section Stoch.
    Context (n : Z) (Hn : (0 < n)%Z).

    Definition stoch_ok (s : stoch_state) (ser : list ohlc_tick) : Prop :=
      sm_ok n (st_min s) (map low ser) /\ sm_ok n (st_max s) (map (fun t => - high t) ser) /\
      mv_num_values (st_fast s) = Z.of_nat (length ser) /\ mv_num_values (st_slow s) = Z.of_nat (length ser) /\
      st_num s = Z.of_nat (length ser).

    Lemma stoch_New s ser t : stoch_ok s ser ->
      exists mn mx k,
        sm_AddNewValue (st_min s) (low t) = Done mn /\ sx_AddNewValue (st_max s) (high t) = Done mx /\
        k = k_of (sm_Get mn) (sx_Get mx) (close t) /\
        stoch_NewTickAdded s t = Done (StochState mn mx (mv_AddNewValue (st_fast s) k)
          (mv_AddNewValue (st_slow s) (mv_GetMean (mv_AddNewValue (st_fast s) k))) k (st_num s + 1)) /\
        stoch_ok (StochState mn mx (mv_AddNewValue (st_fast s) k)
          (mv_AddNewValue (st_slow s) (mv_GetMean (mv_AddNewValue (st_fast s) k))) k (st_num s + 1)) (ser ++ [t]).
    Proof.
      intros (H1 & H2 & H3 & H4 & H5).
      destruct (sm_Add n (st_min s) _ (low t) Hn H1) as (mn & E1 & O1 & _).
      destruct (sm_Add n (st_max s) _ (- high t) Hn H2) as (mx & E2 & O2 & _).
      exists mn, mx, (k_of (sm_Get mn) (sx_Get mx) (close t)). split; [exact E1|]. split; [exact E2|]. split; [reflexivity|]. split.
      - unfold stoch_NewTickAdded. rewrite E1. cbn [bind]. unfold sx_AddNewValue. rewrite E2. cbn [bind].
        unfold stoch_k. rewrite H5. replace (Z.of_nat (length ser) + 1 >=? 1)%Z with true by (symmetry; rewrite Z.geb_leb; apply Z.leb_le; lia).
        rewrite assert_true. cbn [bind]. unfold k_of. destruct (_ <? _); reflexivity.
      - unfold stoch_ok. cbn [st_min st_max st_fast st_slow st_num]. rewrite !map_app, !mv_num, H3, H4, H5, app_length. cbn [map length].
        split; [exact O1|]. split; [exact O2|]. repeat split; lia.
    Qed.

    Lemma stoch_step s ser t : stoch_ok s ser ->
      stoch_handler s (window 1 (ser ++ [t])) (add_event 1 ser t) = stoch_NewTickAdded s t.
    Proof.
      intros (_ & _ & _ & _ & H5). unfold add_event. destruct ser as [|t0 ser].
      - change (length (@nil ohlc_tick) <? Z.to_nat 1)%nat with true. cbn [stoch_handler]. rewrite H5. cbn [length Z.of_nat Z.eqb].
        rewrite assert_true. reflexivity.
      - replace (length (t0 :: ser) <? Z.to_nat 1)%nat with false by (symmetry; apply Nat.ltb_ge; cbn; lia).
        cbn [stoch_handler]. rewrite H5. cbn [length]. rewrite geb_1, assert_true. reflexivity.
    Qed.

    Lemma stoch_ok_add s ser t : stoch_ok s ser ->
      exists s', stoch_handler s (window 1 (ser ++ [t])) (add_event 1 ser t) = Done s' /\ stoch_ok s' (ser ++ [t]).
    Proof.
      intros H. rewrite (stoch_step s ser t H). destruct (stoch_New s ser t H) as (mn & mx & k & _ & _ & _ & E & O).
      rewrite E. eauto.
    Qed.

    Lemma stoch_upd s ser t0 t1 s' : stoch_ok s ser ->
      stoch_handler s (window 1 (ser ++ [t0])) (add_event 1 ser t0) = Done s' ->
      stoch_handler s' (window 1 (ser ++ [t1])) (TickUpdated t0 t1)
      = stoch_handler s (window 1 (ser ++ [t1])) (add_event 1 ser t1).
    Proof.
      intros H. rewrite !(stoch_step s ser _ H). destruct (stoch_New s ser t0 H) as (mn & mx & k & E1 & E2 & Ek & E & _).
      destruct (stoch_New s ser t1 H) as (mn' & mx' & k' & E1' & E2' & Ek' & E' & _).
      rewrite E, E'. intros Es. match type of Es with Done ?x = _ => assert (s' = x) as -> by congruence end. clear Es E E'.
      destruct H as (H1 & H2 & H3 & H4 & H5). cbn [stoch_handler st_num]. rewrite H5.
      replace (Z.of_nat (length ser) + 1 >=? 1)%Z with true by (symmetry; rewrite Z.geb_leb; apply Z.leb_le; lia).
      rewrite assert_true. cbn [bind]. unfold stoch_LastTickUpdated. cbn [st_min st_max st_fast st_slow st_num].
      destruct (sm_Add n (st_min s) _ (low t0) Hn H1) as (x & X1 & _ & X2). assert (x = mn) as -> by congruence.
      destruct (sm_Add n (st_max s) _ (- high t0) Hn H2) as (y & Y1 & _ & Y2). unfold sx_AddNewValue in E2, E2'.
      assert (y = mx) as -> by congruence.
      rewrite X2, E1'. cbn [bind]. unfold sx_UpdateCurrentValue. rewrite Y2, E2'. cbn [bind].
      unfold stoch_k. replace (Z.of_nat (length ser) + 1 >=? 1)%Z with true by (symmetry; rewrite Z.geb_leb; apply Z.leb_le; lia).
      rewrite assert_true. cbn [bind].
      assert (Kk : (if (sx_Get mx' - sm_Get mn') <? flit 1 1000000 then Done #50
                    else Done (#100 * (close t1 - sm_Get mn') / (sx_Get mx' - sm_Get mn'))) = Done k').
      { rewrite Ek'. unfold k_of. destruct (_ <? _); reflexivity. }
      rewrite Kk. cbn [bind]. rewrite mv_Update by lia. cbn [bind]. rewrite mv_Update by lia. cbn [bind]. reflexivity.
    Qed.

    Definition stoch0 : stoch_state :=
      StochState (SlidingMin n #0 #0 [] 0) (SlidingMin n #0 #0 [] 0) (NewMeanVar 3) (NewMeanVar 3) #0 0.

    Lemma stoch_ok0 : stoch_ok stoch0 [].
    Proof. unfold stoch_ok, sm_ok. cbn. repeat split; auto. Qed.

    Lemma NewStoch_ok p : (0 < p)%Z -> NewStoch n p = Done ([], stoch0).
    Proof.
      intros Hp. unfold NewStoch. rewrite LastN_check_ok by lia. cbn [bind]. unfold NewSlidingMin.
      rewrite (proj2 (Z.gtb_lt n 0)) by lia. rewrite assert_true. reflexivity.
    Qed.
  End Stoch.
End Averages.
