(** Simulation: two runs of ExecuteTrader whose inputs are related by relations that every
    operation of the run preserves have related outcomes. *)
From Coq Require Import String ZArith Bool List Lia.
From Verif.Model Require Import Outcome Machine Types Account History SideInput Indicators Eval.
From Verif.Spec Require Import SideInputSpec RunSpec.
From Verif.Proofs Require Import Base RunPairs.
Import ListNotations.

Lemma orel_foldM2 {A B S T} (R : S -> T -> Prop) (Q : A -> B -> Prop)
      (f : S -> A -> outcome S) (g : T -> B -> outcome T) l l' s t :
  R s t -> Forall2 Q l l' ->
  (forall s t a b, R s t -> Q a b -> orel R (f s a) (g t b)) ->
  orel R (foldM f s l) (foldM g t l').
Proof.
  intros H HQ Hs. revert s t H. induction HQ as [|a b l l' Hab HQ IH]; intros s t H; cbn; [exact H|].
  apply (orel_bind R); auto.
Qed.

Lemma orel_mono {A B} (R R' : A -> B -> Prop) x y :
  orel R x y -> (forall a b, R a b -> R' a b) -> orel R' x y.
Proof. destruct x, y; cbn; try contradiction; auto. Qed.

Lemma orel_assert {M : machine} {A B} (R : A -> B -> Prop) b1 b2 x y :
  b1 = b2 -> orel R x y -> orel R (assert_ b1 ;; x) (assert_ b2 ;; y).
Proof. intros -> H. eapply orel_bind; [apply orel_refl|]. intros. exact H. Qed.

(** An assert that holds on both sides. *)
Lemma orel_assert_true {M : machine} {A B} (R : A -> B -> Prop) b1 b2 x y :
  b1 = true -> b2 = true -> orel R x y -> orel R (assert_ b1 ;; x) (assert_ b2 ;; y).
Proof. intros -> -> H. apply orel_assert; auto. Qed.

Section Run.
  Context {M : machine}.
  Context (cfg1 cfg2 : account_config) (side1 side2 : option side_input) (fast : bool)
          (te1 te2 : trader_emitter) (lg1 lg2 : logger) (hl1 hl2 : bool).
  Context (RT : ohlc_tick -> ohlc_tick -> Prop) (RA : account -> account -> Prop)
          (RO : order -> order -> Prop) (RS : te_state te1 -> te_state te2 -> Prop)
          (RB RV : volatility -> volatility -> Prop).

  Record simulates : Prop := Simulates {
    sim_side : forall t1 t2 sig prev, RT t1 t2 ->
      side_input_part side1 t1 sig prev = side_input_part side2 t2 sig prev;
    sim_exec : forall o1 o2 t1 t2 a1 a2, RO o1 o2 -> RT t1 t2 -> RA a1 a2 ->
      orel (fun x y => fst x = fst y /\ RA (snd x) (snd y))
           (ExecuteOrder cfg1 o1 t1 a1) (ExecuteOrder cfg2 o2 t2 a2);
    sim_volume : forall t1 t2, RT t1 t2 -> feqb (volume t1) (fofZ 0) = feqb (volume t2) (fofZ 0);
    sim_update : forall s1 s2 t1 t2 sig a1 a2, RS s1 s2 -> RT t1 t2 -> RA a1 a2 ->
      orel (fun x y => RS (fst x) (fst y) /\ Forall2 RO (snd x) (snd y))
           (te_update te1 s1 t1 sig (base_balance a1) (quote_balance a1))
           (te_update te2 s2 t2 sig (base_balance a2) (quote_balance a2));
    sim_base_vol : fast = false -> forall v1 v2 t1 t2, RB v1 v2 -> RT t1 t2 ->
      orel RB (vol_Update kSecondsPerDay v1 t1 (fofZ 1) (fofZ 0))
              (vol_Update kSecondsPerDay v2 t2 (fofZ 1) (fofZ 0));
    sim_trader_vol : fast = false -> forall v1 v2 t1 t2 a1 a2, RV v1 v2 -> RT t1 t2 -> RA a1 a2 ->
      orel RV (vol_Update kSecondsPerDay v1 t1 (base_balance a1) (quote_balance a1))
              (vol_Update kSecondsPerDay v2 t2 (base_balance a2) (quote_balance a2));
    sim_account0 : RA (InitAccount cfg1) (InitAccount cfg2);
    sim_state0 : RS (te_new te1) (te_new te2);
    sim_vol0 : forall v, NewVolatility 0 kSecondsPerDay = Done v -> RB v v /\ RV v v
  }.

  Record related (s1 : exec_state te1 lg1) (s2 : exec_state te2 lg2) : Prop := Related {
    rl_account : RA (x_account te1 lg1 s1) (x_account te2 lg2 s2);
    rl_signals : x_signals te1 lg1 s1 = x_signals te2 lg2 s2;
    rl_index : x_prev_index te1 lg1 s1 = x_prev_index te2 lg2 s2;
    rl_orders : Forall2 RO (x_orders te1 lg1 s1) (x_orders te2 lg2 s2);
    rl_executed : x_executed te1 lg1 s1 = x_executed te2 lg2 s2;
    rl_base_vol : RB (x_base_vol te1 lg1 s1) (x_base_vol te2 lg2 s2);
    rl_trader_vol : RV (x_trader_vol te1 lg1 s1) (x_trader_vol te2 lg2 s2);
    rl_trader : RS (x_trader te1 lg1 s1) (x_trader te2 lg2 s2)
  }.

  Context (HS : simulates).

  Lemma sim_orders t1 t2 os1 os2 a1 a2 n l1 l2 :
    RT t1 t2 -> RA a1 a2 -> Forall2 RO os1 os2 ->
    orel (fun x y => RA (fst (fst x)) (fst (fst y)) /\ snd (fst x) = snd (fst y))
         (foldM (order_step cfg1 lg1 hl1 t1) (a1, n, l1) os1)
         (foldM (order_step cfg2 lg2 hl2 t2) (a2, n, l2) os2).
  Proof.
    intros HT HA HO. eapply orel_foldM2; [|exact HO|]; [cbn; auto|].
    intros [[b1 n1] m1] [[b2 n2] m2] o1 o2 [Hb Hn] Ho. cbn [fst snd] in *. subst n2.
    unfold order_step. eapply orel_bind; [apply (sim_exec HS o1 o2 t1 t2 b1 b2); auto|].
    intros [ok1 c1] [ok2 c2] _ _ [E Hc]. cbn [fst snd] in *. subst ok2.
    destruct ok1; cbn; auto.
  Qed.

  Lemma sim_tick s1 s2 t1 t2 :
    related s1 s2 -> RT t1 t2 ->
    orel related (tick_step cfg1 side1 fast te1 lg1 hl1 s1 t1) (tick_step cfg2 side2 fast te2 lg2 hl2 s2 t2).
  Proof.
    intros [E1 E2 E3 E4 E5 E6 E7 E8] HT. unfold tick_step.
    rewrite <- E2, <- E3, (sim_side HS t1 t2) by auto.
    eapply orel_bind; [apply orel_refl|]. intros [sig prev] ? _ _ <-.
    rewrite <- E5.
    eapply orel_bind; [apply (sim_orders t1 t2); eauto|].
    intros [[a n] l1] [[a' n'] l2] _ _ [Ha En]. cbn [fst snd] in *. subst n'.
    rewrite (sim_volume HS t1 t2) by auto. destruct (feqb _ _).
    { cbn. split; cbn; auto. }
    eapply orel_bind; [apply (sim_update HS); eauto|].
    intros [u1 os1] [u2 os2] _ _ [Hu Ho]. cbn [fst snd] in *.
    eapply (orel_bind RB).
    { destruct fast eqn:Ef; [exact E6|]. apply (sim_base_vol HS); auto. }
    intros bv1 bv2 _ _ Hbv. eapply (orel_bind RV).
    { destruct fast eqn:Ef; [exact E7|]. apply (sim_trader_vol HS); auto. }
    intros tv1 tv2 _ _ Htv. cbn. split; cbn; auto.
  Qed.

  Lemma sim_init l1 l2 : orel related (exec_init cfg1 te1 lg1 l1) (exec_init cfg2 te2 lg2 l2).
  Proof.
    unfold exec_init. eapply orel_bind; [apply orel_refl|]. intros v ? Hv _ <-.
    destruct (sim_vol0 HS v Hv) as [Hb Ht].
    rewrite Hv. cbn. split; cbn; auto; try apply (sim_account0 HS); apply (sim_state0 HS).
  Qed.

  (** The results of two related runs: [res] relates the results of related final states. *)
  Lemma simulation (res : execution_result -> execution_result -> Prop) ticks1 ticks2 l1 l2 :
    Forall2 RT ticks1 ticks2 ->
    (ticks1 = [] -> res empty_execution_result empty_execution_result) ->
    (forall s1 s2 f1 f2 e1 e2, related s1 s2 -> RT f1 f2 -> RT e1 e2 ->
       res (exec_result cfg1 fast te1 lg1 s1 f1 e1) (exec_result cfg2 fast te2 lg2 s2 f2 e2)) ->
    orel (fun x y => res (fst x) (fst y))
         (ExecuteTrader cfg1 side1 fast te1 lg1 hl1 ticks1 l1)
         (ExecuteTrader cfg2 side2 fast te2 lg2 hl2 ticks2 l2).
  Proof.
    intros HT H0 HR. unfold ExecuteTrader. destruct HT as [|f1 f2 r1 r2 Hf Hr]; [cbn; auto|].
    eapply (orel_bind related); [apply sim_init|]. intros s1 s2 _ _ Hs.
    eapply (orel_bind related).
    { eapply orel_foldM2; [exact Hs|constructor; eassumption|]. intros; apply sim_tick; auto. }
    intros z1 z2 _ _ Hz. cbn [orel fst]. apply HR; auto.
    assert (HL : forall x1 x2, RT x1 x2 -> RT (last (x1 :: r1) f1) (last (x2 :: r2) f2)).
    { clear -Hr Hf. induction Hr as [|a b r1 r2 Hab Hr IH]; intros x1 x2 Hx; [exact Hx|].
      change (last (x1 :: a :: r1) f1) with (last (a :: r1) f1).
      change (last (x2 :: b :: r2) f2) with (last (b :: r2) f2). auto. }
    apply HL; auto.
  Qed.
End Run.

(** LastNOhlcTicks on related ticks: timestamps moved by a multiple d of the period. *)
Section LastNSim.
  Context {M : machine}.
  Context {S1 S2 : Type} (h1 : S1 -> list ohlc_tick -> tick_event -> outcome S1)
          (h2 : S2 -> list ohlc_tick -> tick_event -> outcome S2).
  Context (period d : Z) (QT : ohlc_tick -> ohlc_tick -> Prop) (RS : S1 -> S2 -> Prop).

  Inductive event_rel : tick_event -> tick_event -> Prop :=
  | ER_updated o1 o2 n1 n2 : QT n1 n2 -> event_rel (TickUpdated o1 n1) (TickUpdated o2 n2)
  | ER_added n1 n2 : QT n1 n2 -> event_rel (TickAdded n1) (TickAdded n2)
  | ER_removed r1 r2 n1 n2 : QT n1 n2 -> event_rel (TickAddedRemoved r1 n1) (TickAddedRemoved r2 n2).

  Context (Q_time : forall t1 t2, QT t1 t2 -> (timestamp_sec t2 = timestamp_sec t1 + d)%Z).
  Context (Q_flat : forall t1 t2, QT t1 t2 -> QT (flat_tick t1 period) (flat_tick t2 period)).
  Context (H_handler : forall s1 s2 l1 l2 e1 e2, RS s1 s2 -> event_rel e1 e2 ->
                         orel RS (h1 s1 l1 e1) (h2 s2 l2 e2)).

  Definition both (x : list ohlc_tick * S1) (y : list ohlc_tick * S2) : Prop :=
    Forall2 QT (fst x) (fst y) /\ RS (snd x) (snd y).

  Lemma Forall2_removelast l1 l2 : Forall2 QT l1 l2 -> Forall2 QT (removelast l1) (removelast l2).
  Proof.
    induction 1 as [|a b l1 l2 Hab H IH]; [constructor|].
    destruct H as [|c e l1 l2 Hce H]; [constructor|].
    change (removelast (a :: c :: l1)) with (a :: removelast (c :: l1)).
    change (removelast (b :: e :: l2)) with (b :: removelast (e :: l2)). constructor; auto.
  Qed.

  Lemma Forall2_same_len l1 l2 : Forall2 QT l1 l2 -> length l1 = length l2.
  Proof. induction 1; cbn; auto. Qed.

  Lemma added_sim n l1 l2 s1 s2 :
    Forall2 QT l1 l2 -> RS s1 s2 ->
    orel both (NewOhlcTickAdded h1 n l1 s1) (NewOhlcTickAdded h2 n l2 s2).
  Proof.
    intros HL Hs. unfold NewOhlcTickAdded. rewrite (Forall2_same_len _ _ HL).
    pose proof (Forall2_removelast _ _ HL) as HR.
    destruct (_ <=? n)%Z.
    - destruct HL as [|t1 t2 l1 l2 Ht HL]; [exact I|].
      eapply orel_bind; [apply H_handler; [exact Hs|constructor; exact Ht]|].
      intros u1 u2 _ _ Hu. cbn. split; [constructor; assumption|exact Hu].
    - destruct HL as [|t1 t2 l1 l2 Ht HL]; [exact I|].
      destruct HR as [|r1 r2 m1 m2 Hr HR]; [exact I|].
      eapply orel_bind; [apply H_handler; [exact Hs|constructor; exact Hr]|].
      intros u1 u2 _ _ Hu. cbn. split; [constructor; assumption|exact Hu].
  Qed.

  Lemma fill_sim fuel n adj l1 l2 s1 s2 :
    Forall2 QT l1 l2 -> RS s1 s2 ->
    orel both (lastn_fill h1 fuel n period adj l1 s1) (lastn_fill h2 fuel n period (adj + d) l2 s2).
  Proof.
    revert l1 l2 s1 s2. induction fuel as [|fuel IH]; intros l1 l2 s1 s2 HL Hs.
    - cbn. destruct HL as [|t1 t2 l1 l2 Ht HL]; [cbn; split; cbn; auto|].
      rewrite (Q_time _ _ Ht).
      replace (timestamp_sec t1 + d + period <? adj + d)%Z with (timestamp_sec t1 + period <? adj)%Z
        by (apply Bool.eq_iff_eq_true; rewrite !Z.ltb_lt; lia).
      destruct (_ <? adj)%Z; [exact I|]. cbn. split; cbn; auto.
    - cbn. destruct HL as [|t1 t2 l1 l2 Ht HL]; [cbn; split; cbn; auto|].
      rewrite (Q_time _ _ Ht).
      replace (timestamp_sec t1 + d + period <? adj + d)%Z with (timestamp_sec t1 + period <? adj)%Z
        by (apply Bool.eq_iff_eq_true; rewrite !Z.ltb_lt; lia).
      destruct (_ <? adj)%Z; [|cbn; split; cbn; auto].
      eapply orel_bind; [apply added_sim; [constructor; [apply Q_flat; exact Ht|constructor; eassumption]|exact Hs]|].
      intros [m1 u1] [m2 u2] _ _ [Hm Hu]. apply IH; auto.
  Qed.

  Definition at_time (t : ohlc_tick) (ts : Z) : ohlc_tick :=
    {| timestamp_sec := ts; open := open t; high := high t; low := low t;
       close := close t; volume := volume t |}.
  Definition merged (t tick : ohlc_tick) : ohlc_tick :=
    {| timestamp_sec := timestamp_sec t; open := open t;
       high := fmax (high t) (high tick);
       low := fmin (low t) (low tick);
       close := close tick;
       volume := fadd (volume t) (volume tick) |}.

  Lemma update_sim n x y t1 t2 :
    (forall ts, QT (at_time t1 ts) (at_time t2 (ts + d))) ->
    (forall u1 u2, QT u1 u2 -> QT (merged u1 t1) (merged u2 t2)) ->
    (timestamp_sec t2 = timestamp_sec t1 + d)%Z ->
    (d = 0 \/ (exists k, d = k * period) /\ 0 < timestamp_sec t1 /\ 0 < timestamp_sec t2 /\ 0 < period)%Z ->
    both x y ->
    orel both (LastN_Update h1 n period x t1) (LastN_Update h2 n period y t2).
  Proof.
    intros HN HM Et Hd Hxy. destruct x as [l1 s1], y as [l2 s2]. destruct Hxy as [HL Hs]. cbn [fst snd] in *.
    unfold LastN_Update. destruct (period =? 0)%Z eqn:Ep; [exact I|].
    apply Z.eqb_neq in Ep.
    assert (Ea : (period * Z.quot (timestamp_sec t2) period = period * Z.quot (timestamp_sec t1) period + d)%Z).
    { rewrite Et. destruct Hd as [->|([k ->] & P1 & P2 & P3)]; [rewrite !Z.add_0_r; reflexivity|].
      rewrite Et in P2. rewrite !Z.quot_div_nonneg by lia. rewrite Z.div_add by lia. lia. }
    rewrite Ea. set (adj := (period * Z.quot (timestamp_sec t1) period)%Z) in *.
    assert (Ef : fill_fuel period (adj + d) l2 = fill_fuel period adj l1).
    { destruct HL as [|a b l1 l2 Hab HL]; [reflexivity|]. cbn. rewrite (Q_time _ _ Hab).
      replace (adj + d - (timestamp_sec a + d))%Z with (adj - timestamp_sec a)%Z by lia. reflexivity. }
    rewrite Ef. eapply orel_bind; [apply fill_sim; eassumption|].
    intros [m1 u1] [m2 u2] _ _ [Hm Hu]. cbn [fst snd] in *.
    specialize (HN adj). unfold at_time in HN.
    destruct Hm as [|a b m1 m2 Hab Hm].
    - apply added_sim; [constructor; [exact HN|constructor]|exact Hu].
    - rewrite (Q_time _ _ Hab).
      replace (timestamp_sec a + d <? adj + d)%Z with (timestamp_sec a <? adj)%Z
        by (apply Bool.eq_iff_eq_true; rewrite !Z.ltb_lt; lia).
      destruct (_ <? adj)%Z.
      + apply added_sim; [constructor; [exact HN|constructor; assumption]|exact Hu].
      + apply orel_assert.
        { apply Bool.eq_iff_eq_true; rewrite !Z.eqb_eq; lia. }
        specialize (HM a b Hab). unfold merged in HM. rewrite (Q_time _ _ Hab) in HM.
        eapply orel_bind; [apply H_handler; [exact Hu|constructor; exact HM]|].
        intros v1 v2 _ _ Hv. cbn. split; [constructor; assumption|exact Hv].
  Qed.
End LastNSim.
