(** The volatility object never fails on time-ordered updates; fast evaluation gives the
    same results. *)
From Coq Require Import ZArith Bool List Lia String.
From Verif.Model Require Import Outcome Machine Types Account SideInput History Indicators Eval.
From Verif.Spec Require Import SideInputSpec RunSpec SeriesSpec.
From Verif.Proofs Require Import Base SideInputProofs RunProofs RunPairs SeriesProofs LastNProofs.
Import ListNotations.

Section VolTotal.
  Context {M : machine}.

  Definition vol_shape (s : vol_state) (ser : list ohlc_tick) : Prop :=
    vl_num s = Z.of_nat (List.length ser) /\
    mv_num_values (vl_variance s) = Z.of_nat (List.length ser) /\
    match ser with
    | [] => vl_portfolio s = []
    | _ => exists a b, vl_portfolio s = [a; b]
    end.

  Lemma mv_num_add s v : mv_num_values (mv_AddNewValue s v) = (mv_num_values s + 1)%Z.
  Proof.
    unfold mv_AddNewValue. destruct ((_ =? _)%Z || _).
    - destruct (_ =? _)%Z; reflexivity.
    - destruct (_ <=? _)%Z; [destruct (_ ++ _)|]; reflexivity.
  Qed.

  Lemma vol_add s ser t : vol_shape s ser ->
    exists s', vol_handler s (window 2 (ser ++ [t])) (add_event 2 ser t) = Done s' /\ vol_shape s' (ser ++ [t]).
  Proof.
    intros (H1 & H2 & H3). unfold vol_shape. rewrite app_length. cbn [List.length].
    assert (Hshape : forall A (x y : A) (P : A -> A -> Prop), match ser ++ [t] with [] => [x; y] = [] | _ => exists a b, [x; y] = [a; b] end)
      by (intros; destruct ser; cbn; eauto).
    unfold add_event. destruct (List.length ser <? Z.to_nat 2) eqn:E.
    - apply Nat.ltb_lt in E. cbn [vol_handler]. rewrite H1.
      replace (Z.of_nat (List.length ser) <=? 1)%Z with true by (symmetry; apply Z.leb_le; lia).
      rewrite assert_true. cbn [bind]. destruct ser as [|t0 [|? ?]].
      + cbn [List.length Z.of_nat]. rewrite H3. cbn [Z.eqb]. rewrite assert_true. cbn [bind app].
        unfold GetLogarithmicReturn. cbn [List.length]. rewrite assert_true. cbn [bind].
        eexists. split; [reflexivity|]. cbn. rewrite mv_num_add, H2. repeat split; try lia. eauto.
      + destruct H3 as (a & b & ->). cbn [List.length Z.of_nat Pos.of_succ_nat Z.eqb Pos.eqb pop_front bind app].
        unfold GetLogarithmicReturn. cbn [List.length]. rewrite assert_true. cbn [bind].
        eexists. split; [reflexivity|]. cbn. rewrite mv_num_add, H2. repeat split; try lia. eauto.
      + cbn in E. lia.
    - apply Nat.ltb_ge in E. cbn [vol_handler]. rewrite H1.
      replace (Z.of_nat (List.length ser) >=? 2)%Z with true by (symmetry; rewrite Z.geb_leb; apply Z.leb_le; lia).
      rewrite assert_true. cbn [bind]. destruct ser as [|t0 ser]; [cbn in E; lia|].
      destruct H3 as (a & b & ->). cbn [pop_front bind app].
      unfold GetLogarithmicReturn. cbn [List.length]. rewrite assert_true. cbn [bind].
      eexists. split; [reflexivity|]. cbn [vl_num vl_variance vl_portfolio app]. rewrite mv_num_add, H2.
      cbn [List.length]. repeat split; try lia. eauto.
  Qed.

  Lemma vol_upd s ser t0 t1 : vol_shape s (ser ++ [t0]) ->
    exists s', vol_handler s (window 2 (ser ++ [t1])) (TickUpdated t0 t1) = Done s' /\ vol_shape s' (ser ++ [t1]).
  Proof.
    intros (H1 & H2 & H3). unfold vol_shape in *. rewrite app_length in *. cbn [List.length] in *.
    cbn [vol_handler]. rewrite H1.
    replace (Z.of_nat (List.length ser + 1) >=? 1)%Z with true by (symmetry; rewrite Z.geb_leb; apply Z.leb_le; lia).
    rewrite assert_true. cbn [bind].
    assert (H3' : exists a b, vl_portfolio s = [a; b]) by (destruct ser; exact H3).
    destruct H3' as (a & b & ->). cbn [set_back removelast bind app].
    unfold GetLogarithmicReturn. cbn [List.length]. rewrite assert_true. cbn [bind].
    unfold mv_UpdateCurrentValue. rewrite H2.
    replace (Z.of_nat (List.length ser + 1) >=? 1)%Z with true by (symmetry; rewrite Z.geb_leb; apply Z.leb_le; lia).
    rewrite assert_true. cbn [bind]. eexists. split; [reflexivity|].
    cbn [vl_num vl_variance vl_portfolio mv_num_values]. repeat split; auto. destruct ser; cbn; eauto.
  Qed.

  (** The volatility object after the updates us. *)
  Definition vol_inv (p : Z) (us : list ohlc_tick) (v : volatility) : Prop :=
    exists s, v = (window 2 (series p us), s) /\ vol_shape s (series p us).

  Lemma vol_update_total p us v u base quote :
    (0 < p)%Z -> ordered timestamp_sec (us ++ [u]) -> vol_inv p us v ->
    exists v', vol_Update p v u base quote = Done v' /\ vol_inv p (us ++ [u]) v'.
  Proof.
    intros Hp Ho (s & -> & Hs). unfold vol_Update. cbn [fst snd].
    destruct (update_inv vol_handler 2 ltac:(lia) p Hp vol_shape vol_add vol_upd us
                (VolState base quote (vl_portfolio s) (vl_variance s) (vl_num s)) u Ho) as (s' & E & H').
    - exact Hs.
    - exists (window 2 (series p (us ++ [u])), s'). split; [exact E|]. exists s'. auto.
  Qed.

  (** *** Fast and slow evaluation. *)
  Section Fast.
    Context (cfg : account_config) (side : option side_input) (te : trader_emitter)
            (lg : logger) (hl : bool).

    Definition traded (ticks : list ohlc_tick) : list ohlc_tick :=
      filter (fun t => negb (feqb (volume t) (fofZ 0))) ticks.

    Definition same_but_vol (ticks : list ohlc_tick) (x y : exec_state te lg) : Prop :=
      x_account te lg x = x_account te lg y /\
      x_signals te lg x = x_signals te lg y /\
      x_prev_index te lg x = x_prev_index te lg y /\
      x_orders te lg x = x_orders te lg y /\
      x_executed te lg x = x_executed te lg y /\
      x_trader te lg x = x_trader te lg y /\
      x_log te lg x = x_log te lg y /\
      vol_inv kSecondsPerDay (traded ticks) (x_base_vol te lg y) /\
      vol_inv kSecondsPerDay (traded ticks) (x_trader_vol te lg y).

    Lemma ordered_filter {T} (ts : T -> Z) f l : ordered ts l -> ordered ts (filter f l).
    Proof.
      induction l as [|x l IH] using rev_ind; intros H; [exact H|].
      apply ordered_snoc in H as [H1 H2]. rewrite filter_app. cbn [filter].
      destruct (f x); [|rewrite app_nil_r; auto].
      apply ordered_snoc. split; [auto|]. intros y Hy. apply filter_In in Hy as [Hy _]. auto.
    Qed.

    Lemma tick_step_fast ticks t x y :
      same_but_vol ticks x y -> ordered timestamp_sec (ticks ++ [t]) ->
      orel (same_but_vol (ticks ++ [t]))
           (tick_step cfg side true te lg hl x t) (tick_step cfg side false te lg hl y t).
    Proof.
      intros (E1 & E2 & E3 & E4 & E5 & E6 & E7 & V1 & V2) Ho. unfold tick_step.
      rewrite <- E1, <- E2, <- E3, <- E4, <- E5, <- E6, <- E7.
      apply (orel_bind eq); [apply orel_refl|]. intros [sig prev] ? _ _ <-.
      apply (orel_bind eq); [apply orel_refl|]. intros [[a n] l'] ? _ _ <-.
      assert (Ht : traded (ticks ++ [t]) = traded ticks ++ (if feqb (volume t) (fofZ 0) then [] else [t])).
      { unfold traded. rewrite filter_app. cbn [filter]. destruct (feqb _ _); reflexivity. }
      unfold same_but_vol. rewrite Ht.
      destruct (feqb (volume t) (fofZ 0)).
      { rewrite app_nil_r. cbn. repeat (split; [reflexivity || assumption|]). assumption. }
      apply (orel_bind eq); [apply orel_refl|]. intros [ts os] ? _ _ <-. cbn [bind].
      assert (Ho' : ordered timestamp_sec (traded ticks ++ [t])).
      { rewrite <- Ht. apply ordered_filter. exact Ho. }
      destruct (vol_update_total kSecondsPerDay _ _ t (fofZ 1) (fofZ 0) eq_refl Ho' V1) as (v1 & -> & W1).
      destruct (vol_update_total kSecondsPerDay _ _ t (base_balance a) (quote_balance a) eq_refl Ho' V2) as (v2 & -> & W2).
      cbn. repeat (split; [reflexivity || assumption|]). assumption.
    Qed.

    Lemma fast_irrelevant ticks l :
      ordered timestamp_sec ticks ->
      orel (fun x y => same_but_volatility (fst x) (fst y) /\ snd x = snd y)
           (ExecuteTrader cfg side true te lg hl ticks l)
           (ExecuteTrader cfg side false te lg hl ticks l).
    Proof.
      intros Ho. unfold ExecuteTrader. destruct ticks as [|t ticks]; [cbn; repeat split|].
      apply (orel_bind eq); [apply orel_refl|]. intros s0 ? Hs0 _ <-.
      apply (orel_bind (same_but_vol (t :: ticks))).
      - assert (H0 : same_but_vol [] s0 s0).
        { unfold exec_init, NewVolatility, LastN_check in Hs0. inv_done.
          unfold same_but_vol. cbn. repeat (split; [reflexivity|]).
          split; eexists; (split; [reflexivity|]); repeat split. }
        revert Ho. generalize (t :: ticks). clear t ticks.
        intros ticks. induction ticks as [|t ticks IH] using rev_ind; intros Ho; [exact H0|].
        rewrite !foldM_snoc. apply (orel_bind (same_but_vol ticks)).
        + apply IH. apply ordered_snoc in Ho. apply Ho.
        + intros a b _ _ Hab. apply tick_step_fast; auto.
      - intros x y _ _ (E1 & E2 & E3 & E4 & E5 & E6 & E7 & _). cbn.
        unfold same_but_volatility, exec_result. cbn. rewrite E1, E5. repeat split; auto.
    Qed.
  End Fast.
End VolTotal.
