(** C98: the trader log tells what the trader saw and did. *)
From Coq Require Import ZArith String Bool Lia.
From Coq Require Import List.
From Verif.Model Require Import Outcome Machine Types Account SideInput Eval Traders CsvLogger MachineIEEE.
From Verif.Spec Require Import SideInputSpec RunSpec LogSpec StateSpec.
From Verif.Proofs Require Import Base LogProofs.
From Verif.Properties Require Import RunProps LogProps.
From Flocq Require Import Core BinarySingleNaN.
Import ListNotations.

Section Any.
  Context {M : machine}.

  Lemma rebalancing_update_state c s t sig b q st os :
    rebalancing_update c s t sig b q = Done (st, os) ->
    st = RebalancingState b q (timestamp_sec t) (close t).
  Proof.
    unfold rebalancing_update. intros H. do 3 (apply bind_done in H; destruct H as (?u & _ & H)).
    injection H as <- _. reflexivity.
  Qed.

  Lemma stop_update_state c s t sig b q st os :
    stop_update c s t sig b q = Done (st, os) ->
    exists m p, st = StopState b q (timestamp_sec t) (close t) m p
      /\ ((m = LONG /\ os = [Order (Some STOP) (Some SELL) (BaseAmount b) (Some p)])
          \/ (m = CASH /\ os = [Order (Some STOP) (Some BUY) (QuoteAmount q) (Some p)])).
  Proof.
    unfold stop_update. intros H. do 3 (apply bind_done in H; destruct H as (?u & _ & H)).
    apply bind_done in H. destruct H as (p & _ & H).
    apply bind_done in H. destruct H as (os' & E & H). injection H as <- <-.
    eexists _, _. split; [reflexivity|].
    unfold EmitStopOrder in E. cbn [sp_mode sp_base sp_quote stop_order_price] in E.
    destruct (stop_mode (close t) b q) eqn:Em.
    - unfold stop_mode in Em. destruct (fleb _ _) in Em; discriminate.
    - injection E as <-. left. split; reflexivity.
    - apply bind_done in E. destruct E as (? & _ & E). injection E as <-. right. split; reflexivity.
  Qed.
End Any.

Section IEEE.
  Context (lm : libm) (as_ : bool).
  Notation I := (ieee lm as_).
  Notation states := (@trader_states lm as_ _).

  Lemma logged_states (te : @trader_emitter I) (P : row (te_state te) -> string -> Prop) rows :
    (forall r st os, In r rows -> w_update r = Some (st, os) -> P r (te_show te st)) ->
    Forall2 P (filter updated rows) (map (te_show te) (flat_map states (story_log rows))).
  Proof.
    induction rows as [|r rows IH]; intros H; [constructor|].
    unfold story_log. cbn [flat_map filter]. rewrite flat_map_app, map_app.
    assert (E : map (te_show te) (flat_map states (row_log r))
                = match w_update r with None => [] | Some (st, _) => [te_show te st] end).
    { unfold row_log. cbn [flat_map app]. rewrite flat_map_app.
      replace (flat_map states (map _ (executed (w_attempts r)))) with (@nil (te_state te)).
      - destruct (w_update r) as [[st os]|]; reflexivity.
      - induction (executed (w_attempts r)) as [|x l IHl]; [reflexivity|exact IHl]. }
    rewrite E. clear E. unfold updated at 1.
    assert (IH' := IH (fun r' st os Hin => H r' st os (or_intror Hin))). clear IH.
    destruct (w_update r) as [[st os]|] eqn:U.
    - constructor; [|exact IH']. apply (H r st os); [now left|exact U].
    - exact IH'.
  Qed.

  Lemma split_one_free s : split line_feed s = [s] -> free line_feed s.
  Proof.
    induction s as [|a s IH]; [intros; exact Logic.I|]. cbn [split free].
    destruct (Ascii.eqb_spec a line_feed) as [->|Ha].
    - intros H. injection H as H _. discriminate.
    - intros H. split; [exact Ha|]. destruct (split line_feed s) as [|x xs] eqn:E.
      + destruct s; [discriminate|]. cbn [split] in E. destruct (Ascii.eqb a0 line_feed); [discriminate|].
        destruct (split line_feed s); discriminate.
      + injection H as -> ->. apply IH. reflexivity.
  Qed.

  Lemma logged (te : @trader_emitter I) (P : row (te_state te) -> string -> Prop) cfg h s fast ticks e0 t0 res l' :
    (forall st, split line_feed (te_show te st) = [te_show te st]) ->
    (forall before r st os, row_ok cfg h te before r -> w_update r = Some (st, os) -> P r (te_show te st)) ->
    side_matches h s -> (h = None \/ time_ordered ticks) -> ticks <> [] ->
    run cfg s fast te (@csv_logger I) ticks (e0, t0) = Done (res, l') ->
    exists rows lines, story cfg h te ticks rows
      /\ Forall2 P (filter updated rows) lines
      /\ split line_feed (text lines) = (lines ++ [EmptyString])%list
      /\ snd l' = option_map (fun t => (t ++ text lines)%string) t0.
  Proof.
    intros Hf HP Hs Ho Hne H.
    destruct (C65_log_files lm as_ cfg h s fast te ticks e0 t0 res l' Hs Ho Hne H)
      as (rows & el & HS & _ & _ & _ & _ & E).
    eexists rows, _. split; [exact HS|]. split; [apply logged_states|split].
    - intros r st os Hin U. apply in_split in Hin. destruct Hin as (b & a & ->).
      destruct HS as [_ HS]. exact (HP b r st os (HS b r a eq_refl) U).
    - apply split_text. clear E. induction (flat_map states (story_log rows)) as [|x l IHl]; constructor.
      + apply split_one_free, Hf.
      + exact IHl.
    - exact E.
  Qed.

  Theorem C98_rebalancing_log c cfg h s fast ticks e0 t0 res l' :
    side_matches h s -> (h = None \/ time_ordered ticks) -> ticks <> [] ->
    run cfg s fast (rebalancing_emitter c) (@csv_logger I) ticks (e0, t0) = Done (res, l') ->
    exists rows lines, story cfg h (rebalancing_emitter c) ticks rows
      /\ Forall2 rebalancing_line (filter updated rows) lines
      /\ split line_feed (text lines) = (lines ++ [EmptyString])%list
      /\ snd l' = option_map (fun t => (t ++ text lines)%string) t0.
  Proof.
    intros Hs Ho Hn H. refine (logged _ _ cfg h s fast ticks e0 t0 res l' _ _ Hs Ho Hn H); clear H.
    - intros st. apply (C65_rebalancing_line lm as_ st).
    - intros before r st os [_ _ _ _ HU] U. rewrite U in HU. destruct HU as [_ HU].
      apply (rebalancing_update_state _ _ _ (w_signals r)) in HU. subst st.
      match goal with |- rebalancing_line r (te_show _ ?st) =>
        destruct (C65_rebalancing_line lm as_ st) as (_ & ts & N & E) end.
      exists ts. split; [exact N|exact E].
  Qed.

  Theorem C98_stop_log c cfg h s fast ticks e0 t0 res l' :
    side_matches h s -> (h = None \/ time_ordered ticks) -> ticks <> [] ->
    run cfg s fast (stop_emitter c) (@csv_logger I) ticks (e0, t0) = Done (res, l') ->
    exists rows lines, story cfg h (stop_emitter c) ticks rows
      /\ Forall2 stop_line (filter updated rows) lines
      /\ split line_feed (text lines) = (lines ++ [EmptyString])%list
      /\ snd l' = option_map (fun t => (t ++ text lines)%string) t0.
  Proof.
    intros Hs Ho Hn H. refine (logged _ _ cfg h s fast ticks e0 t0 res l' _ _ Hs Ho Hn H); clear H.
    - intros st. apply (C65_stop_line lm as_ st).
    - intros before r st os [_ _ _ _ HU] U. rewrite U in HU. destruct HU as [_ HU].
      apply (stop_update_state _ _ _ (w_signals r)) in HU. destruct HU as (m & p & -> & HM).
      match goal with |- stop_line r (te_show _ ?st) =>
        destruct (C65_stop_line lm as_ st) as (_ & ts & N & E) end.
      eexists _, p, [ts; _; _; _], _. split; [exact E|]. split; [exists ts; split; [exact N|reflexivity]|].
      destruct HM as [[-> ->]|[-> ->]]; [left|right]; (split; [reflexivity|exact U]).
  Qed.
End IEEE.

(** Two concrete runs: three ticks an hour apart. *)
Section Example.
  Context (lm : libm).
  Local Notation I := (ieee lm true).
  Local Notation rn := f32_of_Z.
  Let fee : @fee_config I := @FeeConfig I (rn 0) (rn 0) (rn 0).
  Let cfg : @account_config I :=
    @AccountConfig I (rn 1) (rn 100) (rn 0) (rn 0) fee fee fee (rn 1) (rn 1).
  Let tick t p : @ohlc_tick I := @OhlcTick I t (rn p) (rn p) (rn p) (rn p) (rn 1000).
  Let ticks := [tick 3600 100; tick 7200 200; tick 10800 50].

  Lemma C98_ex :
    exists res1 l1 res2 l2,
      run cfg None true (rebalancing_emitter (@RebalancingConfig I (Bdiv mode_NE (rn 1) (rn 2)) (Bdiv mode_NE (rn 1) (rn 4))))
          (@csv_logger I) ticks (None, Some EmptyString) = Done (res1, l1)
      /\ snd l1 = Some (text ["3600,1.000,100.000,100.000"; "7200,0.800,133.333,200.000"; "10800,1.067,112.000,50.000"]%string)
      /\ run cfg None true (stop_emitter (@StopConfig I (Bdiv mode_NE (rn 1) (rn 4)) (rn 0) (rn 0) (rn 0)))
          (@csv_logger I) ticks (None, Some EmptyString) = Done (res2, l2)
      /\ snd l2 = Some (text ["3600,1.000,100.000,100.000,LONG,75.000"; "7200,1.000,100.000,200.000,LONG,150.000";
                              "10800,0.000,150.000,50.000,CASH,62.500"]%string).
  Proof.
    match goal with |- exists _ _ _ _, ?x = _ /\ _ = ?a /\ ?y = _ /\ _ = ?b =>
      assert (H1 : omap (fun r => snd (snd r)) x = Done a) by (vm_compute; reflexivity);
      assert (H2 : omap (fun r => snd (snd r)) y = Done b) by (vm_compute; reflexivity) end.
    apply omap_done in H1. destruct H1 as ([r1 l1] & E1 & H1).
    apply omap_done in H2. destruct H2 as ([r2 l2] & E2 & H2).
    exists r1, l1, r2, l2. split; [exact E1|]. split; [exact H1|]. split; [exact E2|exact H2].
  Qed.
End Example.
