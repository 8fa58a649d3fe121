(** C15-C21: running a trader on the exchange. *)
From Coq Require Import ZArith Bool List Lia String.
From Flocq Require Import Core BinarySingleNaN.
From Verif.Model Require Import Outcome Machine Types Account SideInput Indicators Eval MachineIEEE.
From Verif.Spec Require Import SideInputSpec RunSpec SeriesSpec.
From Verif.Proofs Require Import Base SideInputProofs RunProofs RunPairs VolTotal.
Import ListNotations.

Section Props.
  Context {M : machine}.

  (** Shorthand: a run with a logger. *)
  Definition run cfg side fast te lg ticks l := ExecuteTrader cfg side fast te lg true ticks l.

  (** ** C15 The trader cannot see the future. *)

  (** (a) Side input records after time T do not matter for ticks up to time T: the runs
      have the same outcome (result, log, or failure). *)
  Theorem C15_same_past cfg h1 h2 s1 s2 fast te lg hl ticks l T :
    side_matches h1 s1 -> side_matches h2 s2 -> same_knowledge h1 h2 T ->
    (forall t, In t ticks -> (timestamp_sec t <= T)%Z) -> time_ordered ticks ->
    ExecuteTrader cfg s1 fast te lg hl ticks l = ExecuteTrader cfg s2 fast te lg hl ticks l.
  Proof. intros. eapply execute_same_past; eauto. Qed.

  Lemma foldM_done_app {A S} (f : S -> A -> outcome S) s l1 l2 r :
    foldM f s (l1 ++ l2) = Done r -> exists m, foldM f s l1 = Done m /\ foldM f m l2 = Done r.
  Proof. rewrite foldM_app. apply bind_done. Qed.

  (** (b) A run over past ++ future starts with exactly the run over the past. *)
  Theorem C15_truncated_run cfg h s fast te lg past future l res l' :
    side_matches h s -> time_ordered (past ++ future) -> past <> [] ->
    run cfg s fast te lg (past ++ future) l = Done (res, l') ->
    exists res0 rows0 rows1,
      run cfg s fast te lg past l = Done (res0, write_lines lg (te_show te) (story_log rows0) l) /\
      story cfg h te past rows0 /\
      story cfg h te (past ++ future) (rows0 ++ rows1) /\
      l' = write_lines lg (te_show te) (story_log rows1)
             (write_lines lg (te_show te) (story_log rows0) l).
  Proof.
    intros Hs Ho Hne H. unfold run in *.
    assert (Hp : exists res0 l0, ExecuteTrader cfg s fast te lg true past l = Done (res0, l0)).
    { unfold ExecuteTrader in H |- *. destruct past as [|t past]; [contradiction|]. cbn [app] in H.
      apply bind_done in H as (x0 & Hi & H). rewrite Hi. cbn [bind].
      apply bind_done in H as (x1 & Hf & _). change (t :: past ++ future) with ((t :: past) ++ future) in Hf.
      apply foldM_done_app in Hf as (m & Hm & _). rewrite Hm. cbn [bind]. eauto. }
    destruct Hp as (res0 & l0 & Hp).
    assert (Ho0 : time_ordered past).
    { intros i j a b Ha Hb Hij. apply (Ho i j); auto; rewrite nth_error_app1; auto; apply nth_error_Some; congruence. }
    destruct (run_story cfg h s fast te lg true Hs past l res0 l0 (or_intror Ho0) Hp)
      as [(E & _)|(f0 & r0 & rows0 & _ & S0 & _ & L0)]; [contradiction|].
    destruct (run_story cfg h s fast te lg true Hs (past ++ future) l res l' (or_intror Ho) H)
      as [(E & _)|(f1 & r1 & rows & _ & S1 & _ & L1)]; [destruct past; [contradiction|discriminate]|].
    assert (Hrows : firstn (List.length past) rows = rows0).
    { assert (G : side_good h) by (eapply side_good_of; eauto).
      assert (HT : exists T, forall t, In t past -> (timestamp_sec t <= T)%Z).
      { clear. induction past as [|t past [T IH]]; [exists 0%Z; intros ? []|].
        exists (Z.max T (timestamp_sec t)). intros x [<-|Hx]; [lia|]. specialize (IH x Hx). lia. }
      destruct HT as [T HT].
      assert (Hk : same_knowledge h h T) by (unfold same_knowledge; destruct h; tauto).
      rewrite <- (app_nil_r past) in S0.
      rewrite (story_prefix cfg h h te past future [] rows rows0 T G G Hk HT S1 S0).
      apply firstn_all2. destruct S0 as [S0 _]. rewrite app_nil_r in S0.
      rewrite <- S0, map_length. lia. }
    exists res0, rows0, (skipn (List.length past) rows).
    assert (Hsplit : rows = rows0 ++ skipn (List.length past) rows).
    { rewrite <- Hrows at 1. symmetry. apply firstn_skipn. }
    split; [rewrite Hp, L0; reflexivity|]. split; [exact S0|]. split; [rewrite <- Hsplit; exact S1|].
    rewrite L1. unfold logged. rewrite Hsplit at 1. unfold story_log at 1. rewrite flat_map_app.
    apply write_lines_app.
  Qed.

  (** (c) Two runs that share the ticks and the side input up to time T: their stories (what
      the trader saw, its orders, all executions and balances, the log lines) agree on these
      ticks, whatever comes after. *)
  Theorem C15_no_lookahead cfg h1 h2 s1 s2 fast te lg past future1 future2 l T res1 res2 l1 l2 :
    side_matches h1 s1 -> side_matches h2 s2 -> same_knowledge h1 h2 T ->
    (forall t, In t past -> (timestamp_sec t <= T)%Z) -> past <> [] ->
    time_ordered (past ++ future1) -> time_ordered (past ++ future2) ->
    run cfg s1 fast te lg (past ++ future1) l = Done (res1, l1) ->
    run cfg s2 fast te lg (past ++ future2) l = Done (res2, l2) ->
    exists rows rest1 rest2,
      story cfg h1 te past rows /\ story cfg h2 te past rows /\
      story cfg h1 te (past ++ future1) (rows ++ rest1) /\
      story cfg h2 te (past ++ future2) (rows ++ rest2) /\
      l1 = write_lines lg (te_show te) (story_log rest1) (write_lines lg (te_show te) (story_log rows) l) /\
      l2 = write_lines lg (te_show te) (story_log rest2) (write_lines lg (te_show te) (story_log rows) l).
  Proof.
    intros Hs1 Hs2 Hk HT Hne Ho1 Ho2 R1 R2.
    destruct (C15_truncated_run _ _ _ _ _ _ _ _ _ _ _ Hs1 Ho1 Hne R1) as (q1 & rows1 & rest1 & _ & S1 & L1 & E1).
    destruct (C15_truncated_run _ _ _ _ _ _ _ _ _ _ _ Hs2 Ho2 Hne R2) as (q2 & rows2 & rest2 & _ & S2 & L2 & E2).
    assert (rows1 = rows2).
    { assert (A1 := S1). assert (A2 := S2). rewrite <- (app_nil_r past) in S1, S2.
      pose proof (story_prefix cfg h1 h2 te past [] [] rows1 rows2 T (side_good_of _ _ Hs1) (side_good_of _ _ Hs2) Hk HT S1 S2) as H.
      rewrite !firstn_all2 in H; auto.
      - destruct A2 as [A2 _]. rewrite <- A2, map_length. lia.
      - destruct A1 as [A1 _]. rewrite <- A1, map_length. lia. }
    subst rows2. exists rows1, rest1, rest2. auto 6.
  Qed.

  (** *** Every finished run has a story. *)
  Lemma the_story cfg h s fast te lg hl ticks l res l' :
    side_matches h s -> (h = None \/ time_ordered ticks) ->
    ExecuteTrader cfg s fast te lg hl ticks l = Done (res, l') ->
    exists rows, story cfg h te ticks rows.
  Proof.
    intros Hs Ho H. destruct (run_story cfg h s fast te lg hl Hs ticks l res l' Ho H)
      as [(-> & _)|(f0 & r0 & rows & _ & S0 & _)]; [|eauto].
    exists []. split; [reflexivity|]. intros [|? ?] ? ? E; discriminate.
  Qed.

  (** ** C16 At every update the trader receives the latest known signals followed by their
      age (never negative), and the empty vector before the first record. *)
  Theorem C16_signals cfg h s fast te lg hl ticks l res l' :
    side_matches (Some h) (Some s) -> time_ordered ticks ->
    ExecuteTrader cfg (Some s) fast te lg hl ticks l = Done (res, l') ->
    exists rows, story cfg (Some h) te ticks rows /\
      forall r, In r rows ->
        ((forall x, In x h -> (timestamp_sec (w_tick r) < sr_timestamp_sec x)%Z) -> w_signals r = []) /\
        (forall x, In x h -> (sr_timestamp_sec x <= timestamp_sec (w_tick r))%Z ->
           (forall y, In y h -> (sr_timestamp_sec y <= timestamp_sec (w_tick r))%Z ->
                      (sr_timestamp_sec y <= sr_timestamp_sec x)%Z) ->
           w_signals r = sr_signal x ++ [fofZ (timestamp_sec (w_tick r) - sr_timestamp_sec x)]).
  Proof.
    intros Hs Ho H. destruct (the_story _ _ _ _ _ _ _ _ _ _ _ Hs (or_intror Ho) H) as [rows S0].
    exists rows. split; [exact S0|]. intros r Hr. apply in_split in Hr as (b & a & ->).
    destruct (proj2 S0 b r a eq_refl) as [_ _ _ (x0 & Hx0 & Hsig) _]. split.
    - intros Hall. rewrite Hsig. destruct x0 as [x0|]; [|reflexivity].
      destruct Hx0 as (Hin & Hle & _). specialize (Hall x0 Hin). lia.
    - intros x Hin Hle Hmax. rewrite Hsig. destruct x0 as [x0|].
      + destruct Hx0 as (Hin0 & Hle0 & Hmax0).
        assert (x0 = x); [|subst; reflexivity].
        destruct Hs as [G _]. apply (same_ts_same h); auto.
        apply Z.le_antisymm; auto.
      + specialize (Hx0 x Hin). lia.
  Qed.

  Theorem C16_no_side_input cfg fast te lg hl ticks l res l' :
    ExecuteTrader cfg None fast te lg hl ticks l = Done (res, l') ->
    exists rows, story cfg None te ticks rows /\ forall r, In r rows -> w_signals r = [].
  Proof.
    intros H. destruct (the_story cfg None None _ _ _ _ _ _ _ _ I (or_introl eq_refl) H) as [rows S0].
    exists rows. split; [exact S0|]. intros r Hr. apply in_split in Hr as (b & a & ->).
    destruct (proj2 S0 b r a eq_refl) as [_ _ _ Hsig _]. exact Hsig.
  Qed.

  (** ** C17 Zero-volume ticks: no update, and the same orders are tried on this tick and
      on the next one. *)
  Theorem C17_zero_volume cfg h s fast te lg hl ticks l res l' :
    side_matches h s -> (h = None \/ time_ordered ticks) ->
    ExecuteTrader cfg s fast te lg hl ticks l = Done (res, l') ->
    exists rows, story cfg h te ticks rows /\
      forall before r after, rows = before ++ r :: after -> feqb (volume (w_tick r)) (fofZ 0) = true ->
        w_update r = None /\
        match after with
        | [] => True
        | r' :: _ => map (fun x => fst (fst x)) (w_attempts r') = map (fun x => fst (fst x)) (w_attempts r)
        end.
  Proof.
    intros Hs Ho H. destruct (the_story _ _ _ _ _ _ _ _ _ _ _ Hs Ho H) as [rows S0].
    exists rows. split; [exact S0|]. intros b r a -> Hv.
    destruct (proj2 S0 b r a eq_refl) as [_ Hor _ _ Hup].
    assert (Hn : w_update r = None).
    { destruct (w_update r) as [[st os]|]; [|reflexivity]. destruct Hup as [Hup _]. congruence. }
    split; [exact Hn|]. destruct a as [|r' a]; [exact Logic.I|].
    destruct (proj2 S0 (b ++ [r]) r' a) as [_ Hor' _ _ _]; [rewrite <- app_assoc; reflexivity|].
    rewrite Hor', Hor, last_update_snoc, Hn. reflexivity.
  Qed.

  (** A tick with non-zero volume updates the trader exactly once, with the account after
      the tick's orders. *)
  Theorem C17_non_zero_volume cfg h s fast te lg hl ticks l res l' :
    side_matches h s -> (h = None \/ time_ordered ticks) ->
    ExecuteTrader cfg s fast te lg hl ticks l = Done (res, l') ->
    exists rows, story cfg h te ticks rows /\
      forall before r after, rows = before ++ r :: after -> feqb (volume (w_tick r)) (fofZ 0) = false ->
        exists st os, w_update r = Some (st, os).
  Proof.
    intros Hs Ho H. destruct (the_story _ _ _ _ _ _ _ _ _ _ _ Hs Ho H) as [rows S0].
    exists rows. split; [exact S0|]. intros b r a -> Hv.
    destruct (proj2 S0 b r a eq_refl) as [_ _ _ _ Hup].
    destruct (w_update r) as [[st os]|]; [eauto|congruence].
  Qed.

  (** ** C18 The orders tried on a tick are exactly those emitted by the most recent earlier
      update (none if there was none), in order. *)
  Theorem C18_orders cfg h s fast te lg hl ticks l res l' :
    side_matches h s -> (h = None \/ time_ordered ticks) ->
    ExecuteTrader cfg s fast te lg hl ticks l = Done (res, l') ->
    exists rows, story cfg h te ticks rows /\
      forall before r after, rows = before ++ r :: after ->
        let orders := map (fun x => fst (fst x)) (w_attempts r) in
        ((forall y, In y before -> w_update y = None) /\ orders = []) \/
        (exists b x mid st os, before = b ++ x :: mid /\ w_update x = Some (st, os) /\
           (forall y, In y mid -> w_update y = None) /\ orders = os).
  Proof.
    intros Hs Ho H. destruct (the_story _ _ _ _ _ _ _ _ _ _ _ Hs Ho H) as [rows S0].
    exists rows. split; [exact S0|]. intros before r a -> orders.
    destruct (proj2 S0 before r a eq_refl) as [_ Hor _ _ _]. fold orders in Hor. rewrite Hor. clear.
    induction before as [|x before IH] using rev_ind.
    - left. split; [intros ? []|reflexivity].
    - rewrite last_update_snoc. destruct (w_update x) as [[st os]|] eqn:Ex.
      + right. exists before, x, [], st, os. split; [reflexivity|]. split; [exact Ex|]. split; [intros ? []|reflexivity].
      + destruct IH as [[Hn E]|(b & y & mid & st & os & -> & Hy & Hm & E)].
        * left. split; [|exact E]. intros y Hy. apply in_app_or in Hy as [Hy|[<-|[]]]; auto.
        * right. exists b, y, (mid ++ [x]), st, os. split; [rewrite <- app_assoc; reflexivity|].
          split; [exact Hy|]. split; [|exact E]. intros z Hz. apply in_app_or in Hz as [Hz|[<-|[]]]; auto.
  Qed.

  (** ** C19 Neither logging nor fast evaluation changes the result. *)
  Theorem C19_logger cfg side fast te lg1 lg2 hl1 hl2 ticks l1 l2 :
    omap fst (ExecuteTrader cfg side fast te lg1 hl1 ticks l1)
    = omap fst (ExecuteTrader cfg side fast te lg2 hl2 ticks l2).
  Proof. apply logger_irrelevant. Qed.

  (** Fast and full evaluation of a time-ordered history have the same outcome: the same
      failure, or the same log and results that differ at most in the two volatilities. *)
  Theorem C19_fast cfg side te lg hl ticks l :
    time_ordered ticks ->
    match ExecuteTrader cfg side true te lg hl ticks l, ExecuteTrader cfg side false te lg hl ticks l with
    | Done (r1, l1), Done (r2, l2) => same_but_volatility r1 r2 /\ l1 = l2
    | Done _, _ => False
    | _, Done _ => False
    | AssertFail, AssertFail | Undefined, Undefined | Thrown, Thrown | Diverged, Diverged => True
    | _, _ => False
    end.
  Proof.
    intros Ho. pose proof (fast_irrelevant cfg side te lg hl ticks l Ho) as H. unfold orel in H.
    destruct (ExecuteTrader cfg side true te lg hl ticks l) as [[r1 l1]| | | |];
      destruct (ExecuteTrader cfg side false te lg hl ticks l) as [[r2 l2]| | | |]; auto.
  Qed.

  (** Fast evaluation omits the volatilities, full evaluation reports them. *)
  Theorem C19_volatilities cfg side fast te lg hl t ticks l res l' :
    ExecuteTrader cfg side fast te lg hl (t :: ticks) l = Done (res, l') ->
    (fast = true -> r_base_volatility res = None /\ r_trader_volatility res = None) /\
    (fast = false -> r_base_volatility res <> None /\ r_trader_volatility res <> None).
  Proof.
    intros H. unfold ExecuteTrader in H. apply bind_done in H as (s0 & _ & H).
    apply bind_done in H as (s & _ & H). injection H as <- <-.
    split; intros ->; cbn; split; (reflexivity || discriminate).
  Qed.

  (** ** C20 The log is exactly the log of the story: per tick one line with the account
      before the orders, one line per executed order with the account after it and, if the
      volume is not zero, one trader line; the reported count is the number of order lines. *)
  Definition is_order_line {S} (x : log_line S) : bool :=
    match x with OrderLine _ _ _ => true | _ => false end.
  Definition is_tick_line {S} (x : log_line S) : bool :=
    match x with TickLine _ _ => true | _ => false end.
  Definition is_trader_line {S} (x : log_line S) : bool :=
    match x with TraderLine _ => true | _ => false end.

  Theorem C20_log cfg h s fast te lg ticks l res l' :
    side_matches h s -> (h = None \/ time_ordered ticks) -> ticks <> [] ->
    run cfg s fast te lg ticks l = Done (res, l') ->
    exists rows, story cfg h te ticks rows /\
      let lines := story_log rows in
      l' = write_lines lg (te_show te) lines l /\
      r_total_executed_orders res = Z.of_nat (List.length (filter is_order_line lines)) /\
      List.length (filter is_tick_line lines) = List.length ticks /\
      List.length (filter is_trader_line lines)
        = List.length (filter (fun t => negb (feqb (volume t) (fofZ 0))) ticks).
  Proof.
    intros Hs Ho Hne H. destruct (run_story cfg h s fast te lg true Hs ticks l res l' Ho H)
      as [(E & _)|(f0 & r0 & rows & _ & S0 & R & L)]; [contradiction|].
    exists rows. split; [exact S0|]. cbv zeta. split; [exact L|].
    destruct R as (_ & _ & _ & _ & _ & _ & _ & _ & Hx & _). rewrite Hx. unfold executed_count.
    destruct S0 as [Hm Hok].
    assert (F : forall f : log_line (te_state te) -> bool, filter f (story_log rows) = flat_map (fun r => filter f (row_log r)) rows).
    { intros f. unfold story_log. clear. induction rows as [|r rows IH]; [reflexivity|].
      cbn [flat_map]. rewrite filter_app, IH. reflexivity. }
    assert (FM : forall (A B : Type) (f : B -> bool) (g : A -> B) b l, (forall x, f (g x) = b) ->
                 filter f (map g l) = if b then map g l else []).
    { clear. intros A B f g b l Hb. induction l as [|x l IH]; cbn; [destruct b; reflexivity|].
      rewrite Hb, IH. destruct b; reflexivity. }
    split; [|split].
    - f_equal. rewrite F. clear - FM. induction rows as [|r rows IH]; [reflexivity|].
      cbn [flat_map]. rewrite !app_length, <- IH. f_equal.
      unfold row_log. cbn [filter is_order_line]. rewrite filter_app, app_length.
      rewrite (FM _ _ _ _ true) by reflexivity. rewrite map_length.
      destruct (w_update r) as [[? ?]|]; cbn; lia.
    - rewrite F, <- Hm. clear - FM. induction rows as [|r rows IH]; [reflexivity|].
      cbn [flat_map map List.length]. rewrite app_length, IH.
      unfold row_log. cbn [filter is_tick_line]. rewrite filter_app.
      rewrite (FM _ _ _ _ false) by reflexivity.
      destruct (w_update r) as [[? ?]|]; cbn; lia.
    - assert (Hup : forall r, In r rows -> match w_update r with None => feqb (volume (w_tick r)) (fofZ 0) = true
                                           | Some _ => feqb (volume (w_tick r)) (fofZ 0) = false end).
      { intros r Hr. apply in_split in Hr as (b & a & E). destruct (Hok b r a E) as [_ _ _ _ Hu].
        destruct (w_update r) as [[? ?]|]; tauto. }
      rewrite F, <- Hm. clear - FM Hup. induction rows as [|r rows IH]; [reflexivity|].
      cbn [flat_map map filter]. rewrite app_length, IH by (intros; apply Hup; right; auto).
      unfold row_log. cbn [filter is_trader_line]. rewrite filter_app.
      rewrite (FM _ _ _ _ false) by reflexivity.
      specialize (Hup r (or_introl eq_refl)).
      destruct (w_update r) as [[? ?]|]; rewrite Hup; cbn; lia.
  Qed.

  (** ** C21 The execution result reports the run. *)
  Theorem C21_result cfg h s fast te lg hl ticks l res l' :
    side_matches h s -> (h = None \/ time_ordered ticks) ->
    ExecuteTrader cfg s fast te lg hl ticks l = Done (res, l') ->
    match ticks with
    | [] => res = empty_execution_result
    | first :: _ => exists rows, story cfg h te ticks rows /\ result_of cfg first (List.last ticks first) rows res
    end.
  Proof.
    intros Hs Ho H. destruct (run_story cfg h s fast te lg hl Hs ticks l res l' Ho H)
      as [(-> & -> & _)|(f0 & r0 & rows & -> & S0 & R & L)]; [reflexivity|eauto].
  Qed.

  (** The result does not depend on the ticks' order or on side input. *)
  Theorem C21_prices cfg side fast te lg hl first rest l res l' :
    ExecuteTrader cfg side fast te lg hl (first :: rest) l = Done (res, l') ->
    r_start_price res = close first /\
    r_end_price res = close (List.last (first :: rest) first) /\
    r_start_base_balance res = start_base_balance cfg /\
    r_start_quote_balance res = start_quote_balance cfg /\
    r_start_value res = fadd (start_quote_balance cfg) (fmul (close first) (start_base_balance cfg)) /\
    r_end_value res = fadd (r_end_quote_balance res) (fmul (r_end_price res) (r_end_base_balance res)).
  Proof.
    intros H. unfold ExecuteTrader in H. apply bind_done in H as (s0 & _ & H).
    apply bind_done in H as (s & _ & H). injection H as <- <-. repeat split.
  Qed.
End Props.

(** ** The hypotheses are met: a run of four ticks (one without volume) with side input; the
    trader buys one base unit per update.  Two orders are executed on the second tick... *)
Section Examples.
  Context {lm : libm} {as_ : bool}.
  Local Notation I := (ieee lm as_).
  Definition rn (z : Z) : @flt I := f32_of_Z z.
  Definition r_free : @fee_config I := @FeeConfig I (rn 0) (rn 0) (rn 0).
  Definition r_config : @account_config I :=
    @AccountConfig I (rn 1) (rn 100) (rn 1) (rn 1) r_free r_free r_free (rn 1) (rn 0).
  Definition r_tick (t p v : Z) : @ohlc_tick I := @OhlcTick I t (rn p) (rn p) (rn p) (rn p) (rn v).
  Definition r_buy : @order I := @Order I (Some MARKET) (Some BUY) (@BaseAmount I (rn 1)) None.
  (** The trader's state counts its updates and the signals it received. *)
  Definition r_trader : @trader_emitter I :=
    @TraderEmitter I "t" (nat * nat)%type (0, 0)
      (fun st _ sig _ _ => Done ((S (fst st), snd st + List.length sig), [r_buy])) (fun _ => EmptyString).
  Definition r_side : list (@side_record I) := [@SideRecord I 250 [rn 7]; @SideRecord I 900 [rn 8]].
  (** A logger that counts the lines. *)
  Definition r_logger : @logger I :=
    @Logger I (nat * nat * nat)%type
      (fun s _ _ => (S (fst (fst s)), snd (fst s), snd s))
      (fun s _ _ _ => (fst (fst s), S (snd (fst s)), snd s))
      (fun s _ => (fst (fst s), snd (fst s), S (snd s))).
  Definition r_ticks : list (@ohlc_tick I) := [r_tick 100 10 5; r_tick 300 11 0; r_tick 400 12 5; r_tick 900 13 5].
End Examples.

Section ExampleProofs.
  Context (lm : libm) (as_ : bool).
  Local Notation I := (ieee lm as_).

  Lemma run_hypotheses_met :
    exists si, side_matches (Some (@r_side lm as_)) (Some si) /\ time_ordered (@r_ticks lm as_) /\
      exists res, run (@r_config lm as_) (Some si) false r_trader r_logger r_ticks (0, 0, 0) = Done (res, (4, 3, 3)) /\
                  r_total_executed_orders res = 3%Z.
  Proof.
    assert (G : good_side_history (@r_side lm as_)).
    { split.
      - discriminate.
      - intros r [<-|[<-|[]]]; cbn; lia.
      - intros [|[|[|?]]] [|[|[|?]]] r r' E1 E2 L; cbn in *; try lia; try discriminate.
        injection E1 as <-. injection E2 as <-. cbn. lia.
      - intros r r' [<-|[<-|[]]] [<-|[<-|[]]]; reflexivity.
      - cbn. lia. }
    destruct (NewSideInput_good _ G) as (k & E & _).
    eexists. split; [split; [exact G|exact E]|]. split.
    - intros i j t t' E1 E2 L. unfold r_ticks in *.
      destruct i as [|[|[|[|[|?]]]]], j as [|[|[|[|[|?]]]]]; cbn in E1, E2; try lia; try discriminate;
        injection E1 as <-; injection E2 as <-; cbn; lia.
    - assert (H : bind (@NewSideInput I (@r_side lm as_)) (fun si =>
                  bind (run (@r_config lm as_) (Some si) false r_trader r_logger r_ticks (0, 0, 0))
                       (fun x => Done (snd x, r_total_executed_orders (fst x)))) = Done ((4, 3, 3), 3%Z)).
      { clear. destruct as_; vm_compute; reflexivity. }
      rewrite E in H. cbn [bind] in H. apply bind_done in H as ([res l'] & -> & H).
      cbn [fst snd] in H. injection H as -> H. exists res. auto.
  Qed.
End ExampleProofs.

Print Assumptions C15_no_lookahead.
Print Assumptions C19_fast.
Print Assumptions C20_log.
