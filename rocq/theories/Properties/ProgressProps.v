(** C78 - C80: when does a run return? *)
From Coq Require Import Reals ZArith List Lra Lia Bool String.
From Coq Require Import List.
From Flocq Require Import Core BinarySingleNaN.
From Verif.Model Require Import Outcome Machine Types Account SideInput MachineR MachineIEEE Eval Traders.
From Verif.Spec Require Import AccountSpec OrderSpec RunSpec TraderSpec ProgressSpec LedgerSpec.
From Verif.Proofs Require Import Base AccountExact RunProofs TraderProofs ProgressProofs SteadyExact LedgerProofs.
From Verif.Properties Require Import LedgerProps.
Import ListNotations.
Local Open Scope R_scope.

(** ** C78 A run over ticks ordered by time returns unless, after some of the ticks, one of
    the pending orders can be neither executed nor rejected or the trader refuses its
    update; there is no other way in which it can fail or go on forever. *)
Theorem C78_returns (M : machine) cfg hist side te lg hl fast ticks l :
  side_matches hist side -> time_ordered ticks ->
  (exists res l', ExecuteTrader cfg side fast te lg hl ticks l = Done (res, l')) <->
  ~ exists past t rest rows, ticks = past ++ t :: rest /\ story cfg hist te past rows /\ stuck cfg hist te rows t.
Proof.
  intros Hs Ho. split.
  - intros (res & l' & H) (past & t & rest & rows & -> & S0 & K). exact (stuck_never cfg hist side te lg hl fast past t rest rows l Hs Ho S0 K _ H).
  - intros H. destruct (run_progress cfg hist side te lg hl Hs fast ticks l Ho) as [K|K]; [exact K|contradiction].
Qed.

(** The updates of the two traders: with asserts compiled in, a run that returns has shown
    the trader positive prices at strictly increasing positive times, and never an empty
    account. *)
Lemma rebalancing_demands (M : machine) (c : rebalancing_config) vs : forall s oss, asserts_on = true ->
  orders_from (rebalancing_emitter c) s vs = Done oss -> increasing_from (rb_timestamp s) vs /\ Forall demands vs.
Proof.
  induction vs as [|v vs IH]; intros s oss Ha H; [split; [exact I|constructor]|]. cbn [orders_from] in H.
  apply bind_done in H as (r & H1 & H). apply bind_done in H as (rest & H2 & _).
  cbn [rebalancing_emitter te_update] in H1. unfold rebalancing_update in H1.
  apply bind_done in H1 as (u1 & G1 & H1). apply bind_done in H1 as (u2 & G2 & H1). apply bind_done in H1 as (u3 & G3 & H1).
  apply assert_done in G1, G2, G3. rewrite Ha in G1, G2, G3.
  destruct G1 as [?|G1]; [discriminate|]. destruct G2 as [?|G2]; [discriminate|]. destruct G3 as [?|G3]; [discriminate|].
  injection H1 as <-. cbn [fst] in H2. destruct (IH _ _ Ha H2) as [I1 I2]. split.
  - cbn [increasing_from]. split; [apply Z.gtb_lt in G1; exact G1|exact I1].
  - constructor; [|exact I2]. split; [exact G2|]. apply orb_true_iff in G3. exact G3.
Qed.

Theorem C78_traders (M : machine) te cfg hist side lg hl fast ticks l res l' :
  asserts_on = true -> (exists c, te = stop_emitter c) \/ (exists c, te = rebalancing_emitter c) ->
  side_matches hist side -> (hist = None \/ time_ordered ticks) ->
  ExecuteTrader cfg side fast te lg hl ticks l = Done (res, l') ->
  ticks = [] \/ exists rows, story cfg hist te ticks rows /\ increasing_from 0 (views rows) /\ Forall demands (views rows).
Proof.
  intros Ha Hte Hs Ho H. destruct (run_story cfg hist side fast te lg hl Hs ticks l res l' Ho H) as [(E & _)|(f & r0 & rows & _ & S0 & _)]; [left; exact E|].
  right. exists rows. split; [exact S0|]. destruct (story_views cfg hist te ticks rows S0) as [K _].
  destruct Hte as [(c & ->)|(c & ->)].
  - apply orders_chain in K as (ps & K & _). exact (chain_demands c _ stop_init ps K Ha).
  - exact (rebalancing_demands M c _ rebalancing_init _ Ha K).
Qed.

(** ** C79 Without rounding: a trader that copes with everything a market can show it never
    gets stuck on an exchange with units for both currencies. *)
Section Exact.
  Context (sh : R -> String.string) (as_ : bool).
  Local Notation E := (exact sh as_).

  Theorem C79_returns (cfg : @account_config E) hist side te lg hl fast ticks l :
    solvent cfg -> copes te -> side_matches hist side -> strictly_ordered ticks -> Forall sane_tick ticks ->
    exists res l', ExecuteTrader cfg side fast te lg hl ticks l = Done (res, l').
  Proof. apply copes_returns. Qed.

  Theorem C79_stop (c : @stop_config E) :
    -1 < (stop_order_margin c : R) < 1 -> -1 < (stop_order_move_margin c : R) -> copes (stop_emitter c).
  Proof. apply stop_copes. Qed.

  Theorem C79_rebalancing (c : @rebalancing_config E) :
    0 < (alpha c : R) < 1 -> 0 < (epsilon c : R) < 1 -> copes (rebalancing_emitter c).
  Proof. apply rebalancing_copes. Qed.

  (** All traders the programs can create cope. *)
  Lemma flit_exact n d : (@flit E n d : R) = IZR n / IZR d.
  Proof. reflexivity. Qed.
  Lemma dlit_exact n d : (@dlit E n d : R) = IZR n / IZR d.
  Proof. reflexivity. Qed.

  Lemma done_inj {A} (a b : A) : Done a = Done b -> a = b.
  Proof. intros H. injection H. auto. Qed.

  Theorem C79_factory name : (forall te, @GetTrader E name = Done te -> copes te) /\
    (forall tes, @GetBatchOfTraders E name = Done tes -> Forall copes tes).
  Proof.
    unfold GetTrader, GetBatchOfTraders. destruct (String.eqb name "rebalancing").
    - split; intros te H; apply done_inj in H; subst te.
      + apply C79_rebalancing; cbn [default_rebalancing alpha epsilon]; rewrite flit_exact; lra.
      + apply Forall_forall. intros te H. apply in_map_iff in H as (c & <- & H). unfold batch_of_rebalancing, rebalancing_batch in H.
        apply in_flat_map in H as (a & Ha & H). apply in_map_iff in H as (e & <- & He).
        apply C79_rebalancing; cbn [alpha epsilon]; [clear He; rename Ha into K|clear Ha; rename He into K];
          repeat (destruct K as [<-|K]; [rewrite flit_exact; lra|]); destruct K.
    - split; intros te H; apply bind_done in H as (u & _ & H); apply done_inj in H; subst te.
      + apply C79_stop; cbn [default_stop stop_order_margin stop_order_move_margin]; rewrite flit_exact; lra.
      + apply Forall_forall. intros te H. apply in_map_iff in H as (c & <- & H). unfold batch_of_stop, stop_batch in H.
        apply in_flat_map in H as (a & Ha & H). apply in_flat_map in H as (b & Hb & H). apply in_flat_map in H as (i & _ & H).
        apply in_map_iff in H as (d & <- & _).
        apply C79_stop; cbn [stop_order_margin stop_order_move_margin]; [clear Hb; rename Ha into K|clear Ha; rename Hb into K];
          repeat (destruct K as [<-|K]; [rewrite dlit_exact; lra|]); destruct K.
  Qed.

  (** Every run of every factory trader returns. *)
  Theorem C79_programs name te (cfg : @account_config E) hist side lg hl fast ticks l :
    (@GetTrader E name = Done te \/ exists tes, @GetBatchOfTraders E name = Done tes /\ In te tes) ->
    solvent cfg -> side_matches hist side -> strictly_ordered ticks -> Forall sane_tick ticks ->
    exists res l', ExecuteTrader cfg side fast te lg hl ticks l = Done (res, l').
  Proof.
    intros H Hs Hm Ho Ht. apply (C79_returns cfg hist side); auto. destruct (C79_factory name) as [F1 F2].
    destruct H as [H|(tes & H & Hin)]; [auto|]. specialize (F2 tes H). rewrite Forall_forall in F2. auto.
  Qed.
End Exact.

(** A concrete exchange and market. *)
Section ExactExample.
  Context (sh : R -> String.string) (as_ : bool).
  Local Notation E := (exact sh as_).

  Definition px_fee : @fee_config E := @FeeConfig E (1 / 100) 0 0.
  Definition px_config : @account_config E := @AccountConfig E 1 100 1 1 px_fee px_fee px_fee (1 / 2) (1 / 2).
  Definition px_tick (t : Z) (o h l c v : R) : @ohlc_tick E := @OhlcTick E t o h l c v.
  Definition px_ticks : list (@ohlc_tick E) :=
    [px_tick 60 100 110 90 105 10; px_tick 120 105 106 50 60 8; px_tick 180 60 60 60 60 0; px_tick 240 61 120 61 110 5].

  Lemma px_solvent : solvent px_config.
  Proof.
    assert (F : sane_fees px_fee) by (constructor; cbn; lra).
    constructor; cbn; try lra; [constructor; exact F|].
    constructor; cbn; try lra; right; [exists 1%Z|exists 100%Z|exists 0%Z]; lra.
  Qed.
  Lemma px_market : strictly_ordered px_ticks /\ Forall sane_tick px_ticks.
  Proof.
    split.
    - split.
      + intros t [<-|[<-|[<-|[<-|[]]]]]; cbn; lia.
      + intros i j t t' H1 H2 L. destruct i as [|[|[|[|i]]]], j as [|[|[|[|j]]]]; cbn in H1, H2; try lia; try discriminate; try (destruct i; discriminate); try (destruct j; discriminate);
          injection H1 as <-; injection H2 as <-; cbn; lia.
    - repeat apply Forall_cons; try apply Forall_nil; constructor; cbn; lra.
  Qed.
  Lemma px_runs name te lg hl fast l : @GetTrader E name = Done te ->
    exists res l', ExecuteTrader px_config None fast te lg hl px_ticks l = Done (res, l').
  Proof.
    intros H. destruct px_market as [Ho Ht]. apply (C79_programs sh as_ name te px_config None None); auto. apply px_solvent. exact Logic.I.
  Qed.
End ExactExample.

(** The books and the volatilities of these runs (asserts on): the hypotheses of
    [C75_books], [C75_flat_market] and [C76_exact] are met. *)
Section Books.
  Context (sh : R -> String.string).
  Local Notation E := (exact sh true).

  Lemma C75_ex name te lg hl fast l : @GetTrader E name = Done te ->
    exists res l' books final,
      ExecuteTrader (px_config sh true) None fast te lg hl (px_ticks sh true) l = Done (res, l') /\
      ledger (px_config sh true) (opening_account (px_config sh true)) books final /\
      Z.of_nat (List.length books) = r_total_executed_orders res /\
      (r_end_quote_balance res : R) = 100 + total quote_change books - total tr_fee books.
  Proof.
    intros H. destruct (px_runs sh true name te lg hl fast l H) as (res & l' & H1). destruct (px_market sh true) as [Ho Ht].
    destruct (px_solvent sh true) as [S1 S2 _ _ _].
    destruct (C75_books sh true (px_config sh true) None None fast te lg hl (px_ticks sh true) _ l res l' Logic.I (or_introl eq_refl) eq_refl S1 S2 Ht (or_introl eq_refl) H1)
      as (books & final & L & _ & _ & N & _ & Q & _).
    exists res, l', books, final. split; [exact H1|]. split; [exact L|]. split; [exact N|]. rewrite Q. f_equal. f_equal.
    destruct (run_story_volatility (px_config sh true) None None fast te lg hl Logic.I (px_ticks sh true) _ l res l' (or_introl eq_refl) eq_refl H1) as (rows & _ & R0 & _).
    destruct R0 as (_ & Q2 & _). rewrite Q2. reflexivity.
  Qed.

  Definition px_flat : list (@ohlc_tick E) :=
    [px_tick sh true 60 8 8 8 8 10; px_tick sh true 120 8 8 8 8 8; px_tick sh true 86520 8 8 8 8 1].
  Lemma C75_flat_ex name te lg hl fast l : @GetTrader E name = Done te ->
    exists res l', ExecuteTrader (px_config sh true) None fast te lg hl px_flat l = Done (res, l') /\
      (r_end_value res : R) + r_total_fee res <= 108 /\ r_end_price res = r_start_price res.
  Proof.
    intros H. destruct (px_solvent sh true) as [S1 S2 S3 S4 S5].
    assert (Ho : strictly_ordered px_flat).
    { split.
      + intros t [<-|[<-|[<-|[]]]]; cbn; lia.
      + intros i j t t' H1 H2 L. destruct i as [|[|[|i]]], j as [|[|[|j]]]; cbn in H1, H2; try lia; try discriminate; try (destruct i; discriminate); try (destruct j; discriminate);
          injection H1 as <-; injection H2 as <-; cbn; lia. }
    assert (Ht : Forall sane_tick px_flat) by (repeat apply Forall_cons; try apply Forall_nil; constructor; cbn; lra).
    assert (Hf : Forall (flat_at 8) px_flat) by (repeat apply Forall_cons; try apply Forall_nil; repeat split).
    destruct (C79_programs sh true name te (px_config sh true) None None lg hl fast px_flat l (or_introl H) (px_solvent sh true) Logic.I Ho Ht) as (res & l' & H1).
    exists res, l'. split; [exact H1|].
    destruct (C75_flat_market sh true (px_config sh true) None None fast te lg hl px_flat _ l res l' 8 Logic.I (or_introl eq_refl) eq_refl S1 S2 Ht (or_introl eq_refl) Hf H1)
      as (V & P & _).
    destruct (run_story_volatility (px_config sh true) None None fast te lg hl Logic.I px_flat _ l res l' (or_introl eq_refl) eq_refl H1) as (rows & _ & R0 & _).
    destruct R0 as (_ & _ & _ & _ & _ & _ & Q7 & _). split; [|exact P].
    rewrite Q7 in V. cbn in V. change (@flt E) with R in *. lra.
  Qed.

  Lemma C76_ex name te lg hl l : @GetTrader E name = Done te ->
    exists res l' rows, ExecuteTrader (px_config sh true) None false te lg hl (px_ticks sh true) l = Done (res, l') /\
      story (px_config sh true) None te (px_ticks sh true) rows /\
      r_trader_volatility res = Some (daily_deviation sh true (portfolio_updates rows) * sqrt 365).
  Proof.
    intros H. destruct (px_runs sh true name te lg hl false l H) as (res & l' & H1). destruct (px_market sh true) as [Ho Ht].
    destruct (px_solvent sh true) as [S1 S2 S3 S4 S5].
    assert (Ho' : time_ordered (px_ticks sh true)).
    { destruct Ho as [_ Ho]. intros i j t t' Hi Hj L. specialize (Ho i j t t' Hi Hj L). lia. }
    destruct (C76_exact sh true (px_config sh true) None None te lg hl (px_ticks sh true) _ l res l' Logic.I Ho' eq_refl S1 S2 Ht (or_introl eq_refl) S3 S4 S5)
      as (rows & S0 & _ & _ & V); [|exact H1|].
    - eexists. split; [left; reflexivity|]. cbn. lra.
    - exists res, l', rows. auto.
  Qed.
End Books.

Lemma is_abort {A} (o : outcome A) : match o with AssertFail => true | _ => false end = true -> o = AssertFail.
Proof. destruct o; intros H; try discriminate. reflexivity. Qed.

(** Without units an account can run empty (the fee eats all proceeds), and the trader
    aborts on the next update. *)
Section Refuted.
  Context (lm : libm).
  Local Notation I := (ieee lm true).
  Local Notation n := f32_of_Z.
  Definition pz_fee : @fee_config I := @FeeConfig I (n 1) (n 0) (n 0).
  Definition pz_config (u : Z) : @account_config I :=
    @AccountConfig I (n 1) (n 0) (n u) (n u) pz_fee pz_fee pz_fee (n 1) (n 0).
  Definition pz_tick (t p : Z) : @ohlc_tick I := @OhlcTick I t (n p) (n p) (n p) (n p) (n 5).

  Theorem C79_zero_units_refuted :
    @ExecuteTrader I (pz_config 0) None true (stop_emitter default_stop) (@null_logger I) false
      [pz_tick 60 16; pz_tick 120 8] tt = AssertFail.
  Proof. apply is_abort. vm_compute. reflexivity. Qed.
End Refuted.
