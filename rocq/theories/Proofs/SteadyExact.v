(** Exact arithmetic: runs of traders that cope with what they are shown return. *)
From Coq Require Import Reals ZArith List Lra Lia Bool.
From Flocq Require Import Core.
From Verif.Model Require Import Outcome Machine Types Account SideInput MachineR Eval Traders.
From Verif.Spec Require Import AccountSpec OrderSpec RunSpec TraderSpec ProgressSpec.
From Verif.Proofs Require Import Base AccountExact OrderLaws RunProofs TraderProofs RebalanceProofs ProgressProofs LedgerProofs.
Import ListNotations.
Local Open Scope R_scope.

Section Exact.
  Context (sh : R -> String.string) (as_ : bool).
  Local Notation E := (exact sh as_).

  (** The accounts of the run. *)
  Definition alive (a : @account E) : Prop :=
    sane_account a /\ 0 < (base_unit a : R) /\ 0 < (quote_unit a : R) /\ 0 < (base_balance a : R) + quote_balance a.

  Lemma exec_alive (c : @account_config E) o t a : sane_config c -> sane_tick t -> well_formed o -> alive a ->
    exists ok a', ExecuteOrder c o t a = Done (ok, a') /\ alive a'.
  Proof.
    intros Hc Ht (ty & sd & limit & am & Hp) (Ha & U1 & U2 & Own).
    destruct (ExecuteOrder_trade c o t a ty sd limit am Hc Ha Ht Hp) as (ok & a' & HE & Hno & Hyes).
    exists ok, a'. split; [exact HE|]. destruct ok.
    - destruct (Hyes eq_refl) as (_ & tr & Hs & _ & Hfair & Hbk & _).
      assert (Hsf : sane_fees (fees_of c ty)) by (destruct Hc, ty; assumption).
      split; [eapply booked_sane; eauto|].
      destruct Hbk as (K & _ & E1 & E2 & _). rewrite E1, E2. split; [exact U1|]. split; [exact U2|].
      destruct Hfair as [F1 F2 F3 F4 F5 F6]. pose proof (fee_nonneg sh as_ _ _ _ _ Hsf (Rlt_le _ _ U2) F5) as F7.
      pose proof (sa_base _ Ha) as B. pose proof (sa_quote _ Ha) as Q. change (@flt E) with R in *.
      destruct (tr_side tr); destruct K as [K1 K2]; rewrite K1, K2; try lra;
        destruct F4 as [_ F4]; destruct (Req_EM_T (quote_unit a) 0); lra.
    - rewrite (Hno eq_refl). split; [exact Ha|auto].
  Qed.

  Lemma shown_fair (T : @ohlc_tick E -> Prop) X (v : @view E) : (forall t, T t -> sane_tick t) -> shown alive X T v -> fair_view v.
  Proof.
    intros HT (Ht & a & (Ha & _ & _ & Own) & _ & E1 & E2). destruct (HT _ Ht) as [T1 T2 T3 T4 T5 T6].
    unfold fair_view. rewrite E1, E2. unfold v_price. change (@flt E) with R in *. split; [lra|]. split; [apply (sa_base _ Ha)|]. split; [apply (sa_quote _ Ha)|exact Own].
  Qed.

  Theorem copes_returns (cfg : @account_config E) hist side te lg hl fast ticks l :
    solvent cfg -> copes te -> side_matches hist side -> strictly_ordered ticks -> Forall sane_tick ticks ->
    exists res l', ExecuteTrader cfg side fast te lg hl ticks l = Done (res, l').
  Proof.
    intros [Hc Ha Hb Hq Own] Hte Hs Ho Ht.
    apply (steady_returns cfg hist te alive (fun _ => True) well_formed sane_tick ticks); auto.
    - intros o t a A _ W T. apply exec_alive; auto.
    - split; [exact Ha|]. auto.
    - intros vs Hi Hv. apply Hte; [exact Hi|]. eapply Forall_impl; [|exact Hv]. intros v. apply shown_fair. auto.
  Qed.

  Lemma fair_demands (v : @view E) : fair_view v -> demands v.
  Proof.
    intros (P & B & Q & S). unfold demands. cbn [fltb fofZ exact]. change (@flt E) with R in *.
    split; [apply Rlt_bool_true; exact P|].
    destruct (Rle_lt_or_eq_dec _ _ B) as [L|L]; [left; apply Rlt_bool_true; exact L|right; apply Rlt_bool_true; lra].
  Qed.

  (** The stop trader. *)
  Lemma closing_well_formed (v : @view E) (p : R) : fair_view v -> 0 < p -> well_formed (closing_order v p).
  Proof.
    intros (P & B & Q & S) Hp. unfold closing_order. destruct (is_long v) eqn:L; unfold is_long in L; cbn [fleb fmul exact] in L; change (@flt E) with R in *.
    - exists STOP, SELL, p, (@BaseAmount E (v_base v)). constructor; auto.
      destruct (Rle_bool_spec (v_quote v) (v_base v * v_price v)) as [K|]; [|discriminate].
      destruct (Rle_lt_or_eq_dec _ _ B) as [L'|L']; [exact L'|]. rewrite <- L' in K. lra.
    - exists STOP, BUY, p, (@QuoteAmount E (v_quote v)). constructor; auto.
      destruct (Rle_bool_spec (v_quote v) (v_base v * v_price v)) as [|K]; [discriminate|]. nra.
  Qed.

  Lemma start_pos (c : @stop_config E) (v : @view E) : -1 < (stop_order_margin c : R) < 1 -> fair_view v -> 0 < (start_price c v : R).
  Proof. intros C (P & _). unfold start_price. cbn [fsub fadd fmul fofZ exact]. change (@flt E) with R in *. destruct (is_long v); nra. Qed.

  Lemma follows_pos (c : @stop_config E) (v : @view E) (p p' : R) : -1 < (stop_order_move_margin c : R) -> fair_view v -> 0 < p ->
    @follows E c v p p' -> 0 < p'.
  Proof.
    intros C (P & _) Hp [->|H]; [exact Hp|]. unfold follow_limit in H. destruct (is_long v); cbn [fltb fleb fadd fmul fofZ exact] in H; change (@flt E) with R in *.
    - destruct H as [H _]. destruct (Rlt_bool_spec p p'); [lra|discriminate].
    - destruct H as [_ H]. destruct (Rle_bool_spec ((IZR 1 + stop_order_move_margin c) * v_price v) p'); [nra|discriminate].
  Qed.

  Lemma chain_pos (c : @stop_config E) vs : -1 < (stop_order_margin c : R) < 1 -> -1 < (stop_order_move_margin c : R) ->
    Forall fair_view vs -> forall v0 (p0 : @flt E) ps, 0 < (p0 : R) -> chain c (state_after v0 p0) vs ps -> Forall (fun p : @flt E => 0 < (p : R)) ps.
  Proof.
    intros C1 C2. induction vs as [|v vs IH]; intros HV v0 p0 [|p ps] G H; cbn in H; try (destruct H; fail); [constructor|].
    destruct H as (_ & Hn & Hc). apply Forall_cons_iff in HV as [V1 V2].
    assert (0 < (p : R)).
    { destruct (restart (state_after v0 p0) v) eqn:R.
      - unfold next_stop in Hn. rewrite R in Hn. injection Hn as <-. apply start_pos; auto.
      - apply (follows_pos c v p0 p); auto. apply (follows_step (exact_order sh as_) c v0 p0 v p Hn).
        intros H. apply (restart_after v0 p0 v) in H. congruence. }
    constructor; auto. eapply IH; eauto.
  Qed.

  Theorem stop_copes (c : @stop_config E) :
    -1 < (stop_order_margin c : R) < 1 -> -1 < (stop_order_move_margin c : R) -> copes (stop_emitter c).
  Proof.
    intros C1 C2 vs Hi HV. destruct (chain_exists c vs stop_init) as (ps & Hc).
    { intros _. split; [exact Hi|]. eapply Forall_impl; [|exact HV]. apply fair_demands. }
    assert (G : Forall (fun p : @flt E => 0 < (p : R)) ps).
    { destruct vs as [|v vs], ps as [|p ps]; cbn in Hc; try (destruct Hc; fail); [constructor|].
      destruct Hc as (_ & Hn & Hc). apply Forall_cons_iff in HV as [V1 V2].
      unfold next_stop in Hn. rewrite restart_first in Hn. injection Hn as <-.
      pose proof (start_pos c v C1 V1) as G. constructor; auto. eapply chain_pos; eauto. }
    eexists. split; [apply orders_chain; eauto|]. pose proof (chain_length _ _ _ _ Hc) as Hl. clear Hi Hc.
    revert vs HV Hl. induction G as [|p ps G1 G2 IH]; intros [|v vs] HV Hl; try discriminate; cbn [combine map]; constructor.
    - apply Forall_cons_iff in HV as [V1 _]. constructor; [|constructor]. apply closing_well_formed; auto.
    - apply Forall_cons_iff in HV as [_ V2]. apply IH; auto.
  Qed.

  (** The rebalancing trader. *)
  Theorem rebalancing_copes (c : @rebalancing_config E) :
    0 < (alpha c : R) < 1 -> 0 < (epsilon c : R) < 1 -> copes (rebalancing_emitter c).
  Proof.
    intros A Ep vs Hi HV. eexists. split.
    { unfold orders_emitted. apply rebalancing_run. intros _. split; [exact Hi|]. eapply Forall_impl; [|exact HV]. apply fair_demands. }
    clear Hi. induction HV as [|v vs V HV IH]; cbn [map]; constructor; [|exact IH]. clear IH HV vs.
    destruct V as (P & B & Q & S). unfold view_orders. change (@flt E) with R in *.
    set (b := v_base v : R) in *. set (q := v_quote v : R) in *. set (p := v_price v : R) in *.
    assert (PV : 0 < b * p + q) by nra.
    rewrite exact_orders by exact PV. cbv zeta. set (al := alpha c : R) in *. set (ep := epsilon c : R) in *.
    assert (MK : forall sd x, 0 < x -> well_formed (@market_order E sd x)).
    { intros sd x Hx. exists MARKET, sd, 0, (@BaseAmount E x). constructor; auto. }
    assert (LM : forall sd x l, 0 < x -> 0 < l -> well_formed (@limit_order E sd x l)).
    { intros sd x l Hx Hl. exists LIMIT, sd, l, (@BaseAmount E x). constructor; auto. }
    destruct (Rlt_bool_spec (al * (1 + ep)) (base_share b q p)) as [K1|K1].
    { apply (share_gt b q p) in K1; [|exact PV]. constructor; [|constructor]. apply MK. apply Rdiv_lt_0_compat; [|exact P].
      assert (0 < al * ep * (b * p + q)) by (apply Rmult_lt_0_compat; [nra|exact PV]). nra. }
    destruct (Rlt_bool_spec (base_share b q p) (al * (1 - ep))) as [K2|K2].
    { apply (share_lt b q p) in K2; [|exact PV]. constructor; [|constructor]. apply MK. apply Rdiv_lt_0_compat; [|exact P].
      assert (0 < al * ep * (b * p + q)) by (apply Rmult_lt_0_compat; [nra|exact PV]). nra. }
    destruct (Rlt_bool_spec (1 / 1000000) b) as [K3|]; [|constructor].
    destruct (Rlt_bool_spec (1 / 1000000) q) as [K4|]; [|constructor]. cbn [andb].
    apply Forall_app. split.
    - destruct (Rlt_bool_spec (al * (1 + ep)) 1); [|constructor].
      destruct (Rlt_bool_spec p (al * (1 + ep) * q / (1 - al * (1 + ep)))); [|constructor]. cbn [andb].
      destruct (Rlt_bool_spec (al * (1 + ep) * q / (1 - al * (1 + ep))) (100 * p)); constructor; [|constructor]. apply LM; [apply Rdiv_lt_0_compat; nra|lra].
    - destruct (Rlt_bool_spec (al * (1 - ep) * q / (1 - al * (1 - ep))) p); [|constructor]. cbn [andb].
      destruct (Rlt_bool_spec (p / 100) (al * (1 - ep) * q / (1 - al * (1 - ep)))); constructor; [|constructor]. apply LM; [apply Rdiv_lt_0_compat; nra|lra].
  Qed.
End Exact.
