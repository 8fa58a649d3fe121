(** C75 - C76: the books of a run balance; the reported volatilities. *)
From Coq Require Import Reals ZArith List Lra Lia Bool.
From Flocq.Core Require Raux.
From Verif.Model Require Import Outcome Machine Types Account SideInput Indicators MachineR Eval.
From Verif.Spec Require Import SeriesSpec AccountSpec OrderSpec RunSpec IndicatorSpec LedgerSpec.
From Verif.Proofs Require Import Base AccountExact RunProofs LedgerProofs VolProofs.
From Verif.Proofs Require EvalProofs.
From Verif.Properties Require Import IndicatorProps.
Import ListNotations.

(** ** C76 The reported volatilities: any arithmetic *)
Section Any.
  Context {M : machine}.

  Definition returns_deviation (xs : list balance_update) : flt :=
    mv_GetStandardDeviation
      (fold_left mv_AddNewValue (map (fun ab => flog (fdiv (fst ab) (snd ab))) (value_steps kSecondsPerDay xs)) (NewMeanVar 0)).

  Lemma updates_ticks {S} (f : row S -> balance_update) (rows : list (row S)) :
    (forall r, bu_tick (f r) = w_tick r) ->
    map bu_tick (flat_map (fun r => match w_update r with None => [] | Some _ => [f r] end) rows)
    = map w_tick (filter (fun r => match w_update r with None => false | Some _ => true end) rows).
  Proof.
    intros Hf. induction rows as [|r rows IH]; [reflexivity|]. cbn [flat_map filter].
    destruct (w_update r); [|exact IH]. cbn [app map]. rewrite Hf, IH. reflexivity.
  Qed.

  Lemma updates_ordered {S} (rows : list (row S)) ticks g : map w_tick rows = ticks -> time_ordered ticks ->
    ordered timestamp_sec (map w_tick (filter g rows)).
  Proof.
    intros <- H. 
    assert (K : ordered (fun r => timestamp_sec (w_tick r)) rows).
    { intros i j r r' Hi Hj L. apply (H i j); [rewrite nth_error_map, Hi; reflexivity|rewrite nth_error_map, Hj; reflexivity|exact L]. }
    apply (EvalProofs.ordered_filter _ g) in K. intros i j t t' Hi Hj L. rewrite nth_error_map in Hi, Hj.
    destruct (nth_error (filter g rows) i) as [r|] eqn:Ei; [|discriminate]. destruct (nth_error (filter g rows) j) as [r'|] eqn:Ej; [|discriminate].
    injection Hi as <-. injection Hj as <-. exact (K i j r r' Ei Ej L).
  Qed.

  Lemma market_ordered {S} (rows : list (row S)) ticks : map w_tick rows = ticks -> time_ordered ticks ->
    ordered timestamp_sec (map bu_tick (market_updates rows)).
  Proof.
    intros Hm Ho. unfold market_updates.
    rewrite (updates_ticks (fun r : row S => BalanceUpdate (w_tick r) (fofZ 1) (fofZ 0))) by reflexivity. eapply updates_ordered; eassumption.
  Qed.
  Lemma portfolio_ordered {S} (rows : list (row S)) ticks : map w_tick rows = ticks -> time_ordered ticks ->
    ordered timestamp_sec (map bu_tick (portfolio_updates rows)).
  Proof.
    intros Hm Ho. unfold portfolio_updates.
    rewrite (updates_ticks (fun r : row S => BalanceUpdate (w_tick r) (base_balance (account_after r)) (quote_balance (account_after r)))) by reflexivity.
    eapply updates_ordered; eassumption.
  Qed.

  Theorem C76_reported cfg h s te lg hl ticks first l res l' :
    side_matches h s -> time_ordered ticks -> hd_error ticks = Some first ->
    ExecuteTrader cfg s false te lg hl ticks l = Done (res, l') ->
    exists rows, story cfg h te ticks rows /\ result_of cfg first (List.last ticks first) rows res /\
      r_base_volatility res = Some (annualize (returns_deviation (market_updates rows))) /\
      r_trader_volatility res = Some (annualize (returns_deviation (portfolio_updates rows))).
  Proof.
    intros Hs Ho Hf H.
    destruct (run_story_volatility cfg h s false te lg hl Hs ticks first l res l' (or_intror Ho) Hf H)
      as (rows & S0 & R0 & bv & tv & (v0 & N0 & F1) & (v1 & N1 & F2) & E1 & E2).
    exists rows. split; [exact S0|]. split; [exact R0|].
    assert (K : forall xs v v0, ordered timestamp_sec (map bu_tick xs) -> NewVolatility 0 kSecondsPerDay = Done v0 ->
      foldM (fun s x => vol_Update kSecondsPerDay s (bu_tick x) (bu_base x) (bu_quote x)) v0 xs = Done v ->
      vol_Get v = returns_deviation xs).
    { intros xs v w Hox Hn Hfold. destruct (C51_volatility_values 0 kSecondsPerDay xs ltac:(reflexivity) Hox) as (s0 & sv & N & F & G & _).
      rewrite Hn in N. injection N as <-. rewrite Hfold in F. injection F as <-. exact G. }
    destruct S0 as [Hm _].
    rewrite E1, E2, (K _ _ _ (market_ordered rows ticks Hm Ho) N0 F1), (K _ _ _ (portfolio_ordered rows ticks Hm Ho) N1 F2).
    split; reflexivity.
  Qed.

  Theorem C76_fast cfg s te lg hl ticks l res l' :
    ticks <> [] -> ExecuteTrader cfg s true te lg hl ticks l = Done (res, l') ->
    r_base_volatility res = None /\ r_trader_volatility res = None.
  Proof.
    intros Hne H. destruct ticks as [|t ts]; [contradiction|]. unfold ExecuteTrader in H.
    apply bind_done in H as (s0 & _ & H). apply bind_done in H as (s1 & _ & H). injection H as <- _. split; reflexivity.
  Qed.
End Any.

Section Exact.
  Context (sh : R -> String.string) (as_ : bool).
  Local Notation E := (exact sh as_).
  Local Open Scope R_scope.

  (** ** C75 The books of a run *)
  Theorem C75_books (cfg : @account_config E) hist s fast te lg hl ticks first l res l' :
    side_matches hist s -> (hist = None \/ time_ordered ticks) -> hd_error ticks = Some first ->
    sane_config cfg -> sane_account (opening_account cfg) -> Forall sane_tick ticks ->
    (as_ = true \/ careful te) ->
    ExecuteTrader cfg s fast te lg hl ticks l = Done (res, l') ->
    exists books final,
      ledger cfg (opening_account cfg) books final /\
      Forall (fun e => In (en_tick e) ticks) books /\
      in_tick_order ticks books /\
      Z.of_nat (length books) = r_total_executed_orders res /\
      (r_end_base_balance res : R) = r_start_base_balance res + total base_change books /\
      (r_end_quote_balance res : R) = r_start_quote_balance res + total quote_change books - total tr_fee books /\
      (r_total_fee res : R) = total tr_fee books /\
      Forall (fun e => 0 <= tr_fee (en_trade e)) books /\
      0 <= (r_end_base_balance res : R) /\ 0 <= (r_end_quote_balance res : R) /\
      whole_units (cfg_base_unit cfg) (r_end_base_balance res) /\
      whole_units (cfg_quote_unit cfg) (r_end_quote_balance res) /\
      whole_units (cfg_quote_unit cfg) (r_total_fee res).
  Proof.
    intros Hs Ho Hf Hc Ha Ht Hw H.
    destruct (run_story_volatility cfg hist s fast te lg hl Hs ticks first l res l' Ho Hf H) as (rows & S0 & R0 & _).
    destruct (story_ledger sh as_ cfg hist te ticks rows Hc Ha Ht Hw S0) as (es & L & S1 & Hlen & Hin & _ & Hord).
    destruct R0 as (Q1 & Q2 & Q3 & Q4 & _ & _ & _ & _ & Q9 & Q10).
    exists es, (final_account cfg rows). split; [exact L|]. split; [exact Hin|]. split; [exact Hord|]. split; [rewrite Q9; exact Hlen|].
    destruct (ledger_totals sh as_ cfg _ es _ L) as (T1 & T2 & T3). cbn [opening_account base_balance quote_balance total_fee fofZ exact] in T1, T2, T3.
    rewrite Q1, Q2, Q3, Q4, Q10.
    split; [exact T1|]. split; [exact T2|]. split; [change (@flt E) with R in *; cbn in T3; lra|].
    split; [eapply ledger_fees; [exact Hc|apply (sa_quote_unit _ Ha)|exact L]|].
    destruct S1 as [_ _ B1 B2 W1 W2 W3 _ _].
    assert (U : forall a es a', ledger cfg a es a' -> base_unit a' = base_unit a /\ quote_unit a' = quote_unit a).
    { clear. intros a es a' H. induction H as [a|a e a1 es a2 _ Hb _ _ _ IH]; [auto|]. destruct Hb as (_ & _ & U1 & U2 & _). destruct IH. split; congruence. }
    destruct (U _ _ _ L) as [U1 U2]. rewrite U1 in W1. rewrite U2 in W2, W3. cbn [opening_account base_unit quote_unit] in W1, W2, W3.
    auto 10.
  Qed.

  (** Where the price does not move nobody gains: the value lost is at least the fees paid. *)
  Theorem C75_flat_market (cfg : @account_config E) hist s fast te lg hl ticks first l res l' p :
    side_matches hist s -> (hist = None \/ time_ordered ticks) -> hd_error ticks = Some first ->
    sane_config cfg -> sane_account (opening_account cfg) -> Forall sane_tick ticks ->
    (as_ = true \/ careful te) -> Forall (flat_at p) ticks ->
    ExecuteTrader cfg s fast te lg hl ticks l = Done (res, l') ->
    (r_end_value res : R) + r_total_fee res <= r_start_value res /\ r_end_price res = r_start_price res /\
    0 <= (r_total_fee res : R).
  Proof.
    intros Hs Ho Hf Hc Ha Ht Hw Hflat H.
    destruct (run_story_volatility cfg hist s fast te lg hl Hs ticks first l res l' Ho Hf H) as (rows & S0 & R0 & _).
    destruct (story_ledger sh as_ cfg hist te ticks rows Hc Ha Ht Hw S0) as (es & L & S1 & _ & Hin & _).
    destruct R0 as (_ & _ & _ & _ & Q5 & Q6 & Q7 & Q8 & _ & Q10).
    rewrite Q5, Q6, Q7, Q8, Q10.
    assert (F : Forall (fun e => flat_at p (en_tick e)) es).
    { eapply Forall_impl; [|exact Hin]. intros e He. rewrite Forall_forall in Hflat. apply Hflat, He. }
    pose proof (ledger_flat sh as_ cfg _ es _ p (sa_quote_unit _ Ha) L F) as V.
    assert (C1 : (close first : R) = p /\ (close (List.last ticks first) : R) = p).
    { rewrite Forall_forall in Hflat. destruct ticks as [|t0 ts]; [discriminate|]. injection Hf as ->.
      split; [apply (Hflat first); left; reflexivity|]. apply (Hflat (List.last (first :: ts) first)).
      clear. generalize first at 1 3. induction ts as [|t ts IH]; intros x; [left; reflexivity|right; apply (IH t)]. }
    destruct C1 as [C1 C2]. unfold AccountSpec.value in V.
    pose proof (ledger_fees sh as_ cfg _ es _ Hc (sa_quote_unit _ Ha) L) as FN.
    destruct (ledger_totals sh as_ cfg _ es _ L) as (_ & _ & T3).
    assert (0 <= total tr_fee es).
    { clear - FN. induction FN; unfold total in *; cbn [fold_right]; lra. }
    cbn [opening_account base_balance quote_balance total_fee fofZ exact fadd fmul] in *. change (@flt E) with R in *.
    cbn in V, T3. rewrite C1, C2. split; [lra|]. split; [reflexivity|]. rewrite T3. lra.
  Qed.

  (** With positive units an account that owns something goes on owning something. *)
  Lemma ledger_owns (c : @account_config E) (a : @account E) es (a' : @account E) :
    0 < (base_unit a : R) -> 0 < (quote_unit a : R) -> 0 <= (base_balance a : R) -> 0 <= (quote_balance a : R) ->
    0 < (base_balance a : R) + quote_balance a -> ledger c a es a' -> sane_config c ->
    0 < (base_balance a' : R) + quote_balance a'.
  Proof.
    intros Hb Hq B Q P L Hc. induction L as [a|a e a1 es a2 [F1 F2 F3 F4 F5 F6] K _ _ _ IH]; [exact P|].
    destruct K as (K & _ & U1 & U2 & _). change (@flt E) with R in *.
    assert (0 <= tr_fee (en_trade e)) by (eapply (fee_nonneg sh as_); [|apply Rlt_le, Hq|exact F5]; destruct Hc, (en_type e); assumption).
    destruct (tr_side (en_trade e)); destruct K as [K1 K2]; apply IH; rewrite ?U1, ?U2, ?K1, ?K2; try assumption; try lra;
      destruct F4 as [_ F4]; destruct (Req_EM_T (quote_unit a) 0); try lra.
  Qed.

  (** The deviation of the logarithmic daily returns. *)
  Definition daily_deviation (xs : list (@balance_update E)) : R :=
    sqrt (variance (map (fun step => ln (snd step / fst step)) (@value_steps E kSecondsPerDay xs))).

  Theorem C76_exact (cfg : @account_config E) hist s te lg hl ticks first l res l' :
    side_matches hist s -> time_ordered ticks -> hd_error ticks = Some first ->
    sane_config cfg -> sane_account (opening_account cfg) -> Forall sane_tick ticks ->
    (as_ = true \/ careful te) ->
    0 < (cfg_base_unit cfg : R) -> 0 < (cfg_quote_unit cfg : R) ->
    0 < (start_base_balance cfg : R) + start_quote_balance cfg ->
    (exists t, In t ticks /\ (volume t : R) <> 0) ->
    ExecuteTrader cfg s false te lg hl ticks l = Done (res, l') ->
    exists rows, story cfg hist te ticks rows /\ result_of cfg first (List.last ticks first) rows res /\
      r_base_volatility res = Some (daily_deviation (market_updates rows) * sqrt 365) /\
      r_trader_volatility res = Some (daily_deviation (portfolio_updates rows) * sqrt 365).
  Proof.
    intros Hs Ho Hf Hc Ha Ht Hw Hbu Hqu Hown Hv H.
    destruct (run_story_volatility cfg hist s false te lg hl Hs ticks first l res l' (or_intror Ho) Hf H)
      as (rows & S0 & R0 & bv & tv & (v0 & N0 & F1) & (v1 & N1 & F2) & E1 & E2).
    exists rows. split; [exact S0|]. split; [exact R0|].
    assert (K : forall (xs : list (@balance_update E)) (v v0 : @volatility E), xs <> [] -> ordered timestamp_sec (map bu_tick xs) ->
      (forall x, In x xs -> 0 < (open (bu_tick x) : R) /\ 0 < (close (bu_tick x) : R) /\ 0 <= (bu_base x : R) /\ 0 <= (bu_quote x : R) /\ 0 < (bu_base x : R) + bu_quote x) ->
      NewVolatility 0 kSecondsPerDay = Done v0 ->
      foldM (fun s x => vol_Update kSecondsPerDay s (bu_tick x) (bu_base x) (bu_quote x)) v0 xs = Done v ->
      (vol_Get v : R) = daily_deviation xs).
    { intros xs v w Hne Hox Hx Hn Hfold.
      destruct (C51_volatility sh as_ 0 kSecondsPerDay xs ltac:(lia) ltac:(reflexivity) Hox (C51_positive sh as_ kSecondsPerDay xs ltac:(reflexivity) Hne Hox Hx)) as (s0 & sv & N & F & G).
      rewrite Hn in N. injection N as <-. rewrite Hfold in F. injection F as <-. exact G. }
    pose proof S0 as [Hm Hok].
    assert (Hrow : forall r, In r rows -> 0 < (open (w_tick r) : R) /\ 0 < (close (w_tick r) : R) /\
              0 <= (base_balance (account_after r) : R) /\ 0 <= (quote_balance (account_after r) : R) /\
              0 < (base_balance (account_after r) : R) + quote_balance (account_after r)).
    { intros r Hr. rewrite Forall_forall in Ht. destruct (Ht (w_tick r) ltac:(rewrite <- Hm; apply in_map, Hr)) as [T1 T2 T3 T4 T5 T6].
      change (@flt E) with R in *. split; [lra|]. split; [lra|].
      apply in_split in Hr as (r1 & r2 & ->).
      assert (S1 : story cfg hist te (map w_tick (r1 ++ [r])) (r1 ++ [r])).
      { split; [reflexivity|]. intros b x a Eb. apply (Hok b x (a ++ r2)).
        change (r1 ++ r :: r2) with (r1 ++ [r] ++ r2). rewrite app_assoc, Eb, <- app_assoc. reflexivity. }
      assert (Ht' : Forall sane_tick (map w_tick (r1 ++ [r]))).
      { apply Forall_forall. intros t Hin. apply Ht. rewrite <- Hm.
        change (r1 ++ r :: r2) with (r1 ++ [r] ++ r2). rewrite app_assoc, map_app. apply in_or_app. left. exact Hin. }
      destruct (story_ledger sh as_ cfg hist te _ _ Hc Ha Ht' Hw S1) as (es & L & SA & _).
      rewrite final_account_snoc in L, SA. split; [apply (sa_base _ SA)|]. split; [apply (sa_quote _ SA)|].
      eapply (ledger_owns cfg (opening_account cfg)); [exact Hbu|exact Hqu|apply (sa_base _ Ha)|apply (sa_quote _ Ha)|exact Hown|exact L|exact Hc]. }
    assert (Hup : exists r, In r rows /\ w_update r <> None).
    { destruct Hv as (t & Hin & Hvol). rewrite <- Hm in Hin. apply in_map_iff in Hin as (r & <- & Hr). exists r. split; [exact Hr|].
      apply in_split in Hr as (r1 & r2 & ->). destruct (Hok r1 r r2 eq_refl) as [_ _ _ _ Hu]. intros N. rewrite N in Hu.
      cbn [feqb fofZ exact] in Hu. destruct (Raux.Req_bool_spec (volume (w_tick r)) 0); [contradiction|discriminate]. }
    destruct Hup as (ru & Hru & Hu).
    assert (A : forall v : @flt E, @annualize E v = v * sqrt 365) by reflexivity.
    rewrite E1, E2, !A. split; do 2 f_equal.
    - apply (K _ _ v0); [| |  |exact N0|exact F1].
      + intros N. apply Hu. unfold market_updates in N. destruct (w_update ru) eqn:Eu; [exfalso|reflexivity].
        assert (X : In (@BalanceUpdate E (w_tick ru) (fofZ 1) (fofZ 0)) []); [|destruct X].
        rewrite <- N. apply in_flat_map. exists ru. split; [exact Hru|]. rewrite Eu. left. reflexivity.
      + eapply market_ordered; eassumption.
      + intros x Hx. unfold market_updates in Hx. apply in_flat_map in Hx as (r & Hr & Hx). destruct (w_update r); [|destruct Hx].
        destruct Hx as [<-|[]]. cbn [bu_tick bu_base bu_quote]. destruct (Hrow r Hr) as (X1 & X2 & _). cbn [fofZ exact]. repeat split; auto; lra.
    - apply (K _ _ v1); [| |  |exact N1|exact F2].
      + intros N. apply Hu. unfold portfolio_updates in N. destruct (w_update ru) eqn:Eu; [exfalso|reflexivity].
        assert (X : In (@BalanceUpdate E (w_tick ru) (base_balance (account_after ru)) (quote_balance (account_after ru))) []); [|destruct X].
        rewrite <- N. apply in_flat_map. exists ru. split; [exact Hru|]. rewrite Eu. left. reflexivity.
      + eapply portfolio_ordered; eassumption.
      + intros x Hx. unfold portfolio_updates in Hx. apply in_flat_map in Hx as (r & Hr & Hx). destruct (w_update r); [|destruct Hx].
        destruct Hx as [<-|[]]. cbn [bu_tick bu_base bu_quote]. apply (Hrow r Hr).
  Qed.
End Exact.
