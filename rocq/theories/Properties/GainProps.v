(** C125: no run gains more than perfect foresight would on its fills. *)
From Coq Require Import Reals ZArith List Lra Lia Bool.
From Verif.Model Require Import Outcome Machine Types Account SideInput MachineR Eval.
From Verif.Model Require Traders.
From Verif.Spec Require Import SeriesSpec AccountSpec OrderSpec RunSpec TraderSpec ProgressSpec LedgerSpec GainSpec.
From Verif.Proofs Require Import Base AccountExact RunProofs LedgerProofs.
From Verif.Properties Require Import LedgerProps.
From Verif.Properties Require ProgressProps.
Import ListNotations.
Local Open Scope R_scope.

Lemma rise_ge1 p q : 1 <= rise p q.
Proof. apply Rmax_l. Qed.
Lemma rises_ge1 qs : forall p, 1 <= rises p qs.
Proof.
  induction qs as [|q qs IH]; intros p; cbn [rises]; [lra|].
  pose proof (rise_ge1 p q). specialize (IH q). nra.
Qed.

(** A portfolio without debts gains at most the rise. *)
Lemma portfolio_rise b c p q : 0 <= b -> 0 <= c -> 0 < p -> b * q + c <= (b * p + c) * rise p q.
Proof.
  intros Hb Hc Hp. pose proof (rise_ge1 p q). assert (H1 : q / p <= rise p q) by apply Rmax_r.
  assert (q = q / p * p) by (field; lra). assert (q <= rise p q * p) by nra.
  assert (b * q <= b * (rise p q * p)) by (apply Rmult_le_compat_l; assumption). nra.
Qed.

Lemma rises_detour p q qs : 0 < p -> 0 < q -> rises p qs <= rise p q * rises q qs.
Proof.
  intros Hp Hq. destruct qs as [|r qs]; cbn [rises]; [pose proof (rise_ge1 p q); lra|].
  rewrite <- Rmult_assoc. apply Rmult_le_compat_r; [pose proof (rises_ge1 qs r); lra|].
  pose proof (rise_ge1 p q). pose proof (rise_ge1 q r).
  assert (A : q / p <= rise p q) by apply Rmax_r. assert (B : r / q <= rise q r) by apply Rmax_r.
  unfold rise at 1. apply Rmax_lub; [nra|].
  destruct (Rle_dec 0 r).
  - replace (r / p) with (q / p * (r / q)) by (field; lra).
    assert (0 < q / p) by (apply Rdiv_lt_0_compat; lra). assert (0 <= r / q) by (apply Rmult_le_pos; [lra|apply Rlt_le, Rinv_0_lt_compat, Hq]).
    apply Rmult_le_compat; lra.
  - assert (r / p <= 0). { unfold Rdiv. pose proof (Rinv_0_lt_compat p Hp). nra. } nra.
Qed.

Lemma Rle_div_l_easy a b : 0 < b -> a <= b -> a / b <= 1.
Proof. intros Hb H. replace 1 with (b / b) by (field; lra). unfold Rdiv. apply Rmult_le_compat_r; [apply Rlt_le, Rinv_0_lt_compat, Hb|exact H]. Qed.

(** Two steps together rise by no more than the range allows. *)
Lemma two_rises lo hi p q r : 0 < lo -> lo <= p <= hi -> lo <= q <= hi -> lo <= r <= hi ->
  rise p q * rise q r <= hi / lo.
Proof.
  intros Hl Hp Hq Hr.
  assert (D : forall x y, lo <= x <= hi -> lo <= y <= hi -> y / x <= hi / lo).
  { intros x y Hx Hy. unfold Rdiv. apply Rmult_le_compat; try lra; [apply Rlt_le, Rinv_0_lt_compat; lra|].
    apply Rinv_le_contravar; lra. }
  assert (O : 1 <= hi / lo). { pose proof (D p p Hp Hp) as X. replace (p / p) with 1 in X by (field; lra). exact X. }
  unfold rise, Rmax. destruct (Rle_dec 1 (q / p)), (Rle_dec 1 (r / q)); rewrite ?Rmult_1_l, ?Rmult_1_r; auto.
  replace (q / p * (r / q)) with (r / p) by (field; lra). auto.
Qed.
Lemma one_rise lo hi p q : 0 < lo -> lo <= p <= hi -> lo <= q <= hi -> rise p q <= hi / lo.
Proof.
  intros Hl Hp Hq. pose proof (two_rises lo hi p q q Hl Hp Hq Hq). pose proof (rise_ge1 p q). pose proof (rise_ge1 q q). nra.
Qed.

Lemma rises_range lo hi : 0 < lo -> forall k qs p, (length qs <= 2 * k)%nat -> lo <= p <= hi ->
  Forall (fun q => lo <= q <= hi) qs -> rises p qs <= (hi / lo) ^ k.
Proof.
  intros Hl. induction k as [|k IH]; intros qs p Hlen Hp Hqs.
  - destruct qs; [cbn; lra|cbn in Hlen; lia].
  - assert (O : 1 <= hi / lo). { pose proof (one_rise lo hi p p Hl Hp Hp). pose proof (rise_ge1 p p). lra. }
    assert (P : 1 <= (hi / lo) ^ k) by (apply pow_R1_Rle, O).
    destruct qs as [|q [|r qs]]; cbn [rises].
    + cbn [pow]. nra.
    + apply Forall_cons_iff in Hqs as [Hq _]. pose proof (one_rise lo hi p q Hl Hp Hq). cbn [pow]. nra.
    + apply Forall_cons_iff in Hqs as [Hq Hqs]. apply Forall_cons_iff in Hqs as [Hr Hqs].
      pose proof (two_rises lo hi p q r Hl Hp Hq Hr) as X. cbn [length] in Hlen.
      specialize (IH qs r ltac:(lia) Hr Hqs). pose proof (rises_ge1 qs r). cbn [pow].
      rewrite <- Rmult_assoc. pose proof (rise_ge1 p q). pose proof (rise_ge1 q r).
      apply Rmult_le_compat; nra.
Qed.

Section Exact.
  Context (sh : R -> String.string) (as_ : bool).
  Local Notation E := (exact sh as_).

  Definition clamp (e : @entry sh as_) : R :=
    match tr_side (en_trade e) with
    | BUY => Rmin (tr_price (en_trade e)) (high (en_tick e))
    | SELL => Rmax (tr_price (en_trade e)) (low (en_tick e))
    end.

  Lemma clamp_in (e : @entry sh as_) : price_offered e -> sane_tick (en_tick e) -> in_candle (en_tick e) (clamp e).
  Proof.
    intros Hp [T1 T2 T3 T4 T5 T6]. unfold price_offered, in_candle, clamp in *. change (@flt E) with R in *.
    destruct (en_type e), (tr_side (en_trade e)); unfold Rmin, Rmax; try destruct (Rle_dec _ _); lra.
  Qed.

  (** A trade does not raise the value at its clamped price, nor leave debts. *)
  Lemma clamp_value (c : @account_config E) (a : @account E) (e : @entry sh as_) (a1 : @account E) :
    sane_config c -> 0 <= (@quote_unit E a : R) -> 0 <= (@base_balance E a : R) -> 0 <= (@quote_balance E a : R) ->
    fair_trade (fees_of c (en_type e)) a (en_trade e) -> booked a (en_trade e) a1 ->
    AccountSpec.value a1 (clamp e) + tr_fee (en_trade e) <= AccountSpec.value a (clamp e) /\
    0 <= tr_fee (en_trade e) /\ (total_fee a1 : R) = total_fee a + tr_fee (en_trade e) /\
    0 <= (quote_unit a1 : R) /\ 0 <= (base_balance a1 : R) /\ 0 <= (quote_balance a1 : R).
  Proof.
    intros Hc Hu B Q [F1 F2 F3 F4 F5 F6] (Hb & Hf & _ & U & _). unfold AccountSpec.value.
    assert (N : 0 <= tr_fee (en_trade e)) by (eapply (fee_nonneg sh as_); [|exact Hu|exact F5]; destruct Hc, (en_type e); assumption).
    assert (U' : 0 <= (quote_unit a1 : R)) by (rewrite U; exact Hu).
    unfold clamp. change (@flt E) with R in *. set (b := tr_base (en_trade e)) in *. set (pr := tr_price (en_trade e)) in *.
    set (q := tr_quote (en_trade e)) in *. set (f := tr_fee (en_trade e)) in *.
    destruct (tr_side (en_trade e)); destruct Hb as [-> ->]; destruct F4 as [_ F4].
    - pose proof (Rmin_l pr (high (en_tick e))) as M. apply (Rmult_le_compat_l b) in M; [|exact F3].
      split; [destruct (Req_EM_T (quote_unit a) 0); lra|]. repeat split; try assumption; lra.
    - pose proof (Rmax_l pr (low (en_tick e))) as M. apply (Rmult_le_compat_l b) in M; [|exact F3].
      split; [destruct (Req_EM_T (quote_unit a) 0); lra|]. repeat split; try assumption; lra.
  Qed.

  Lemma ledger_gain (c : @account_config E) (a : @account E) es (a' : @account E) : sane_config c -> ledger c a es a' ->
    0 <= (@quote_unit E a : R) -> 0 <= (@base_balance E a : R) -> 0 <= (@quote_balance E a : R) ->
    Forall (fun e => price_offered e /\ sane_tick (en_tick e)) es ->
    forall p pe, 0 < p ->
      AccountSpec.value a' pe + (total_fee a' - total_fee a) <= AccountSpec.value a p * rises p (map clamp es ++ [pe]).
  Proof.
    intros Hc H. induction H as [a|a e a1 es a2 Hf Hb _ _ _ IH]; intros Hu B Q HF p pe Hp.
    - cbn [map app rises]. rewrite Rmult_1_r. unfold AccountSpec.value.
      pose proof (portfolio_rise (base_balance a) (quote_balance a) p pe B Q Hp). change (@flt E) with R in *. lra.
    - apply Forall_cons_iff in HF as [[He Ht] HF].
      destruct (clamp_value c a e a1 Hc Hu B Q Hf Hb) as (V & N & T & Hu1 & B1 & Q1).
      pose proof (clamp_in e He Ht) as [K1 _]. destruct Ht as [T1 T2 T3 T4 T5 T6]. change (@flt E) with R in *.
      specialize (IH Hu1 B1 Q1 HF (clamp e) pe ltac:(lra)). cbn [map app rises].
      pose proof (portfolio_rise (base_balance a) (quote_balance a) p (clamp e) B Q Hp) as G.
      unfold AccountSpec.value in *. change (@flt E) with R in *.
      pose proof (rises_ge1 (map clamp es ++ [pe]) (clamp e)) as S. set (X := rises (clamp e) (map clamp es ++ [pe])) in *.
      rewrite <- Rmult_assoc. rewrite T in IH.
      assert (Y : (base_balance a * clamp e + quote_balance a) * X <= (base_balance a * p + quote_balance a) * rise p (clamp e) * X)
        by (apply Rmult_le_compat_r; lra).
      assert (Z : (base_balance a1 * clamp e + quote_balance a1 + tr_fee (en_trade e)) * X <= (base_balance a * clamp e + quote_balance a) * X)
        by (apply Rmult_le_compat_r; lra).
      assert (tr_fee (en_trade e) * 1 <= tr_fee (en_trade e) * X) by (apply Rmult_le_compat_l; lra).
      lra.
  Qed.

  Lemma ledger_offered (c : @account_config E) (a : @account E) es (a' : @account E) : ledger c a es a' -> Forall price_offered es.
  Proof. induction 1; constructor; assumption. Qed.

  Lemma ordered_in ticks (es : list (@entry sh as_)) : in_tick_order ticks es -> Forall (fun e => In (en_tick e) ticks) es.
  Proof.
    intros (parts & -> & F). induction F as [|t part ticks parts Hp _ IH]; cbn [concat]; [constructor|].
    apply Forall_app. split; [eapply Forall_impl; [|exact Hp]; intros e ->; left; reflexivity|].
    eapply Forall_impl; [|exact IH]. intros e He. right. exact He.
  Qed.

  (** C125: what a run ends with, the fees it paid included, is at most what perfect
      foresight of its own fills would have made of what it started with. *)
  Theorem C125_foresight (cfg : @account_config E) hist s fast te lg hl ticks first l res l' :
    side_matches hist s -> (hist = None \/ time_ordered ticks) -> hd_error ticks = Some first ->
    sane_config cfg -> sane_account (opening_account cfg) -> Forall sane_tick ticks ->
    (as_ = true \/ careful te) ->
    ExecuteTrader cfg s fast te lg hl ticks l = Done (res, l') ->
    exists books final qs,
      ledger cfg (opening_account cfg) books final /\
      in_tick_order ticks books /\
      Z.of_nat (length books) = r_total_executed_orders res /\
      Forall2 (fun e q => in_candle (en_tick e) q) books qs /\
      (r_end_value res : R) + r_total_fee res
        <= r_start_value res * rises (r_start_price res) (qs ++ [r_end_price res : R]).
  Proof.
    intros Hs Ho Hf Hc Ha Ht Hw H.
    destruct (run_story_volatility cfg hist s fast te lg hl Hs ticks first l res l' Ho Hf H) as (rows & S0 & R0 & _).
    destruct (story_ledger sh as_ cfg hist te ticks rows Hc Ha Ht Hw S0) as (es & L & S1 & Hlen & Hin & _ & Hord).
    destruct R0 as (_ & _ & _ & _ & Q5 & Q6 & Q7 & Q8 & Q9 & Q10).
    exists es, (final_account cfg rows), (map clamp es).
    assert (F : Forall (fun e => price_offered e /\ sane_tick (en_tick e)) es).
    { pose proof (ledger_offered cfg _ _ _ L) as P. rewrite Forall_forall in *. intros e He. split; [apply P, He|]. apply Ht, Hin, He. }
    split; [exact L|]. split; [exact Hord|]. split; [rewrite Q9; exact Hlen|]. split.
    - clear - F. induction F as [|e es [P S] _ IH]; constructor; [apply clamp_in; assumption|exact IH].
    - assert (Hp : 0 < (close first : R)).
      { destruct ticks as [|t0 ts]; [discriminate|]. injection Hf as ->. inversion Ht as [|? ? [T1 T2 T3 T4 T5 T6] _]; subst.
        change (@flt E) with R in *. lra. }
      pose proof (ledger_gain cfg _ es _ Hc L (sa_quote_unit _ Ha) (sa_base _ Ha) (sa_quote _ Ha) F (close first) (close (List.last ticks first)) Hp) as G.
      rewrite Q5, Q6, Q7, Q8, Q10. unfold AccountSpec.value in G.
      cbn [opening_account base_balance quote_balance total_fee fofZ exact fadd fmul] in *. change (@flt E) with R in *.
      cbn in G. lra.
  Qed.

  (** C125: with n executed orders in a price range [lo, hi] the run gains at most a factor
      (hi / lo)^(1 + n / 2). *)
  Theorem C125_range (cfg : @account_config E) hist s fast te lg hl ticks first l res l' lo hi :
    side_matches hist s -> (hist = None \/ time_ordered ticks) -> hd_error ticks = Some first ->
    sane_config cfg -> sane_account (opening_account cfg) -> Forall sane_tick ticks ->
    (as_ = true \/ careful te) -> 0 < lo -> Forall (inside lo hi) ticks ->
    ExecuteTrader cfg s fast te lg hl ticks l = Done (res, l') ->
    (r_end_value res : R) + r_total_fee res
      <= r_start_value res * (hi / lo) ^ (1 + Z.to_nat (r_total_executed_orders res) / 2).
  Proof.
    intros Hs Ho Hf Hc Ha Ht Hw Hlo Hr H.
    destruct (C125_foresight cfg hist s fast te lg hl ticks first l res l' Hs Ho Hf Hc Ha Ht Hw H)
      as (books & final & qs & _ & Hord & Hn & F2 & G).
    assert (Hin : Forall (fun e => In (en_tick e) ticks) books) by (apply ordered_in, Hord).
    destruct (run_story_volatility cfg hist s fast te lg hl Hs ticks first l res l' Ho Hf H) as (rows & _ & R0 & _).
    destruct R0 as (_ & _ & _ & _ & Q5 & Q6 & Q7 & Q8 & _ & _).
    assert (C : forall t, In t ticks -> lo <= (close t : R) <= hi).
    { intros t Hi. rewrite Forall_forall in Ht, Hr. destruct (Ht t Hi) as [T1 T2 T3 T4 T5 T6]. destruct (Hr t Hi) as [R1 R2].
      change (@flt E) with R in *. lra. }
    assert (C1 : In first ticks) by (destruct ticks as [|t0 ts]; [discriminate|injection Hf as ->; left; reflexivity]).
    assert (C2 : In (List.last ticks first) ticks).
    { destruct ticks as [|t0 ts]; [destruct C1|]. injection Hf as ->. clear. generalize first at 1 3.
      induction ts as [|t ts IH]; intros x; [left; reflexivity|right; apply (IH t)]. }
    eapply Rle_trans; [exact G|]. apply Rmult_le_compat_l.
    - destruct (C _ C1) as [X _]. pose proof (sa_base _ Ha) as B. pose proof (sa_quote _ Ha) as Q. rewrite Q7.
      cbn [opening_account base_balance quote_balance fadd fmul exact] in *. change (@flt E) with R in *.
      assert (0 <= start_base_balance cfg * close first) by (apply Rmult_le_pos; [exact B|lra]). lra.
    - rewrite Q5, Q6. apply rises_range; [exact Hlo| |apply C, C1|].
      + rewrite app_length. cbn [length]. assert (E1 : length qs = length books).
        { clear - F2. induction F2; cbn; congruence. }
        rewrite E1, <- Hn, Nat2Z.id. pose proof (Nat.div_mod (length books) 2 ltac:(lia)) as D.
        pose proof (Nat.mod_upper_bound (length books) 2 ltac:(lia)). lia.
      + apply Forall_app. split; [|constructor; [apply C, C2|constructor]].
        clear - F2 Hin Hr. rewrite Forall_forall in Hr. induction F2 as [|e q es qs [K1 K2] _ IH]; [constructor|].
        apply Forall_cons_iff in Hin as [H1 H2]. destruct (Hr _ H1) as [R1 R2]. change (@flt E) with R in *.
        constructor; [lra|apply IH, H2].
  Qed.

  (** Fills in still candles: the path through them is no better than that of the closes. *)
  Lemma path_closes ticks (es : list (@entry sh as_)) qs : in_tick_order ticks es ->
    Forall2 (fun e q => in_candle (en_tick e) q) es qs -> Forall still ticks -> Forall sane_tick ticks ->
    forall p pe, 0 < p -> rises p (qs ++ [pe]) <= rises p (map (fun t : @ohlc_tick E => close t : R) ticks ++ [pe]).
  Proof.
    intros (parts & -> & F). revert qs. induction F as [|t part ticks parts Hp _ IH]; intros qs F2 Hs Ht p pe Pp.
    - cbn [concat] in F2. inversion F2; subst. cbn [map app]. lra.
    - apply Forall_cons_iff in Hs as [(_ & S2 & S3) Hs]. apply Forall_cons_iff in Ht as [[T1 T2 T3 T4 T5 T6] Ht].
      cbn [concat] in F2. apply Forall2_app_inv_l in F2 as (q1 & q2 & F1 & F2 & ->).
      assert (Q : Forall (fun q => q = (close t : R)) q1).
      { clear - F1 Hp S2 S3. induction F1 as [|e q es qs K _ IH1]; [constructor|].
        apply Forall_cons_iff in Hp as [Ee Hp]. constructor; [|apply IH1, Hp].
        unfold in_candle in K. rewrite Ee in K. change (@flt E) with R in *. lra. }
      cbn [map app]. change (@flt E) with R in *. assert (Pc : 0 < close t) by lra. clear T1 T2 T3 T4 T5 T6 S2 S3.
      assert (B : forall x, 0 < x -> rises x (q2 ++ [pe]) <= rises x (map (fun t : @ohlc_tick E => close t : R) ticks ++ [pe]))
        by (intros x Hx; apply IH; assumption).
      destruct q1 as [|q q1].
      + cbn [app]. eapply Rle_trans; [apply B, Pp|]. apply rises_detour; [exact Pp|exact Pc].
      + apply Forall_cons_iff in Q as [-> Q]. cbn [app rises].
        assert (H1 : forall l, Forall (fun q => q = close t) l -> rises (close t) ((l ++ q2) ++ [pe]) = rises (close t) (q2 ++ [pe])).
        { clear - Pc. intros l H. induction H as [|x l -> _ IHl]; [reflexivity|]. cbn [app rises]. rewrite IHl.
          unfold rise. replace (close t / close t) with 1 by (field; lra). unfold Rmax. destruct (Rle_dec 1 1); lra. }
        apply Rmult_le_compat_l; [pose proof (rise_ge1 p (close t)); lra|]. eapply Rle_trans; [apply Req_le, (H1 q1 Q)|apply B, Pc].
  Qed.

  (** C125: where the price only moves between the candles, no run gains more than
      perfect foresight of the closing prices ... *)
  Theorem C125_closes (cfg : @account_config E) hist s fast te lg hl ticks first l res l' :
    side_matches hist s -> (hist = None \/ time_ordered ticks) -> hd_error ticks = Some first ->
    sane_config cfg -> sane_account (opening_account cfg) -> Forall sane_tick ticks ->
    (as_ = true \/ careful te) -> Forall still ticks ->
    ExecuteTrader cfg s fast te lg hl ticks l = Done (res, l') ->
    (r_end_value res : R) + r_total_fee res
      <= r_start_value res * rises (close first) (map (fun t : @ohlc_tick E => close t : R) ticks).
  Proof.
    intros Hs Ho Hf Hc Ha Ht Hw Hst H.
    destruct (C125_foresight cfg hist s fast te lg hl ticks first l res l' Hs Ho Hf Hc Ha Ht Hw H)
      as (books & final & qs & _ & Hord & _ & F2 & G).
    destruct (run_story_volatility cfg hist s fast te lg hl Hs ticks first l res l' Ho Hf H) as (rows & _ & R0 & _).
    destruct R0 as (_ & _ & _ & _ & Q5 & Q6 & Q7 & _ & _ & _).
    assert (Pf : 0 < (close first : R)).
    { destruct ticks as [|t0 ts]; [discriminate|]. injection Hf as ->. inversion Ht as [|? ? [T1 T2 T3 T4 T5 T6] _]; subst.
      change (@flt E) with R in *. lra. }
    eapply Rle_trans; [exact G|]. apply Rmult_le_compat_l.
    - pose proof (sa_base _ Ha) as B. pose proof (sa_quote _ Ha) as Q. rewrite Q7.
      cbn [opening_account base_balance quote_balance fadd fmul exact] in *. change (@flt E) with R in *.
      assert (0 <= start_base_balance cfg * close first) by (apply Rmult_le_pos; [exact B|lra]). lra.
    - rewrite Q5, Q6. eapply Rle_trans; [apply (path_closes ticks books qs Hord F2 Hst Ht _ _ Pf)|].
      assert (X : forall ts (d : @ohlc_tick E) p, Forall sane_tick ts -> (ts <> [] \/ (close d : R) = p) -> 0 < p ->
        rises p (map (fun t : @ohlc_tick E => close t : R) ts ++ [close (List.last ts d) : R]) <= rises p (map (fun t : @ohlc_tick E => close t : R) ts)).
      { induction ts as [|t ts IH]; intros d p Hts Hd Pp.
        - cbn [map app rises List.last]. destruct Hd as [Hd| ->]; [contradiction|].
          unfold rise. replace (p / p) with 1 by (field; lra). unfold Rmax. destruct (Rle_dec 1 1); lra.
        - apply Forall_cons_iff in Hts as [[T1 T2 T3 T4 T5 T6] Hts]. cbn [map app rises].
          change (@flt E) with R in *. apply Rmult_le_compat_l; [pose proof (rise_ge1 p (close t)); lra|].
          destruct ts as [|t1 ts].
          + cbn [map app rises List.last]. unfold rise. replace (close t / close t) with 1 by (field; lra). unfold Rmax. destruct (Rle_dec 1 1); lra.
          + change (List.last (t :: t1 :: ts) d) with (List.last (t1 :: ts) d). apply IH; [exact Hts|left; discriminate|lra]. }
      apply X; [exact Ht|left; intros ->; discriminate|exact Pf].
  Qed.

  (** ... and where the price only falls, no run gains at all. *)
  Theorem C125_falling (cfg : @account_config E) hist s fast te lg hl ticks first l res l' :
    side_matches hist s -> (hist = None \/ time_ordered ticks) -> hd_error ticks = Some first ->
    sane_config cfg -> sane_account (opening_account cfg) -> Forall sane_tick ticks ->
    (as_ = true \/ careful te) -> Forall still ticks ->
    (forall i j t u, (i < j)%nat -> nth_error ticks i = Some t -> nth_error ticks j = Some u -> (close u : R) <= close t) ->
    ExecuteTrader cfg s fast te lg hl ticks l = Done (res, l') ->
    (r_end_value res : R) + r_total_fee res <= r_start_value res.
  Proof.
    intros Hs Ho Hf Hc Ha Ht Hw Hst Hfall H.
    pose proof (C125_closes cfg hist s fast te lg hl ticks first l res l' Hs Ho Hf Hc Ha Ht Hw Hst H) as G.
    assert (X : forall ts (d : @ohlc_tick E), Forall sane_tick (d :: ts) ->
      (forall i j t u, (i < j)%nat -> nth_error (d :: ts) i = Some t -> nth_error (d :: ts) j = Some u -> (close u : R) <= close t) ->
      rises (close d) (map (fun t : @ohlc_tick E => close t : R) ts) = 1).
    { induction ts as [|t ts IH]; intros d Hts Hd; [reflexivity|]. cbn [map rises].
      apply Forall_cons_iff in Hts as [[T1 T2 T3 T4 T5 T6] Hts]. rewrite (IH t Hts).
      - pose proof (Hd 0%nat 1%nat d t ltac:(lia) eq_refl eq_refl) as K. change (@flt E) with R in *.
        unfold rise, Rmax. assert (0 < close d) by lra. destruct (Rle_dec 1 (close t / close d)); [|lra].
        assert (close t / close d <= 1) by (apply Rle_div_l_easy; lra). lra.
      - intros i j u v Hij Hi Hj. apply (Hd (S i) (S j) u v ltac:(lia) Hi Hj). }
    destruct ticks as [|t0 ts]; [discriminate|]. injection Hf as ->. cbn [map rises] in G.
    rewrite (X ts first Ht Hfall) in G. inversion Ht as [|? ? [T1 T2 T3 T4 T5 T6] _]; subst.
    change (@flt E) with R in *. unfold rise in G. replace (close first / close first) with 1 in G by (field; lra).
    unfold Rmax in G. destruct (Rle_dec 1 1); lra.
  Qed.
End Exact.

(** The hypotheses are met: every factory trader on a market that halves and doubles. *)
Section Example.
  Context (sh : R -> String.string).
  Local Notation E := (exact sh true).
  Local Notation px_config := (ProgressProps.px_config sh true).
  Local Notation px_ticks := (ProgressProps.px_ticks sh true).

  Lemma C125_ex name te lg hl fast l : @Traders.GetTrader E name = Done te ->
    exists res l', ExecuteTrader px_config None fast te lg hl px_ticks l = Done (res, l') /\
      (r_end_value res : R) + r_total_fee res <= 205 * (12 / 5) ^ (1 + Z.to_nat (r_total_executed_orders res) / 2).
  Proof.
    intros H. destruct (ProgressProps.px_runs sh true name te lg hl fast l H) as (res & l' & H1).
    destruct (ProgressProps.px_market sh true) as [Ho Ht]. destruct (ProgressProps.px_solvent sh true) as [S1 S2 _ _ _].
    exists res, l'. split; [exact H1|].
    assert (I1 : Forall (inside 50 120) px_ticks)
      by (repeat apply Forall_cons; try apply Forall_nil; unfold inside; cbn; lra).
    pose proof (C125_range sh true px_config None None fast te lg hl px_ticks _ l res l' 50 120 Logic.I (or_introl eq_refl) eq_refl S1 S2 Ht (or_introl eq_refl) ltac:(lra) I1 H1) as G.
    destruct (run_story_volatility px_config None None fast te lg hl Logic.I px_ticks _ l res l' (or_introl eq_refl) eq_refl H1) as (rows & _ & R0 & _).
    destruct R0 as (_ & _ & _ & _ & _ & _ & Q7 & _). replace (12 / 5) with (120 / 50) by lra.
    replace 205 with (r_start_value res : R); [exact G|]. rewrite Q7. cbn. lra.
  Qed.

  Definition gx (a b c : R) : list (@ohlc_tick E) :=
    map (fun x => ProgressProps.px_tick sh true (fst x) (snd x) (snd x) (snd x) (snd x) 10) [(60%Z, a); (120%Z, b); (86520%Z, c)].
  Lemma gx_market a b c : 0 < a -> 0 < b -> 0 < c ->
    strictly_ordered (gx a b c) /\ Forall sane_tick (gx a b c) /\ Forall still (gx a b c).
  Proof.
    intros A B C. split; [|split].
    - split.
      + intros t [<-|[<-|[<-|[]]]]; cbn; lia.
      + intros i j t t' H1 H2 L. destruct i as [|[|[|i]]], j as [|[|[|j]]]; cbn in H1, H2; try lia; try discriminate; try (destruct i; discriminate); try (destruct j; discriminate);
          injection H1 as <-; injection H2 as <-; cbn; lia.
    - repeat apply Forall_cons; try apply Forall_nil; constructor; cbn; lra.
    - repeat apply Forall_cons; try apply Forall_nil; repeat split.
  Qed.

  (** Closes 8, 6, 9: 108 becomes at most 162.  Closes 9, 8, 6: no gain. *)
  Lemma C125_closes_ex name te lg hl fast l : @Traders.GetTrader E name = Done te ->
    (exists res l', ExecuteTrader px_config None fast te lg hl (gx 8 6 9) l = Done (res, l') /\
       (r_end_value res : R) + r_total_fee res <= 162) /\
    (exists res l', ExecuteTrader px_config None fast te lg hl (gx 9 8 6) l = Done (res, l') /\
       (r_end_value res : R) + r_total_fee res <= r_start_value res).
  Proof.
    intros H. destruct (ProgressProps.px_solvent sh true) as [S1 S2 S3 S4 S5]. split.
    - destruct (gx_market 8 6 9) as (Ho & Ht & Hs); [lra..|].
      destruct (ProgressProps.C79_programs sh true name te px_config None None lg hl fast (gx 8 6 9) l (or_introl H) (ProgressProps.px_solvent sh true) Logic.I Ho Ht) as (res & l' & H1).
      exists res, l'. split; [exact H1|].
      pose proof (C125_closes sh true px_config None None fast te lg hl (gx 8 6 9) _ l res l' Logic.I (or_introl eq_refl) eq_refl S1 S2 Ht (or_introl eq_refl) Hs H1) as G.
      destruct (run_story_volatility px_config None None fast te lg hl Logic.I (gx 8 6 9) _ l res l' (or_introl eq_refl) eq_refl H1) as (rows & _ & R0 & _).
      destruct R0 as (_ & _ & _ & _ & _ & _ & Q7 & _). rewrite Q7 in G. cbn in G. change (@flt E) with R in *.
      eapply Rle_trans; [exact G|]. unfold rise, Rmax.
      destruct (Rle_dec 1 (8 / 8)), (Rle_dec 1 (6 / 8)), (Rle_dec 1 (9 / 6)); lra.
    - destruct (gx_market 9 8 6) as (Ho & Ht & Hs); [lra..|].
      destruct (ProgressProps.C79_programs sh true name te px_config None None lg hl fast (gx 9 8 6) l (or_introl H) (ProgressProps.px_solvent sh true) Logic.I Ho Ht) as (res & l' & H1).
      exists res, l'. split; [exact H1|].
      apply (C125_falling sh true px_config None None fast te lg hl (gx 9 8 6) _ l res l' Logic.I (or_introl eq_refl) eq_refl S1 S2 Ht (or_introl eq_refl) Hs); [|exact H1].
      intros i j t u L H2 H3. destruct i as [|[|[|i]]], j as [|[|[|j]]]; cbn in H2, H3; try lia; try discriminate; try (destruct i; discriminate); try (destruct j; discriminate);
        injection H2 as <-; injection H3 as <-; cbn; lra.
  Qed.
End Example.
