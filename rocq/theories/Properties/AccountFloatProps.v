(** C85, C86, C87: the account in single precision. *)
From Coq Require Import Reals ZArith Bool List Lra Lia.
From Flocq Require Import Core BinarySingleNaN.
From Verif.Model Require Import Outcome Machine Types Account MachineIEEE.
From Verif.Spec Require Import AccountSpec AccountIEEESpec OrderSpec SetupSpec FloatTradeSpec.
From Verif.Proofs Require Import Base FloatLemmas FloatErr AccountAny AccountIEEE AccountErr AccountBook AccountTrade.
From Verif.Properties Require Import AccountProps.
Import ListNotations.
Local Open Scope R_scope.

Section Props.
  Context (lm : libm) (as_ : bool).
  Local Notation I := (ieee lm as_).

  Lemma ok_order_asks (o : @order I) : ok_order o -> exists ty sd p am, asks o ty sd p am.
  Proof. intros [ty sd p am H1 H2 H3 H4 H5]. exists ty, sd, p, am. constructor; assumption. Qed.

  (** The rule that carries out an order, with the account's range as hypothesis. *)
  Lemma step c o t a a' : ok_config c -> ok_settings a -> bounded40 a -> float_whole a -> ok_tick t -> ok_order o ->
    @ExecuteOrder I c o t a = Done (true, a') ->
    exists tr, carried_out c o t a tr /\ booked_float a tr a' /\
      (forall nb nq nf, has_units a -> holds a nb nq nf -> few_units a -> few_units a' ->
         exists kb kq kf, unit_trade a tr kb kq kf /\
           holds a' (nb + base_change (tr_side tr) kb) (nq + quote_change (tr_side tr) kq - kf) (nf + kf)).
  Proof.
    intros Hc Hs Hb Hw Ht Ho HE. destruct (ok_order_asks o Ho) as (ty & sd & p & am & Ha).
    destruct (order_trades c o t a a' ty sd p am Hc Hs Hb Hw Ht Ha HE) as (tr & T1 & T2 & T3 & T4 & T5 & T6 & T7 & T8).
    exists tr. split; [|split; [exact T6|rewrite T1; exact T8]]. constructor. exists ty, p, am. rewrite T1.
    split; [exact Ha|]. split; [exact T4|]. split; [|split; assumption]. split; [|exact T3].
    set (V := ideal_price _ ty sd (B2R p) t) in *. apply Rabs_le.
    assert (E : bpow radix2 (-22) = 4 * eps) by (unfold eps; change (-22)%Z with (2 + -24)%Z; rewrite bpow_plus; reflexivity). rewrite E. lra.
  Qed.

  (** ** C85 A trade in single precision follows the rules of the exchange to one part in a million *)
  Theorem C85_trade c o t (a a' : @account I) :
    ok_config c -> ok_settings a -> balances_ok a -> not_exceeded a -> float_whole a -> ok_tick t -> ok_order o ->
    @ExecuteOrder I c o t a = Done (true, a') ->
    exists tr, carried_out c o t a tr /\ booked_float a tr a'.
  Proof.
    intros Hc Hs Hb Hn Hw Ht Ho HE. destruct (step c o t a a' Hc Hs (bounded_of a Hb Hn) Hw Ht Ho HE) as (tr & H1 & H2 & _). eauto.
  Qed.

  (** The execution price lies within the tick's range, up to the error. *)
  Theorem C85_price_range c o t (a : @account I) tr :
    ok_settings a -> ok_tick t -> carried_out c o t a tr ->
    let e := bpow radix2 (-22) in
    (match tr_side tr with BUY => B2R (low t : f32) * (1 - e) <= tr_price tr | SELL => tr_price tr <= B2R (high t : f32) * (1 + e) end) /\
    (o_type o <> Some LIMIT -> B2R (low t : f32) * (1 - e) <= tr_price tr <= B2R (high t : f32) * (1 + e)).
  Proof.
    intros Hs Ht [(ty & p & am & Ha & Htr & [Hp HL] & _)]. cbv zeta. destruct (os_liquidity _ Hs) as [_ Hl].
    destruct Ht as [Ho Hh Hlo _ _ LO OH]. destruct Ho as [_ Ho], Hh as [_ Hh], Hlo as [_ Hlo]. pose proof (bpow_gt_0 radix2 (-26)) as P26.
    set (L := B2R (market_liquidity a : f32)) in *. set (O := B2R (open t : f32)) in *. set (Hi := B2R (high t : f32)) in *. set (Lo := B2R (low t : f32)) in *.
    set (e := bpow radix2 (-22)) in *. assert (Pe : 0 < e < 1) by (unfold e; change 1 with (bpow radix2 0); split; [apply bpow_gt_0|apply bpow_lt; lia]).
    set (V := ideal_price L ty (tr_side tr) (B2R p) t) in *.
    assert (Hmix : forall x y lo hi, lo <= x <= hi -> lo <= y <= hi -> lo <= between L x y <= hi).
    { intros x y lo hi Hx Hy. unfold between. split; nra. }
    assert (HV : o_type o <> Some LIMIT -> Lo <= V <= Hi).
    { intros HN. unfold V, ideal_price. fold O Hi Lo. destruct ty.
      - destruct (tr_side tr); apply Hmix; lra.
      - cbn [ftriggered] in Htr. unfold ftriggered in Htr. fold Hi Lo in Htr. destruct (tr_side tr); apply Hmix; try lra;
          unfold Rmax, Rmin; destruct (Rle_dec _ _); lra.
      - destruct Ha as [E _ _ _ _]. congruence. }
    assert (G : o_type o <> Some LIMIT -> Lo * (1 - e) <= tr_price tr <= Hi * (1 + e)).
    { intros HN. specialize (HV HN). apply Rabs_le_inv in Hp. split; nra. }
    split; [|exact G]. destruct Ha as [E _ _ _ _]. rewrite E in G. destruct ty; try (destruct (tr_side tr); apply G; discriminate).
    rewrite (HL eq_refl). unfold ftriggered in Htr. fold Hi Lo in Htr. destruct (tr_side tr); nra.
  Qed.

  (** ** C86 The numbers of units are booked exactly *)
  Lemma few_bounded (a : @account I) : ok_settings a -> balances_ok a -> few_units a -> bounded40 a.
  Proof.
    intros [[_ Hbu] [_ Hqu] _ _] ([F1 P1] & [F2 P2] & [F3 P3]) (L1 & L2 & L3).
    assert (G : forall u : f32, (B2R u = 0 \/ bpow radix2 (-30) <= B2R u <= bpow radix2 20) -> bpow radix2 20 * B2R u <= bpow radix2 40).
    { intros u [->|H]; [rewrite Rmult_0_r; apply bpow_ge_0|]. change 40%Z with (20 + 20)%Z. rewrite bpow_plus. apply Rmult_le_compat_l; [apply bpow_ge_0|apply H]. }
    pose proof (G _ Hbu). pose proof (G _ Hqu). repeat split; auto; lra.
  Qed.

  (** One order: the numbers of units held change by those of the trade, exactly. *)
  Theorem C86_order c o t (a a' : @account I) nb nq nf :
    ok_config c -> ok_settings a -> has_units a -> balances_ok a -> float_whole a -> ok_tick t -> ok_order o ->
    few_units a -> few_units a' -> holds a nb nq nf ->
    @ExecuteOrder I c o t a = Done (true, a') ->
    exists tr kb kq kf, carried_out c o t a tr /\ unit_trade a tr kb kq kf /\
      holds a' (nb + base_change (tr_side tr) kb) (nq + quote_change (tr_side tr) kq - kf) (nf + kf).
  Proof.
    intros Hc Hs Hu Hb Hw Ht Ho Hf Hf' HH HE.
    destruct (step c o t a a' Hc Hs (few_bounded a Hs Hb Hf) Hw Ht Ho HE) as (tr & H1 & _ & H2).
    destruct (H2 nb nq nf Hu HH Hf Hf') as (kb & kq & kf & K1 & K2). exists tr, kb, kq, kf. auto.
  Qed.

  Theorem C86_sequence (c : @account_config I) l (a a' : @account I) nb nq nf :
    ok_config c -> ok_settings a -> has_units a -> balances_ok a -> float_whole a ->
    Forall (fun ot => ok_order (fst ot) /\ ok_tick (snd ot)) l ->
    (forall l1 l2 a1, l = l1 ++ l2 -> exec_all (@ExecuteOrder I c) a l1 = Done a1 -> few_units a1) ->
    holds a nb nq nf -> exec_all (@ExecuteOrder I c) a l = Done a' ->
    exists ks, unit_ledger (@ExecuteOrder I c) c a l ks a' /\
      holds a' (nb + sum_Z entry_base ks) (nq + sum_Z entry_quote ks) (nf + sum_Z entry_fee ks).
  Proof.
    intros Hc. revert a nb nq nf. induction l as [|[o t] l IH]; intros a nb nq nf Hs Hu Hb Hw Hl Hfew HH HE.
    - injection HE as <-. exists []. split; [constructor|]. cbn. rewrite !Z.add_0_r. exact HH.
    - apply Forall_cons_iff in Hl as [[Ho Ht] Hl]. cbn [fst snd] in Ho, Ht.
      assert (F0 : few_units a) by (apply (Hfew [] ((o, t) :: l)); reflexivity).
      pose proof (few_bounded a Hs Hb F0) as Hb40.
      destruct (ExecuteOrder_good c o t a Hc Hs Hb40 Ht Ho) as (ok & a1 & E1 & Hb1 & _).
      destruct (ExecuteOrder_all c o t a ok a1 E1) as [Hrej Hss].
      unfold exec_all in HE. cbn [foldM fst snd] in HE. rewrite E1 in HE. cbn [bind snd] in HE.
      assert (Hfew1 : forall l1 l2 a2, l = l1 ++ l2 -> exec_all (@ExecuteOrder I c) a1 l1 = Done a2 -> few_units a2).
      { intros l1 l2 a2 -> E2. apply (Hfew ((o, t) :: l1) l2); auto. unfold exec_all in *. cbn [foldM fst snd]. rewrite E1. cbn [bind snd]. exact E2. }
      pose proof (ok_settings_same a a1 Hss Hs) as Hs1.
      assert (Hu1 : has_units a1) by (destruct Hss as (S1 & S2 & _), Hu; split; congruence || (rewrite ?S1, ?S2; assumption)).
      pose proof (ExecuteOrder_whole c o t a ok a1 Hs E1 Hb1 Hw) as Hw1.
      destruct ok.
      + assert (F1 : few_units a1) by (apply (Hfew1 [] l); reflexivity).
        destruct (C86_order c o t a a1 nb nq nf Hc Hs Hu Hb Hw Ht Ho F0 F1 HH E1) as (tr & kb & kq & kf & K1 & K2 & K3).
        destruct (IH a1 _ _ _ Hs1 Hu1 Hb1 Hw1 Hl Hfew1 K3 HE) as (ks & K4 & K5).
        exists ((tr_side tr, (kb, kq, kf)) :: ks). split; [exact (ul_traded _ c a o t tr kb kq kf a1 l ks a' E1 K1 K2 K4)|].
        unfold sum_Z in *. cbn [fold_right entry_base entry_quote entry_fee].
        replace (nb + (base_change (tr_side tr) kb + fold_right (fun k s => entry_base k + s) 0 ks))%Z
          with (nb + base_change (tr_side tr) kb + fold_right (fun k s => entry_base k + s) 0 ks)%Z by ring.
        replace (nq + (quote_change (tr_side tr) kq - kf + fold_right (fun k s => entry_quote k + s) 0 ks))%Z
          with (nq + quote_change (tr_side tr) kq - kf + fold_right (fun k s => entry_quote k + s) 0 ks)%Z by ring.
        replace (nf + (kf + fold_right (fun k s => entry_fee k + s) 0 ks))%Z
          with (nf + kf + fold_right (fun k s => entry_fee k + s) 0 ks)%Z by ring. exact K5.
      + rewrite (Hrej eq_refl) in *. destruct (IH a nb nq nf Hs Hu Hb Hw Hl Hfew1 HH HE) as (ks & K4 & K5).
        exists ks. split; [exact (ul_rejected _ c a o t l ks a' E1 K4)|exact K5].
  Qed.

  (** Base and quote units are conserved: what the account gives up in one currency (fees
      included) is what the trades moved. *)
  Theorem C86_fees_accounted (c : @account_config I) l (a a' : @account I) nb nq nf :
    ok_config c -> ok_settings a -> has_units a -> balances_ok a -> float_whole a ->
    Forall (fun ot => ok_order (fst ot) /\ ok_tick (snd ot)) l ->
    (forall l1 l2 a1, l = l1 ++ l2 -> exec_all (@ExecuteOrder I c) a l1 = Done a1 -> few_units a1) ->
    holds a nb nq nf -> exec_all (@ExecuteOrder I c) a l = Done a' ->
    exists ks nb' nq' nf', unit_ledger (@ExecuteOrder I c) c a l ks a' /\ holds a' nb' nq' nf' /\
      (nq' + nf' - (nq + nf) = sum_Z (fun k => let '(sd, (kb, kq, kf)) := k in quote_change sd kq) ks)%Z /\ (nf <= nf')%Z.
  Proof.
    intros Hc Hs Hu Hb Hw Hl Hfew HH HE. destruct (C86_sequence c l a a' nb nq nf Hc Hs Hu Hb Hw Hl Hfew HH HE) as (ks & K1 & K2).
    exists ks, (nb + sum_Z entry_base ks)%Z, (nq + sum_Z entry_quote ks)%Z, (nf + sum_Z entry_fee ks)%Z. split; [exact K1|]. split; [exact K2|].
    clear - K1. induction K1 as [a|a o t l ks a' E K IH|a o t tr kb kq kf a1 l ks a' E C U K IH]; auto.
    - cbn. lia.
    - destruct U as [_ _ _ U1 U2 U3]. unfold sum_Z in *. cbn [fold_right entry_quote entry_fee] in *. lia.
  Qed.

  (** ** C87 Trading creates no value (fees included) beyond one part in a million of the trade *)
  Theorem C87_value c o t (a : @account I) tr kb kq kf nb nq nf :
    ok_settings a -> has_units a -> ok_tick t -> carried_out c o t a tr -> unit_trade a tr kb kq kf ->
    let p := tr_price tr in let u := B2R (quote_unit a : f32) in let e := 2 * tol (tr_base tr * p + u) in
    let before := units_value a p nb nq nf in
    let after := units_value a p (nb + base_change (tr_side tr) kb) (nq + quote_change (tr_side tr) kq - kf) (nf + kf) in
    before - u - e <= after <= before + e.
  Proof.
    intros Hs (PB & PQ) Ht [(ty & pr & am & Ha & Htr & [Hpr HL] & Hfair & _)] [(b & Ub & Eb) (q & Uq & Eq) (f & Uf & Ef) Nb Nq Nf].
    pose proof Hs as [Hbu Hqu Hl _]. destruct Hfair as [_ Pb Tq _ _].
    assert (PV : 0 <= tr_price tr).
    { apply Rabs_le_inv in Hpr. set (V := ideal_price _ ty (tr_side tr) (B2R pr) t) in *.
      assert (0 <= V).
      { destruct (os_liquidity _ Hs) as [_ L]. destruct Ht as [[_ H1] [_ H2] [_ H3] _ _ _ _]. pose proof (bpow_gt_0 radix2 (-26)) as P26.
        assert (G : forall x y, 0 <= x -> 0 <= y -> 0 <= between (B2R (market_liquidity a : f32)) x y) by (intros; unfold between; nra).
        assert (Hpp : ty = MARKET \/ 0 <= B2R pr) by (destruct Ha as [_ _ _ _ [->|[_ [_ Hp]]]]; [auto|right; lra]).
        unfold V, ideal_price. destruct ty; [| |destruct Hpp; [discriminate|destruct (tr_side tr); assumption]];
          destruct (tr_side tr); apply G; try lra; (destruct Hpp; [discriminate|]); unfold Rmax, Rmin; destruct (Rle_dec _ _); lra. }
      assert (bpow radix2 (-22) <= 1) by (change 1 with (bpow radix2 0); apply bpow_le; lia). nra. }
    assert (Pq : 0 <= B2R q).
    { apply (proj1 (nearest_rnd _ _)) in Uq. destruct Uq as [_ ->]. apply rnd_nonneg. apply Rmult_le_pos; [lra|apply (IZR_le 0); exact Nq]. }
    rewrite Eb in Pb.
    destruct (units_near _ _ _ Hbu PB Ub Pb) as (_ & _ & Kb). destruct (units_near _ _ _ Hqu PQ Uq Pq) as (_ & _ & Kq).
    cbv zeta. unfold units_value. rewrite tol_val. rewrite Eb, Eq in *. set (p := tr_price tr) in *.
    set (WB := B2R (base_unit a : f32)) in *. set (WQ := B2R (quote_unit a : f32)) in *.
    rewrite minus_IZR, !plus_IZR.
    assert (Lp : p <= bpow radix2 28).
    { apply Rabs_le_inv in Hpr. set (V := ideal_price _ ty (tr_side tr) (B2R pr) t) in *.
      assert (V <= bpow radix2 27).
      { destruct (os_liquidity _ Hs) as [_ L]. destruct Ht as [[_ H1] [_ H2] [_ H3] _ _ _ _].
        assert (E27 : bpow radix2 27 = 2 * bpow radix2 26) by (change 27%Z with (1 + 26)%Z; rewrite bpow_plus; reflexivity).
        pose proof (bpow_gt_0 radix2 26) as P26.
        assert (G : forall x y, x <= bpow radix2 26 -> y <= bpow radix2 26 -> between (B2R (market_liquidity a : f32)) x y <= bpow radix2 27) by (intros; unfold between; nra).
        assert (Hpp : ty = MARKET \/ B2R pr <= bpow radix2 26) by (destruct Ha as [_ _ _ _ [->|[_ [_ Hp]]]]; [auto|right; lra]).
        unfold V, ideal_price. destruct ty; [| |destruct Hpp; [discriminate|destruct (tr_side tr); lra]];
          destruct (tr_side tr); apply G; try lra; (destruct Hpp; [discriminate|]); unfold Rmax, Rmin; destruct (Rle_dec _ _); lra. }
      assert (E28 : bpow radix2 28 = 2 * bpow radix2 27) by (change 28%Z with (1 + 27)%Z; rewrite bpow_plus; reflexivity).
      pose proof (bpow_gt_0 radix2 27). assert (0 < bpow radix2 (-22) < 1) by (change 1 with (bpow radix2 0); split; [apply bpow_gt_0|apply bpow_lt; lia]). nra. }
    assert (Hep : eta * p <= bpow radix2 (-122)).
    { pose proof eta_pos. apply Rle_trans with (eta * bpow radix2 28); [apply Rmult_le_compat_l; lra|]. unfold eta. rewrite <- bpow_plus. apply bpow_le. lia. }
    assert (H122 : bpow radix2 (-122) * 1048576 <= bpow radix2 (-100)) by (change 1048576 with (bpow radix2 20); rewrite <- bpow_plus; apply bpow_le; lia).
    assert (KbP : B2R b * p - (17 / 16 * eps * (B2R b * p) + 17 / 16 * (eta * p)) <= WB * IZR kb * p <= B2R b * p + (17 / 16 * eps * (B2R b * p) + 17 / 16 * (eta * p))).
    { split; [apply Rle_trans with ((B2R b - (17 / 16 * eps * B2R b + 17 / 16 * eta)) * p)|apply Rle_trans with ((B2R b + (17 / 16 * eps * B2R b + 17 / 16 * eta)) * p)];
        try (right; ring); apply Rmult_le_compat_r; lra. }
    assert (PbP : 0 <= B2R b * p) by (apply Rmult_le_pos; assumption).
    pose proof eta_pos as He. pose proof eta_100 as H100. pose proof (bpow_gt_0 radix2 (-122)) as P122.
    assert (PeP : 0 <= eta * p) by (apply Rmult_le_pos; lra).
    unfold about_up, about_down in Tq. rewrite tol_val in Tq.
    set (X := B2R b * p) in *. set (Y := WB * IZR kb * p) in *. set (eP := eta * p) in *. set (Z_ := WQ * IZR kq) in *.
    destruct (tr_side tr); cbn [base_change quote_change]; rewrite ?opp_IZR; rewrite ?Rmult_plus_distr_r, ?Rmult_plus_distr_l, ?Rmult_minus_distr_l.
    - assert (EZ : WQ * (IZR nq + - IZR kq - IZR kf) = WQ * IZR nq - Z_ - WQ * IZR kf) by (unfold Z_; ring).
      assert (EY : WB * IZR kb * p = Y) by reflexivity. rewrite ?EZ, ?EY. unfold Z_ in *. rewrite eps_val in *. split; lra.
    - assert (EY : WB * (IZR nb + - IZR kb) * p = WB * IZR nb * p - Y) by (unfold Y; ring). rewrite ?EY. unfold Z_, Y in *. rewrite eps_val in *. split; lra.
  Qed.
End Props.

(** The hypotheses are met by the order sequence of AccountProps: 10 base and 1000 quote units;
    a market order buys 2 base at 100 (fee 1), a limit order sells 3 base at 108 (fee 1). *)
Section Example.
  Context (lm : libm) (as_ : bool).
  Local Notation I := (ieee lm as_).
  Local Notation n := (@n lm as_).
  Local Notation fx_config := (@fx_config lm as_).
  Local Notation fx_tick := (@fx_tick lm as_).
  Local Notation fx_buy := (@fx_buy lm as_).
  Local Notation fx_sell := (@fx_sell lm as_).

  Lemma n_units (x : f32) z : (0 <= z <= 2 ^ 20)%Z -> B2SF x = B2SF (n z) ->
    x = n z /\ units (n 1) z x /\ float_units (n 1) x /\ B2R x <= bpow radix2 20 * B2R (n 1 : f32).
  Proof.
    intros Hz E. apply B2SF_inj in E. destruct (ofZ_finite z ltac:(lia)) as [F V]. destruct (ofZ_finite 1 ltac:(lia)) as [F1 V1]. fold (n z) in F, V. fold (n 1) in F1, V1.
    assert (P : IZR 0 <= IZR z <= IZR (2 ^ 20)) by (split; apply IZR_le; lia).
    assert (G : generic_format radix2 fexp32 (IZR z)) by (rewrite <- V; apply generic_format_B2R).
    split; [exact E|]. rewrite E. split; [|split].
    - apply nearest_rnd. split; [exact F|]. change (@flt I) with f32 in *. rewrite V1, V, Rmult_1_l. symmetry. apply round_generic; [exact _|exact G].
    - right. exists (n z). split; [exact F|]. split; [exists z; exact V|]. symmetry. change (@flt I) with f32 in *.
      pose proof (Bmult_correct 24 128 _ _ mode_NE (n 1) (n z)) as H. cbn [round_mode] in H. rewrite V1, V, Rmult_1_l in H.
      assert (NO : Rabs (IZR z) <= bpow radix2 20) by (rewrite Rabs_pos_eq by lra; change (bpow radix2 20) with (IZR (2 ^ 20)); lra).
      rewrite (no_overflow _ 20) in H by (lia || exact NO).
      rewrite round_generic in H by (try exact _; exact G). destruct H as (HR & HF & HS). rewrite F1, F in HF.
      apply B2R_Bsign_inj; auto; [congruence|]. destruct (Bmult mode_NE (n 1) (n z)) eqn:EB; try discriminate HF; rewrite (HS eq_refl); change (Bsign (n 1)) with false; apply xorb_false_l.
    - change (@flt I) with f32 in *. rewrite V1, V. change (bpow radix2 20) with (IZR (2 ^ 20)). lra.
  Qed.

  Lemma known (a : @account I) b q f : (0 <= b <= 2 ^ 20)%Z -> (0 <= q <= 2 ^ 20)%Z -> (0 <= f <= 2 ^ 20)%Z ->
    base_unit a = n 1 -> quote_unit a = n 1 ->
    (B2SF (base_balance a : f32), B2SF (quote_balance a : f32), B2SF (total_fee a : f32)) = (B2SF (n b), B2SF (n q), B2SF (n f)) ->
    holds a b q f /\ few_units a /\ float_whole a.
  Proof.
    intros Hb Hq Hf U1 U2 E. injection E as E1 E2 E3.
    destruct (n_units _ b Hb E1) as (_ & B1 & B2 & B3). destruct (n_units _ q Hq E2) as (_ & Q1 & Q2 & Q3). destruct (n_units _ f Hf E3) as (_ & F1 & F2 & F3).
    unfold holds, few_units, float_whole. rewrite U1, U2. repeat split; auto; try apply B1; try apply Q1; try apply F1.
  Qed.

  Lemma C86_ex :
    let l := [(fx_buy, fx_tick); (fx_sell, fx_tick)] in
    let a := @InitAccount I fx_config in
    ok_config fx_config /\ ok_settings a /\ has_units a /\ balances_ok a /\ float_whole a /\
    Forall (fun ot => ok_order (fst ot) /\ ok_tick (snd ot)) l /\
    (forall l1 l2 a1, l = l1 ++ l2 -> exec_all (@ExecuteOrder I fx_config) a l1 = Done a1 -> few_units a1) /\
    holds a 10 1000 0 /\
    (exists a', exec_all (@ExecuteOrder I fx_config) a l = Done a' /\ holds a' 9 1122 2).
  Proof.
    cbv zeta. destruct (ieee_hypotheses_met lm as_) as (H1 & H2 & H3 & H4 & _ & a' & H6 & E1 & E2 & E3).
    assert (K0 : holds (@InitAccount I fx_config) 10 1000 0 /\ few_units (@InitAccount I fx_config) /\ float_whole (@InitAccount I fx_config)).
    { apply known; try lia; reflexivity. }
    assert (KU : forall l a1, exec_all (@ExecuteOrder I fx_config) (@InitAccount I fx_config) l = Done a1 -> base_unit a1 = n 1 /\ quote_unit a1 = n 1).
    { intros l. assert (G : forall l a a1, exec_all (@ExecuteOrder I fx_config) a l = Done a1 -> base_unit a1 = base_unit a /\ quote_unit a1 = quote_unit a).
      { clear. induction l as [|[o t] l IH]; intros a a1 H; [injection H as <-; auto|].
        unfold exec_all in H. cbn [foldM fst snd] in H. apply bind_done in H as (a2 & H2 & H). apply bind_done in H2 as ([ok a3] & H3 & H4). injection H4 as <-.
        destruct (ExecuteOrder_all _ _ _ _ _ _ H3) as (_ & S1 & S2 & _). destruct (IH a3 a1 H) as [S3 S4]. cbn [snd] in *. split; congruence. }
      intros a1 H. exact (G l _ _ H). }
    assert (Kend : holds a' 9 1122 2 /\ few_units a' /\ float_whole a').
    { destruct (KU _ _ H6) as [U1 U2]. apply known; try lia; auto. congruence. }
    split; [exact H1|]. split; [exact H2|]. split.
    { split; cbn [InitAccount base_unit quote_unit fx_config cfg_base_unit cfg_quote_unit]; unfold n; rewrite (proj2 (ofZ_finite 1 ltac:(lia))); lra. }
    split; [exact H3|]. split; [apply K0|]. split; [exact H4|]. split; [|split; [apply K0|exists a'; split; [exact H6|apply Kend]]].
    intros l1 l2 a1 El H. destruct l1 as [|x1 l1]; [injection H as <-; apply K0|].
    injection El as <- El. destruct l1 as [|x2 l1].
    - assert (E : bind (exec_all (@ExecuteOrder I fx_config) (@InitAccount I fx_config) [(fx_buy, fx_tick)])
                    (fun a => Done (B2SF (base_balance a : f32), B2SF (quote_balance a : f32), B2SF (total_fee a : f32)))
                  = Done (B2SF (n 12), B2SF (n 799), B2SF (n 1))).
      { clear; destruct as_; vm_compute; reflexivity. }
      rewrite H in E. cbn [bind] in E. destruct (KU _ _ H) as [U1 U2]. apply (known a1 12 799 1); try lia; auto. congruence.
    - injection El as <- El. destruct l1; [|discriminate]. rewrite H6 in H. injection H as <-. apply Kend.
  Qed.
End Example.

Print Assumptions C85_trade.
Print Assumptions C86_sequence.
Print Assumptions C87_value.
