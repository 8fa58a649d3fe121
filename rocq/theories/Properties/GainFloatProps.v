(** C126: in single precision no run gains more than perfect foresight, but for a slack. *)
From Coq Require Import Reals ZArith String Lra Lia Bool.
From Coq Require Import List.
From Flocq Require Import Core BinarySingleNaN.
From Verif.Model Require Import Outcome Machine Types Account SideInput MachineIEEE Eval Traders.
From Verif.Spec Require Import AccountSpec AccountIEEESpec RunSpec SetupSpec FloatTradeSpec TraderSpec ProgressSpec GainSpec GainFloatSpec.
From Verif.Proofs Require Import Base FloatLemmas FloatErr AccountAny AccountIEEE AccountErr AccountBook RunProofs ProgressProofs SteadyFloat.
From Verif.Properties Require Import AccountFloatProps RunProps RunIEEEProps ProgressFloatProps UnitRunProps GainProps.
Import ListNotations.
Local Open Scope R_scope.

(** ** Paths *)
Fixpoint ending (p : R) (qs : list R) : R := match qs with [] => p | q :: qs => ending q qs end.

Lemma rises_app l1 : forall p l2, rises p (l1 ++ l2) = rises p l1 * rises (ending p l1) l2.
Proof.
  induction l1 as [|q l1 IH]; intros p l2; cbn [app rises ending]; [ring|]. rewrite IH. ring.
Qed.
Lemma ending_pos l : forall p, 0 < p -> Forall (fun q => 0 < q) l -> 0 < ending p l.
Proof.
  induction l as [|q l IH]; intros p Hp H; cbn [ending]; [exact Hp|]. apply Forall_cons_iff in H as [H1 H2]. auto.
Qed.
Lemma rise_same p : 0 < p -> rise p p = 1.
Proof. intros H. unfold rise. replace (p / p) with 1 by (field; lra). unfold Rmax. destruct (Rle_dec 1 1); lra. Qed.

(** The wealth with nb, nq and nf units of wb, wq and wq: base, quote, and fees paid. *)
Definition wealth (wb wq p : R) (n : Z * Z * Z) : R :=
  let '(nb, nq, nf) := n in wb * IZR nb * p + wq * IZR nq + wq * IZR nf.

(** From one count to the other no more is gained than along the path, but for the slack. *)
Definition climbs (wb wq : R) (n : Z * Z * Z) (qs : list R) (n' : Z * Z * Z) : Prop :=
  forall p pe, 0 < p -> 0 < pe ->
    wealth wb wq pe n' + wq <= (wealth wb wq p n + wq) * slack ^ length qs * rises p (qs ++ [pe]).

Definition no_debts (n : Z * Z * Z) : Prop := let '(nb, nq, nf) := n in (0 <= nb)%Z /\ (0 <= nq)%Z /\ (0 <= nf)%Z.

Lemma slack_ge1 : 1 <= slack.
Proof. unfold slack. pose proof (bpow_gt_0 radix2 (-17)). lra. Qed.

Lemma wealth_nonneg wb wq p n : 0 <= wb -> 0 <= wq -> 0 <= p -> no_debts n -> 0 <= wealth wb wq p n.
Proof.
  intros Hb Hq Hp. destruct n as [[nb nq] nf]. intros (N1 & N2 & N3). unfold wealth.
  apply (IZR_le 0) in N1, N2, N3.
  assert (0 <= wb * IZR nb * p) by (apply Rmult_le_pos; [apply Rmult_le_pos; assumption|exact Hp]).
  assert (0 <= wq * IZR nq) by (apply Rmult_le_pos; assumption). assert (0 <= wq * IZR nf) by (apply Rmult_le_pos; assumption). lra.
Qed.

Lemma wealth_rise wb wq n p q : 0 <= wb -> 0 <= wq -> 0 < p -> no_debts n ->
  wealth wb wq q n + wq <= (wealth wb wq p n + wq) * rise p q.
Proof.
  intros Hb Hq Hp. destruct n as [[nb nq] nf]. intros (N1 & N2 & N3). unfold wealth. apply (IZR_le 0) in N1, N2, N3.
  pose proof (portfolio_rise (wb * IZR nb) (wq * IZR nq + wq * IZR nf + wq) p q) as K.
  assert (0 <= wb * IZR nb) by (apply Rmult_le_pos; assumption).
  assert (0 <= wq * IZR nq) by (apply Rmult_le_pos; assumption). assert (0 <= wq * IZR nf) by (apply Rmult_le_pos; assumption).
  lra.
Qed.

Lemma climbs_nil wb wq n : 0 <= wb -> 0 <= wq -> no_debts n -> climbs wb wq n [] n.
Proof.
  intros Hb Hq N p pe Hp He. cbn [app rises length pow]. rewrite !Rmult_1_r. apply wealth_rise; assumption.
Qed.

Lemma climbs_cons wb wq n x n1 qs n2 : 0 <= wb -> 0 <= wq -> no_debts n -> 0 < x ->
  wealth wb wq x n1 + wq <= (wealth wb wq x n + wq) * slack -> climbs wb wq n1 qs n2 -> climbs wb wq n (x :: qs) n2.
Proof.
  intros Hb Hq N Hx H C p pe Hp He. specialize (C x pe Hx He). cbn [app rises length pow].
  pose proof (wealth_rise wb wq n p x Hb Hq Hp N) as W. pose proof slack_ge1 as S1.
  assert (SP : 1 <= slack ^ length qs) by (apply pow_R1_Rle, S1).
  pose proof (rises_ge1 (qs ++ [pe]) x) as R1. set (X := rises x (qs ++ [pe])) in *. set (Y := slack ^ length qs) in *.
  eapply Rle_trans; [exact C|].
  apply Rle_trans with ((wealth wb wq p n + wq) * rise p x * slack * Y * X).
  - apply Rmult_le_compat_r; [lra|]. apply Rmult_le_compat_r; [lra|]. eapply Rle_trans; [exact H|]. apply Rmult_le_compat_r; lra.
  - right. ring.
Qed.

Lemma climbs_app wb wq n qs1 n1 qs2 n2 : Forall (fun q => 0 < q) qs1 ->
  climbs wb wq n qs1 n1 -> climbs wb wq n1 qs2 n2 -> climbs wb wq n (qs1 ++ qs2) n2.
Proof.
  intros Hqs C1 C2 p pe Hp He. pose proof (ending_pos qs1 p Hp Hqs) as P'. specialize (C1 p (ending p qs1) Hp P').
  specialize (C2 (ending p qs1) pe P' He). rewrite <- app_assoc, rises_app, app_length, pow_add.
  rewrite rises_app in C1. cbn [rises] in C1. rewrite (rise_same _ P'), !Rmult_1_r in C1.
  pose proof slack_ge1 as S1. assert (SP : 1 <= slack ^ length qs2) by (apply pow_R1_Rle, S1).
  pose proof (rises_ge1 (qs2 ++ [pe]) (ending p qs1)) as R1.
  eapply Rle_trans; [exact C2|].
  apply Rle_trans with ((wealth wb wq p n + wq) * slack ^ length qs1 * rises p qs1 * slack ^ length qs2 * rises (ending p qs1) (qs2 ++ [pe])).
  - apply Rmult_le_compat_r; [lra|]. apply Rmult_le_compat_r; [lra|exact C1].
  - right. ring.
Qed.

Section IEEE.
  Context (lm : libm) (as_ : bool).
  Local Notation I := (ieee lm as_).

  Lemma near_candle_pos (t : @ohlc_tick I) q : ok_tick t -> near_candle t q -> 0 < q.
  Proof.
    intros [_ _ [_ Hl] _ _ _ _] [H _]. pose proof (bpow_gt_0 radix2 (-26)) as P26.
    assert (0 < 1 - bpow radix2 (-22)).
    { assert (bpow radix2 (-22) < 1) by (change 1 with (bpow radix2 0); apply bpow_lt; lia). lra. }
    change (@flt I) with f32 in *. assert (0 < B2R (low t : f32)) by lra.
    assert (0 < B2R (low t : f32) * (1 - bpow radix2 (-22))) by (apply Rmult_lt_0_compat; assumption). lra.
  Qed.

  (** One trade. *)
  Lemma fill_gain c o t (a : @account I) tr kb kq kf nb nq nf :
    ok_settings a -> has_units a -> balances_ok a -> ok_tick t -> carried_out c o t a tr -> unit_trade a tr kb kq kf ->
    holds a nb nq nf ->
    exists x, near_candle t x /\ no_debts (nb, nq, nf) /\
      wealth (B2R (base_unit a : f32)) (B2R (quote_unit a : f32)) x
             (nb + base_change (tr_side tr) kb, nq + quote_change (tr_side tr) kq - kf, nf + kf)%Z + B2R (quote_unit a : f32)
      <= (wealth (B2R (base_unit a : f32)) (B2R (quote_unit a : f32)) x (nb, nq, nf) + B2R (quote_unit a : f32)) * slack.
  Proof.
    intros Hs Hu ([_ Pb] & [_ Pq] & [_ Pf]) Ht Hco Hut (Hb & Hq & Hf).
    destruct (C87_value lm as_ c o t a tr kb kq kf nb nq nf Hs Hu Ht Hco Hut) as [_ V].
    destruct (C85_price_range lm as_ c o t a tr Hs Ht Hco) as [PR _]. destruct Hco as [(ty & pr & am & _ & _ & _ & HF & _)].
    destruct HF as [_ Bn Tq _ Tc]. destruct Hut as [(b & Ub & Eb) (q & Uq & Eq) (f & Uf & Ef) K1 K2 K3].
    destruct Hs as [OB OQ _ _]. destruct Hu as [WB WQ].
    destruct (units_near _ _ _ OB WB Hb Pb) as (_ & N1 & Lb). destruct (units_near _ _ _ OQ WQ Hq Pq) as (_ & N2 & Lq).
    destruct (units_near _ _ _ OQ WQ Hf Pf) as (_ & N3 & _).
    assert (F0 : 0 <= tr_fee tr).
    { rewrite Ef. apply (proj1 (nearest_rnd _ _)) in Uf. destruct Uf as [_ ->]. apply rnd_nonneg. apply Rmult_le_pos; [lra|apply (IZR_le 0); exact K3]. }
    pose proof eta_pos as He.
    destruct (ok_unit_cases _ OQ) as [U0|(_ & _ & RU)]; [lra|].
    assert (Se : eta <= B2R (quote_unit a : f32) / 1048576).
    { apply Rle_trans with (bpow radix2 (-30) / 1048576); [|lra]. change (bpow radix2 (-30) / 1048576) with (bpow radix2 (-30) * bpow radix2 (-20)). unfold eta. rewrite <- bpow_plus. apply bpow_le. lia. }
    assert (S100 : bpow radix2 (-100) <= B2R (quote_unit a : f32) / 1048576).
    { apply Rle_trans with (bpow radix2 (-30) / 1048576); [|lra]. change (bpow radix2 (-30) / 1048576) with (bpow radix2 (-30) * bpow radix2 (-20)). rewrite <- bpow_plus. apply bpow_le. lia. }
    cbv zeta in V, PR. unfold units_value in V. unfold about_up, about_down in Tq. rewrite tol_val in V, Tq.
    assert (HSl : slack = 1 + / 131072) by reflexivity.
    set (wb := B2R (base_unit a : f32)) in *. set (wq := B2R (quote_unit a : f32)) in *. set (P := tr_price tr) in *.
    set (Lo := B2R (low t : f32)) in *. set (Hi := B2R (high t : f32)) in *.
    apply (IZR_le 0) in N1 as N1', N2 as N2', N3 as N3', K1 as K1', K2 as K2', K3 as K3'.
    assert (PN : 0 <= wb * IZR nb) by (apply Rmult_le_pos; [lra|exact N1']).
    assert (QN : 0 <= wq * IZR nq) by (apply Rmult_le_pos; [lra|exact N2']).
    assert (FN : 0 <= wq * IZR nf) by (apply Rmult_le_pos; [lra|exact N3']).
    assert (E22 : 0 < bpow radix2 (-22) < 1) by (change 1 with (bpow radix2 0); split; [apply bpow_gt_0|apply bpow_lt; lia]).
    assert (LH : 0 < Lo <= Hi). { destruct Ht as [[_ H1] [_ H2] [_ H3] _ _ L1 L2]. pose proof (bpow_gt_0 radix2 (-26)). unfold Lo, Hi. change (@flt I) with f32 in *. lra. }
    assert (LoE : Lo * (1 - bpow radix2 (-22)) <= Lo) by nra. assert (HiE : Hi <= Hi * (1 + bpow radix2 (-22))) by nra.
    unfold wealth. rewrite !plus_IZR, minus_IZR, plus_IZR in *.
    destruct (tr_side tr); cbn [base_change quote_change] in *; rewrite ?opp_IZR in *.
    - exists (Rmin P Hi). split; [unfold near_candle; fold Lo Hi; unfold Rmin; destruct (Rle_dec P Hi); lra|].
      split; [repeat split; assumption|].
      assert (Px : Rmin P Hi <= P) by apply Rmin_l. assert (P0 : 0 < Rmin P Hi).
      { assert (0 < Lo * (1 - bpow radix2 (-22))) by (apply Rmult_lt_0_compat; lra). unfold Rmin. destruct (Rle_dec P Hi); lra. }
      set (x := Rmin P Hi) in *.
      assert (M : wb * IZR kb * x <= wb * IZR kb * P) by (apply Rmult_le_compat_l; [apply Rmult_le_pos; lra|exact Px]).
      assert (PNx : 0 <= wb * IZR nb * x) by (apply Rmult_le_pos; lra).
      assert (BP : 0 <= tr_base tr * P) by (apply Rmult_le_pos; lra).
      rewrite tol_val in Tc. set (Y := tr_base tr * P) in *. set (Q := B2R (quote_balance a : f32)) in *. rewrite eps_val in *.
      rewrite HSl. set (A1 := wb * IZR kb * x) in *. set (A2 := wb * IZR kb * P) in *. set (A3 := wb * IZR nb * x) in *.
      set (A4 := wb * IZR nb * P) in *. set (C1 := wq * IZR nq) in *. set (C2 := wq * IZR kq) in *. set (C3 := wq * IZR nf) in *. set (C4 := wq * IZR kf) in *.
      replace (wb * (IZR nb + IZR kb) * P + wq * (IZR nq + - IZR kq - IZR kf) + wq * (IZR nf + IZR kf)) with (A4 + A2 + C1 - C2 + C3) in V by (unfold A4, A2, C1, C2, C3; ring).
      replace (wb * (IZR nb + IZR kb) * x + wq * (IZR nq + - IZR kq - IZR kf) + wq * (IZR nf + IZR kf)) with (A3 + A1 + C1 - C2 + C3) by (unfold A3, A1, C1, C2, C3; ring).
      clearbody A1 A2 A3 A4 C1 C2 C3 C4 Y Q. set (h := bpow radix2 (-100)) in *. clearbody h. clear - Tq Tc V Lq F0 He Se S100 M PNx QN FN BP WQ Pq.
      assert (D1 : A1 - C2 <= 2 * (16 * / 16777216 * (Y + wq) + h)) by lra.
      assert (D2 : Y <= 2 * Q + wq) by lra. assert (D3 : Q <= 11 / 10 * C1 + wq) by lra.
      assert (D4 : A1 - C2 <= (A3 + C1 + C3 + wq) * / 131072) by lra. lra.
    - exists (Rmax P Lo). split; [unfold near_candle; fold Lo Hi; unfold Rmax; destruct (Rle_dec P Lo); lra|].
      split; [repeat split; assumption|].
      assert (Px : P <= Rmax P Lo) by apply Rmax_l. set (x := Rmax P Lo) in *.
      assert (X0 : 0 < x) by (unfold x; pose proof (Rmax_r P Lo); lra).
      assert (M : wb * IZR kb * P <= wb * IZR kb * x) by (apply Rmult_le_compat_l; [apply Rmult_le_pos; lra|exact Px]).
      set (B := B2R (base_balance a : f32)) in *.
      assert (LX : x <= bpow radix2 28).
      { destruct Ht as [_ [_ H2] _ _ _ _ _]. fold Hi in H2. assert (E28 : bpow radix2 28 = 4 * bpow radix2 26) by (change 28%Z with (2 + 26)%Z; rewrite bpow_plus; reflexivity).
        assert (Hi * (1 + bpow radix2 (-22)) <= Hi * 2) by (apply Rmult_le_compat_l; lra). unfold x, Rmax. destruct (Rle_dec P Lo); lra. }
      assert (BP : tr_base tr * P <= B * x).
      { apply Rle_trans with (tr_base tr * x); [apply Rmult_le_compat_l; lra|apply Rmult_le_compat_r; lra]. }
      assert (Bx : B * x - (17 / 16 * eps * (B * x) + 17 / 16 * (eta * x)) <= wb * IZR nb * x).
      { apply Rle_trans with ((B - (17 / 16 * eps * B + 17 / 16 * eta)) * x); [right; ring|apply Rmult_le_compat_r; lra]. }
      assert (Ex : eta * x <= wq / 1048576).
      { apply Rle_trans with (eta * bpow radix2 28); [apply Rmult_le_compat_l; lra|].
        apply Rle_trans with (bpow radix2 (-30) / 1048576); [|lra]. change (bpow radix2 (-30) / 1048576) with (bpow radix2 (-30) * bpow radix2 (-20)).
        unfold eta. rewrite <- !bpow_plus. apply bpow_le. lia. }
      assert (EX0 : 0 <= eta * x) by (apply Rmult_le_pos; lra). assert (BX0 : 0 <= B * x) by (apply Rmult_le_pos; lra).
      assert (PNx : 0 <= wb * IZR nb * x) by (apply Rmult_le_pos; lra).
      set (Y := tr_base tr * P) in *. set (BX := B * x) in *. set (ex := eta * x) in *. rewrite eps_val in *.
      rewrite HSl. set (A1 := wb * IZR kb * x) in *. set (A2 := wb * IZR kb * P) in *. set (A3 := wb * IZR nb * x) in *.
      set (A4 := wb * IZR nb * P) in *. set (C1 := wq * IZR nq) in *. set (C2 := wq * IZR kq) in *. set (C3 := wq * IZR nf) in *. set (C4 := wq * IZR kf) in *.
      replace (wb * (IZR nb + - IZR kb) * P + wq * (IZR nq + IZR kq - IZR kf) + wq * (IZR nf + IZR kf)) with (A4 - A2 + C1 + C2 + C3) in V by (unfold A4, A2, C1, C2, C3; ring).
      replace (wb * (IZR nb + - IZR kb) * x + wq * (IZR nq + IZR kq - IZR kf) + wq * (IZR nf + IZR kf)) with (A3 - A1 + C1 + C2 + C3) by (unfold A3, A1, C1, C2, C3; ring).
      set (h := bpow radix2 (-100)) in *. clearbody A1 A2 A3 A4 C1 C2 C3 C4 Y BX ex h. clear - V BP Bx Ex EX0 BX0 PNx S100 M QN FN WQ.
      assert (D1 : C2 - A1 <= 2 * (16 * / 16777216 * (Y + wq) + h)) by lra.
      assert (D2 : BX <= 11 / 10 * A3 + wq) by lra.
      assert (D3 : C2 - A1 <= (A3 + C1 + C3 + wq) * / 131072) by lra. lra.
  Qed.

  Definition counts (a : @account I) (n : Z * Z * Z) : Prop := let '(nb, nq, nf) := n in holds a nb nq nf.
  Definition climbs_on (a : @account I) := climbs (B2R (base_unit a : f32)) (B2R (quote_unit a : f32)).

  Lemma counts_no_debts (a : @account I) n : sound lm as_ a -> counts a n -> no_debts n.
  Proof.
    destruct n as [[nb nq] nf]. intros ([OB OQ _ _] & [WB WQ] & ([_ Pb] & [_ Pq] & [_ Pf]) & _) (Hb & Hq & Hf).
    destruct (units_near _ _ _ OB WB Hb Pb) as (_ & N1 & _). destruct (units_near _ _ _ OQ WQ Hq Pq) as (_ & N2 & _).
    destruct (units_near _ _ _ OQ WQ Hf Pf) as (_ & N3 & _). repeat split; assumption.
  Qed.

  (** The attempts on one tick. *)
  Lemma tried_gain (c : @account_config I) t atts : forall a n,
    ok_config c -> sound lm as_ a -> ok_tick t -> Forall (fun x => ok_order (fst (fst x))) atts -> tried c t a atts ->
    Forall few_units (a :: map snd atts) -> counts a n ->
    exists qs n', List.length qs = List.length (executed atts) /\ Forall (near_candle t) qs /\
      sound lm as_ (att_account a atts) /\ counts (att_account a atts) n' /\ climbs_on a n qs n' /\
      base_unit (att_account a atts) = base_unit a /\ quote_unit (att_account a atts) = quote_unit a.
  Proof.
    induction atts as [|[[o ok] a1] atts IH]; intros a n Hc Hso Ht Ho H Hf HH.
    - exists [], n. split; [reflexivity|]. split; [constructor|]. split; [exact Hso|]. split; [exact HH|]. split; [|split; reflexivity].
      pose proof Hso as (_ & [WB WQ] & _). apply climbs_nil; [lra|lra|]. exact (counts_no_debts a n Hso HH).
    - destruct H as [HE H]. apply Forall_cons_iff in Ho as [Ho1 Ho2]. cbn [fst snd map] in *.
      apply Forall_cons_iff in Hf as [F0 Hf]. pose proof Hf as Hf1. apply Forall_cons_iff in Hf1 as [F1 _].
      pose proof Hso as (Hs & Hu & Hb & Hw).
      destruct (ExecuteOrder_good c o t a Hc Hs (few_bounded lm as_ a Hs Hb F0) Ht Ho1) as (ok' & a' & E1 & Hb1 & _).
      rewrite HE in E1. injection E1 as <- <-.
      destruct (ExecuteOrder_all c o t a ok a1 HE) as [Hrej Hss].
      assert (S1 : sound lm as_ a1).
      { split; [apply (ok_settings_same a); auto|]. split; [|split; [exact Hb1|apply (ExecuteOrder_whole c o t a ok a1); auto]].
        destruct Hss as (U1 & U2 & _), Hu. split; [rewrite U1|rewrite U2]; assumption. }
      assert (EU : base_unit a1 = base_unit a /\ quote_unit a1 = quote_unit a) by (destruct Hss as (U1 & U2 & _); auto).
      destruct EU as [EU1 EU2].
      rewrite att_account_cons. unfold executed. cbn [filter fst snd]. fold (executed atts). destruct ok.
      + destruct n as [[nb nq] nf].
        destruct (C86_order lm as_ c o t a a1 nb nq nf Hc Hs Hu Hb Hw Ht Ho1 F0 F1 HH HE) as (tr & kb & kq & kf & K1 & K2 & K3).
        destruct (fill_gain c o t a tr kb kq kf nb nq nf Hs Hu Hb Ht K1 K2 HH) as (x & X1 & X2 & X3).
        destruct (IH a1 (nb + base_change (tr_side tr) kb, nq + quote_change (tr_side tr) kq - kf, nf + kf)%Z Hc S1 Ht Ho2 H Hf K3)
          as (qs & n' & L1 & L2 & L3 & L4 & L5 & L6 & L7).
        exists (x :: qs), n'. split; [cbn [List.length]; rewrite L1; reflexivity|]. split; [constructor; assumption|]. split; [exact L3|].
        split; [exact L4|]. split; [|split; [rewrite L6; exact EU1|rewrite L7; exact EU2]].
        destruct Hu as [WB WQ]. unfold climbs_on in *. rewrite EU1, EU2 in L5.
        eapply climbs_cons; [lra|lra|exact X2|exact (near_candle_pos t x Ht X1)|exact X3|exact L5].
      + assert (a1 = a) by auto. subst a1. destruct (IH a n Hc S1 Ht Ho2 H Hf HH) as (qs & n' & L). exists qs, n'. exact L.
  Qed.

  Lemma story_gain (c : @account_config I) hist te ticks n :
    ok_config c -> sound lm as_ (opening_account c) -> Forall ok_tick ticks -> counts (opening_account c) n ->
    forall rows, story c hist te ticks rows ->
    (forall r o ok a, In r rows -> In (o, ok, a) (w_attempts r) -> ok_order o) ->
    (forall r a, In r rows -> In a (row_accounts r) -> few_units a) ->
    exists qs n', Z.of_nat (List.length qs) = executed_count rows /\ fills ticks qs /\
      sound lm as_ (final_account c rows) /\ counts (final_account c rows) n' /\
      climbs (B2R (cfg_base_unit c : f32)) (B2R (cfg_quote_unit c : f32)) n qs n' /\
      base_unit (final_account c rows) = cfg_base_unit c /\ quote_unit (final_account c rows) = cfg_quote_unit c.
  Proof.
    intros Hc Ha Ht HH. induction ticks as [|t ticks IH] using rev_ind; intros rows S0 Ho Hn.
    - destruct S0 as [Hm _]. destruct rows; [|discriminate]. exists [], n. split; [reflexivity|]. split; [exists []; split; [reflexivity|constructor]|].
      split; [exact Ha|]. split; [exact HH|]. split; [|split; reflexivity]. pose proof Ha as (_ & [WB WQ] & _).
      apply climbs_nil; [apply Rlt_le, WB|apply Rlt_le, WQ|exact (counts_no_debts _ n Ha HH)].
    - destruct (story_unsnoc c hist te ticks t rows S0) as (rows' & r & -> & Ert & S1 & [Ra Ro Rt Rs Ru]).
      apply Forall_app in Ht as [Ht1 Ht2]. apply Forall_cons_iff in Ht2 as [Ht2 _].
      destruct (IH Ht1 rows' S1) as (qs1 & n1 & I1 & (parts & I2 & I2') & I3 & I4 & I5 & I6 & I7).
      { intros r' o ok a H1. apply Ho, in_or_app. left. exact H1. }
      { intros r' a H1. apply Hn, in_or_app. left. exact H1. }
      assert (Ea : w_account r = final_account c rows') by exact Ra.
      assert (Hr : In r (rows' ++ [r])) by (apply in_or_app; right; left; reflexivity).
      rewrite <- Ea in I3, I4, I6, I7.
      destruct (tried_gain c (w_tick r) (w_attempts r) (w_account r) n1 Hc I3) as (qs2 & n2 & J1 & J2 & J3 & J4 & J5 & J6 & J7).
      { rewrite Ert. exact Ht2. }
      { apply Forall_forall. intros [[o ok] a] Hin. cbn. eapply Ho; eauto. }
      { exact Rt. }
      { apply Forall_forall. intros a Hin. apply (Hn r a Hr). exact Hin. }
      { exact I4. }
      assert (Eaa : final_account c (rows' ++ [r]) = att_account (w_account r) (w_attempts r)).
      { rewrite final_account_snoc. reflexivity. }
      rewrite Eaa. exists (qs1 ++ qs2), n2. split; [|split; [|split; [exact J3|split; [exact J4|split; [|split]]]]].
      + unfold executed_count in *. rewrite flat_map_app, !app_length. cbn [flat_map]. rewrite app_nil_r, J1. lia.
      + exists (parts ++ [qs2]). split; [rewrite concat_app, I2; cbn [concat]; rewrite app_nil_r; reflexivity|].
        apply Forall2_app; [exact I2'|constructor; [rewrite Ert in J2; exact J2|constructor]].
      + apply (climbs_app _ _ n qs1 n1 qs2 n2); [|exact I5|].
        * rewrite I2. clear - I2' Ht1. induction I2' as [|u part ticks parts Hp _ IH]; cbn [concat]; [constructor|].
          apply Forall_cons_iff in Ht1 as [T1 T2]. apply Forall_app. split; [|apply IH, T2].
          eapply Forall_impl; [|exact Hp]. intros q. apply near_candle_pos, T1.
        * unfold climbs_on in J5. rewrite I6, I7 in J5. exact J5.
      + rewrite J6. exact I6.
      + rewrite J7. exact I7.
  Qed.

  (** ** The reported values *)
  Lemma value_near (c b q : f32) : ok_price c -> nneg 40 b -> nneg 40 q ->
    let v : f32 := Bplus mode_NE q (Bmult mode_NE c b) in let T := B2R b * B2R c + B2R q in
    is_finite v = true /\ 0 <= T /\
    T - (5 / 2 * eps * T + 3 * eta) <= B2R v <= T + (5 / 2 * eps * T + 3 * eta).
  Proof.
    intros [Fc Hc] Hb Hq. cbv zeta. pose proof (bpow_gt_0 radix2 (-26)) as P26.
    assert (Nc : nneg 26 c) by (split; [exact Fc|lra]).
    destruct (Bmult_nneg 26 40 c b ltac:(lia) Nc Hb) as [Hx Ex]. change (26 + 40)%Z with 66%Z in Hx.
    assert (Hq' : nneg 66 q) by (apply (nneg_weaken 40); [lia|exact Hq]).
    destruct (Bplus_nneg 66 q (Bmult mode_NE c b) ltac:(lia) Hq' Hx) as [[Fv _] Ev].
    split; [exact Fv|]. rewrite Ev. set (x := B2R (Bmult mode_NE c b)) in *. destruct Hb as [_ Hb], Hq as [_ Hq], Hx as [_ Hx].
    fold x in Hx. assert (CB : 0 <= B2R c * B2R b) by (apply Rmult_le_pos; lra).
    pose proof (rnd_err_le (B2R c * B2R b) CB) as K1. rewrite <- Ex in K1.
    pose proof (rnd_err_le (B2R q + x) ltac:(lra)) as K2. rewrite (Rmult_comm (B2R b)).
    pose proof eta_pos as He. split; [lra|].
    set (y := B2R c * B2R b) in *. set (z := rnd (B2R q + x)) in *. clearbody y z. clear - K1 K2 He CB Hq Hx.
    rewrite eps_val in *. split; lra.
  Qed.

  Lemma unit_small (u : f32) : ok_unit u -> 0 < B2R u -> eta * bpow radix2 26 <= B2R u / 16777216 /\ eta <= B2R u / 16777216.
  Proof.
    intros Hu PU. destruct (ok_unit_cases _ Hu) as [U0|(_ & _ & RU)]; [lra|].
    assert (bpow radix2 (-54) <= B2R u / 16777216).
    { apply Rle_trans with (bpow radix2 (-30) / 16777216); [|lra]. right. change (bpow radix2 (-30) / 16777216) with (bpow radix2 (-30) * bpow radix2 (-24)). rewrite <- bpow_plus. reflexivity. }
    split; (eapply Rle_trans; [|exact H]); unfold eta; rewrite <- ?bpow_plus; apply bpow_le; lia.
  Qed.

  (** What is reported of an account is what its counts are worth. *)
  Lemma reported (a : @account I) n (c : f32) : sound lm as_ a -> few_units a -> counts a n -> ok_price c ->
    let v : f32 := Bplus mode_NE (quote_balance a) (Bmult mode_NE c (base_balance a)) in
    let wq := B2R (quote_unit a : f32) in
    let W := wealth (B2R (base_unit a : f32)) wq (B2R c) n + wq in
    is_finite v = true /\ is_finite (total_fee a : f32) = true /\ 0 <= B2R v /\ 0 <= B2R (total_fee a : f32) /\
    (B2R v + B2R (total_fee a : f32)) * (1 - bpow radix2 (-21)) <= W /\
    (B2R (total_fee a : f32) = 0 -> W <= (B2R v + wq) * (1 + bpow radix2 (-21))).
  Proof.
    intros Hso Hf Hn Hp. destruct n as [[nb nq] nf]. pose proof Hso as (Hs & [WB WQ] & Hb & _).
    destruct (few_bounded lm as_ a Hs Hb Hf) as (N1 & N2 & N3). destruct Hn as (U1 & U2 & U3).
    pose proof Hs as [OB OQ _ _]. destruct Hb as ([_ P1] & [_ P2] & [FF P3]).
    destruct (value_near c (base_balance a) (quote_balance a) Hp N1 N2) as (Fv & T0 & Lv). cbv zeta.
    destruct (units_near _ _ _ OB WB U1 P1) as (_ & M1 & Lb). destruct (units_near _ _ _ OQ WQ U2 P2) as (_ & M2 & Lq).
    destruct (units_near _ _ _ OQ WQ U3 P3) as (_ & M3 & Lf).
    destruct (unit_small _ OQ WQ) as [S1 S2]. pose proof eta_pos as He. destruct Hp as [Fc Hc].
    assert (PC : 0 <= B2R c). { pose proof (bpow_gt_0 radix2 (-26)). lra. }
    assert (SC : eta * B2R c <= B2R (quote_unit a : f32) / 16777216).
    { eapply Rle_trans; [|exact S1]. apply Rmult_le_compat_l; lra. }
    assert (EC0 : 0 <= eta * B2R c) by (apply Rmult_le_pos; lra).
    assert (E21 : bpow radix2 (-21) = 8 * eps) by (unfold eps; change 8 with (bpow radix2 3); rewrite <- bpow_plus; reflexivity).
    split; [exact Fv|]. split; [exact FF|].
    assert (V0 : 0 <= B2R (Bplus mode_NE (quote_balance a : f32) (Bmult mode_NE c (base_balance a : f32)) : f32)).
    { destruct N1 as [_ N1], N2 as [_ N2]. destruct (Bmult_nneg 26 40 c (base_balance a) ltac:(lia)) as [Hx _].
      { split; [exact Fc|lra]. } { split; [|exact N1]. apply (proj1 (nearest_rnd _ _)) in U1. apply U1. }
      destruct (Bplus_nneg 66 (quote_balance a) (Bmult mode_NE c (base_balance a)) ltac:(lia)) as [[_ [H0 _]] _]; [|exact Hx|exact H0].
      apply (nneg_weaken 40); [lia|]. split; [|exact N2]. apply (proj1 (nearest_rnd _ _)) in U2. apply U2. }
    split; [exact V0|]. split; [exact P3|].
    set (v := B2R (Bplus mode_NE (quote_balance a : f32) (Bmult mode_NE c (base_balance a : f32)) : f32)) in *.
    set (wb := B2R (base_unit a : f32)) in *. set (wq := B2R (quote_unit a : f32)) in *.
    set (B := B2R (base_balance a : f32)) in *. set (Q := B2R (quote_balance a : f32)) in *. set (F := B2R (total_fee a : f32)) in *.
    assert (BX : B * B2R c - (17 / 16 * eps * (B * B2R c) + 17 / 16 * (eta * B2R c)) <= wb * IZR nb * B2R c
                 <= B * B2R c + (17 / 16 * eps * (B * B2R c) + 17 / 16 * (eta * B2R c))).
    { split; [apply Rle_trans with ((B - (17 / 16 * eps * B + 17 / 16 * eta)) * B2R c); [right; ring|]
             |apply Rle_trans with ((B + (17 / 16 * eps * B + 17 / 16 * eta)) * B2R c); [|right; ring]];
        apply Rmult_le_compat_r; lra. }
    assert (BC0 : 0 <= B * B2R c) by (apply Rmult_le_pos; lra).
    unfold wealth. set (X := wb * IZR nb * B2R c) in *. set (Y := wq * IZR nq) in *. set (Z_ := wq * IZR nf) in *.
    set (BC := B * B2R c) in *. set (ec := eta * B2R c) in *. rewrite E21. rewrite eps_val in *.
    clearbody v wb wq B Q F X Y Z_ BC ec. clear - Lv Lq Lf BX S1 S2 SC EC0 He WQ P2 P3 V0 BC0.
    split; [lra|]. intros F0. subst F. lra.
  Qed.

  Lemma in_att (a : @account I) atts : In (att_account a atts) (a :: map snd atts).
  Proof.
    revert a. induction atts as [|[[o ok] a1] atts IH]; intros a; [left; reflexivity|].
    rewrite att_account_cons. cbn [map snd]. right. apply IH.
  Qed.

  (** ** C126 *)
  Theorem C126_foresight (cfg : @account_config I) hist s fast te lg hl ticks first l res l' :
    side_matches hist s -> (hist = None \/ time_ordered ticks) -> hd_error ticks = Some first ->
    ok_config cfg -> ok_settings (opening_account cfg) -> has_units (opening_account cfg) ->
    balances_ok (opening_account cfg) -> float_whole (opening_account cfg) -> Forall ok_tick ticks ->
    ExecuteTrader cfg s fast te lg hl ticks l = Done (res, l') ->
    exists rows, story cfg hist te ticks rows /\
      ((forall o t, In (o, t) (story_orders lm as_ rows) -> ok_order o) -> (forall a, logged lm as_ rows a -> few_units a) ->
       exists qs, fills ticks qs /\ Z.of_nat (List.length qs) = r_total_executed_orders res /\
         is_finite (r_start_value res : f32) = true /\ is_finite (r_end_value res : f32) = true /\
         is_finite (r_total_fee res : f32) = true /\
         B2R (r_end_value res : f32) + B2R (r_total_fee res : f32)
           <= (B2R (r_start_value res : f32) + B2R (cfg_quote_unit cfg : f32)) * slack ^ (1 + List.length qs)
              * rises (B2R (r_start_price res : f32)) (qs ++ [B2R (r_end_price res : f32)])).
  Proof.
    intros Hs Ho Hf Hc Ha1 Hu Ha2 Hw Ht H.
    destruct (run_story cfg hist s fast te lg hl Hs ticks l res l' Ho H) as [(E & _)|(f0 & r0 & rows & E & S0 & R0 & L)];
      [subst; discriminate|].
    exists rows. split; [exact S0|]. intros O1 N1.
    assert (So : sound lm as_ (opening_account cfg)) by (split; [exact Ha1|split; [exact Hu|split; assumption]]).
    assert (Nr : forall r a, In r rows -> In a (row_accounts r) -> few_units a).
    { intros r a I1 I2. pose proof (story_logged lm as_ cfg hist te ticks rows r a S0 I1 I2) as K. apply in_flat_map in K. apply N1. exact K. }
    pose proof Ha1 as [OB OQ _ _]. pose proof Hu as [WB WQ]. pose proof Hw as (W1 & W2 & _).
    destruct Ha2 as ([FB PB] & [FQ PQ] & _).
    destruct (whole_units_of _ _ OB WB FB PB W1) as (nb & UB). destruct (whole_units_of _ _ OQ WQ FQ PQ W2) as (nq & UQ).
    assert (HC : counts (opening_account cfg) (nb, nq, 0%Z)) by (split; [exact UB|split; [exact UQ|apply zero_units]]).
    destruct (story_gain cfg hist te ticks (nb, nq, 0%Z) Hc So Ht HC rows S0) as (qs & n' & K1 & K2 & K3 & K4 & K5 & K6 & K7).
    { intros r o ok a I1 I2. apply (O1 o (w_tick r)). apply in_flat_map. exists r. split; [exact I1|].
      apply in_map_iff. exists (o, ok, a). auto. }
    { exact Nr. }
    exists qs. split; [exact K2|].
    subst ticks. cbn [hd_error] in Hf. injection Hf as ->.
    destruct rows as [|r1 rows']; [destruct S0 as [Hm _]; discriminate|]. set (rows := r1 :: rows') in *.
    assert (FO : few_units (opening_account cfg)).
    { assert (E1 : w_account r1 = opening_account cfg).
      { destruct S0 as [_ Hok]. destruct (Hok [] r1 rows' eq_refl) as [Ra _ _ _ _]. exact Ra. }
      rewrite <- E1. apply (Nr r1); left; reflexivity. }
    assert (FE : few_units (final_account cfg rows)).
    { destruct (@exists_last _ rows ltac:(discriminate)) as (rows1 & rl & El). rewrite El.
      rewrite final_account_snoc. apply (Nr rl); [rewrite El; apply in_or_app; right; left; reflexivity|]. apply in_att. }
    assert (PL : ok_price (close (List.last (first :: r0) first)) /\ ok_price (close first)).
    { assert (G : forall x y, In (List.last (x :: y) first) (x :: y)).
      { intros x y. revert x. induction y as [|z y IHy]; intros x; [left; reflexivity|right; apply (IHy z)]. }
      rewrite Forall_forall in Ht. split; [apply (Ht _ (G first r0))|apply (Ht first); left; reflexivity]. }
    destruct PL as [PL PF].
    destruct (reported _ _ _ So FO HC PF) as (G1 & _ & G3 & _ & _ & G6).
    destruct (reported _ _ _ K3 FE K4 PL) as (E1 & E2 & E3 & E4 & E5 & _).
    rewrite K6, K7 in E5. destruct R0 as (_ & _ & _ & _ & Q5 & Q6 & Q7 & Q8 & Q9 & Q10). rewrite Q5, Q6, Q7, Q8, Q9, Q10.
    split; [exact K1|]. split; [exact G1|]. split; [exact E1|]. split; [exact E2|].
    assert (Z0 : B2R (total_fee (opening_account cfg) : f32) = 0) by reflexivity. specialize (G6 Z0).
    set (p := B2R (close first : f32)) in *. set (pe := B2R (close (List.last (first :: r0) first) : f32)) in *.
    assert (Pp : 0 < p) by (destruct PF as [_ PF]; pose proof (bpow_gt_0 radix2 (-26)); unfold p; change (@flt I) with f32 in *; lra).
    assert (Ppe : 0 < pe) by (destruct PL as [_ PL]; pose proof (bpow_gt_0 radix2 (-26)); unfold pe; change (@flt I) with f32 in *; lra).
    specialize (K5 p pe Pp Ppe).
    match type of E5 with ?V * _ <= _ => set (VE := V) in * end.
    match type of G6 with _ <= (?V + _) * _ => set (VS := V) in * end.
    change (VE <= (VS + B2R (cfg_quote_unit cfg : f32)) * slack ^ (1 + List.length qs) * rises p (qs ++ [pe])).
    change (base_unit (opening_account cfg)) with (cfg_base_unit cfg) in G6. change (quote_unit (opening_account cfg)) with (cfg_quote_unit cfg) in *.
    pose proof slack_ge1 as SG. assert (SP : 1 <= slack ^ List.length qs) by (apply pow_R1_Rle, SG).
    pose proof (rises_ge1 (qs ++ [pe]) p) as RG. set (S := slack ^ List.length qs) in *. set (Rs := rises p (qs ++ [pe])) in *.
    set (wq := B2R (cfg_quote_unit cfg : f32)) in *. set (w0 := wealth (B2R (cfg_base_unit cfg : f32)) wq p (nb, nq, 0%Z)) in *.
    change (1 + List.length qs)%nat with (Datatypes.S (List.length qs)). cbn [pow]. fold S.
    assert (SR : 1 <= S * Rs) by nra.
    assert (D : 0 < 1 - bpow radix2 (-21)).
    { assert (bpow radix2 (-21) < 1) by (change 1 with (bpow radix2 0); apply bpow_lt; lia). lra. }
    apply (Rmult_le_reg_r _ _ _ D). eapply Rle_trans; [exact E5|]. eapply Rle_trans; [exact K5|].
    assert (HVS : 0 <= VS + wq) by lra.
    assert (X1 : (w0 + wq) * (S * Rs) <= (VS + wq) * (1 + bpow radix2 (-21)) * (S * Rs)) by (apply Rmult_le_compat_r; [lra|exact G6]).
    assert (X2 : 1 + bpow radix2 (-21) <= slack * (1 - bpow radix2 (-21))).
    { unfold slack. change (bpow radix2 (-17)) with (/ 131072). change (bpow radix2 (-21)) with (/ 2097152). lra. }
    assert (X3 : (VS + wq) * (S * Rs) * (1 + bpow radix2 (-21)) <= (VS + wq) * (S * Rs) * (slack * (1 - bpow radix2 (-21)))).
    { apply Rmult_le_compat_l; [apply Rmult_le_pos; lra|exact X2]. }
    match goal with |- ?A <= ?B =>
      replace A with ((w0 + wq) * (S * Rs)) by ring;
      replace B with ((VS + wq) * (S * Rs) * (slack * (1 - bpow radix2 (-21)))) by ring end.
    eapply Rle_trans; [exact X1|]. eapply Rle_trans; [|exact X3]. right. ring.
  Qed.

  (** For the traders the programs can create no condition on the orders is needed. *)
  Theorem C126_programs name te (cfg : @account_config I) hist s fast lg hl ticks first l res l' :
    (@GetTrader I name = Done te \/ exists tes, @GetBatchOfTraders I name = Done tes /\ In te tes) ->
    open_for_business cfg -> side_matches hist s -> strictly_ordered ticks -> Forall quoted ticks -> hd_error ticks = Some first ->
    float_whole (opening_account cfg) ->
    ExecuteTrader cfg s fast te lg hl ticks l = Done (res, l') ->
    exists rows, story cfg hist te ticks rows /\
      ((forall a, logged lm as_ rows a -> few_units a) ->
       exists qs, fills ticks qs /\ Z.of_nat (List.length qs) = r_total_executed_orders res /\
         is_finite (r_start_value res : f32) = true /\ is_finite (r_end_value res : f32) = true /\
         is_finite (r_total_fee res : f32) = true /\
         B2R (r_end_value res : f32) + B2R (r_total_fee res : f32)
           <= (B2R (r_start_value res : f32) + B2R (cfg_quote_unit cfg : f32)) * slack ^ (1 + List.length qs)
              * rises (B2R (r_start_price res : f32)) (qs ++ [B2R (r_end_price res : f32)])).
  Proof.
    intros Hn Hop Hs Ho Ht Hf Hw H.
    assert (Hte : copes_float te).
    { destruct (C80_factory lm as_ name) as [F1 F2]. destruct Hn as [Hn|(tes & Hn & Hin)]; [auto|].
      specialize (F2 tes Hn). rewrite Forall_forall in F2. auto. }
    pose proof Hop as [Hc Hset Hbal Hb Hq Own].
    destruct (C126_foresight cfg hist s fast te lg hl ticks first l res l' Hs) as (rows & S0 & K); auto.
    - right. exact (strict_ordered ticks Ho).
    - split; assumption.
    - eapply Forall_impl; [|exact Ht]. intros t [T _]. exact T.
    - exists rows. split; [exact S0|]. intros HX. apply K; [|exact HX].
      destruct (copes_orders lm as_ cfg hist te ticks Hop Hte Ho Ht ticks [] rows) as (_ & _ & _ & O1); [rewrite app_nil_r; reflexivity|exact S0| |].
      { intros r a I1 I2. apply HX. pose proof (story_logged lm as_ cfg hist te ticks rows r a S0 I1 I2) as Q. apply in_flat_map in Q. exact Q. }
      intros o t Hin. apply in_flat_map in Hin as (r & I1 & I2). apply in_map_iff in I2 as ([[o' ok] a] & E & I2). cbn in E. injection E as <- <-.
      eapply O1; eauto.
  Qed.

  (** When all prices stay between lo and hi: at most hi/lo for each two trades. *)
  Theorem C126_range name te (cfg : @account_config I) hist s fast lg hl ticks first l res l' lo hi :
    (@GetTrader I name = Done te \/ exists tes, @GetBatchOfTraders I name = Done tes /\ In te tes) ->
    open_for_business cfg -> side_matches hist s -> strictly_ordered ticks -> Forall quoted ticks -> hd_error ticks = Some first ->
    float_whole (opening_account cfg) -> 0 < lo -> Forall (between_prices lo hi) ticks ->
    ExecuteTrader cfg s fast te lg hl ticks l = Done (res, l') ->
    exists rows, story cfg hist te ticks rows /\
      ((forall a, logged lm as_ rows a -> few_units a) ->
       B2R (r_end_value res : f32) + B2R (r_total_fee res : f32)
         <= (B2R (r_start_value res : f32) + B2R (cfg_quote_unit cfg : f32))
            * slack ^ (1 + Z.to_nat (r_total_executed_orders res))
            * (hi / lo * (1 + bpow radix2 (-20))) ^ (1 + Z.to_nat (r_total_executed_orders res) / 2)).
  Proof.
    intros Hn Hop Hs Ho Ht Hf Hw Hlo Hr H.
    destruct (C126_programs name te cfg hist s fast lg hl ticks first l res l' Hn Hop Hs Ho Ht Hf Hw H) as (rows & S0 & K).
    exists rows. split; [exact S0|]. intros HX. destruct (K HX) as (qs & (parts & -> & F) & Q2 & _ & _ & _ & G).
    destruct (run_story cfg hist s fast te lg hl Hs ticks l res l' (or_intror (strict_ordered ticks Ho)) H)
      as [(E & _)|(f0 & r0 & rows' & E & _ & R0 & _)]; [subst; discriminate|].
    subst ticks. cbn [hd_error] in Hf. injection Hf as ->.
    destruct R0 as (_ & _ & _ & _ & Q5 & Q6 & Q7 & _).
    set (e := bpow radix2 (-22)). assert (He : 0 < e < / 8).
    { split; [apply bpow_gt_0|]. change (/ 8) with (bpow radix2 (-3)). apply bpow_lt. lia. }
    assert (E20 : bpow radix2 (-20) = 4 * e).
    { change (-20)%Z with (2 + -22)%Z. rewrite bpow_plus. reflexivity. }
    set (lo' := lo * (1 - e)). set (hi' := hi * (1 + e)).
    assert (Hi0 : lo <= hi). { apply Forall_cons_iff in Hr as [(_ & _ & R3) _]. lra. }
    assert (Lo' : 0 < lo') by (unfold lo'; apply Rmult_lt_0_compat; lra).
    assert (L1 : lo' <= lo) by (unfold lo'; nra). assert (L2 : hi <= hi') by (unfold hi'; nra).
    assert (C : forall t, In t (first :: r0) -> lo' <= B2R (close t : f32) <= hi').
    { intros t Hi. rewrite Forall_forall in Hr. destruct (Hr t Hi) as (_ & _ & R3). lra. }
    assert (CL : In (List.last (first :: r0) first) (first :: r0)).
    { assert (X : forall x y, In (List.last (x :: y) first) (x :: y)).
      { intros x y. revert x. induction y as [|z y IHy]; intros x; [left; reflexivity|right; apply (IHy z)]. } apply X. }
    assert (FQ : Forall (fun q => lo' <= q <= hi') (concat parts)).
    { clear - F Hr He Hlo Hi0. induction F as [|t part ts parts F1 _ IH]; [constructor|].
      apply Forall_cons_iff in Hr as [(R1 & R2 & _) Hr]. cbn [concat]. apply Forall_app. split; [|apply IH, Hr].
      eapply Forall_impl; [|exact F1]. intros q [N1 N2]. unfold lo', hi'. fold e in N1, N2. change (@flt I) with f32 in *.
      split; [eapply Rle_trans; [|exact N1]|eapply Rle_trans; [exact N2|]]; apply Rmult_le_compat_r; lra. }
    set (n := List.length (concat parts)) in *. rewrite <- Q2, Nat2Z.id.
    assert (X : rises (B2R (r_start_price res : f32)) (concat parts ++ [B2R (r_end_price res : f32)]) <= (hi' / lo') ^ (1 + n / 2)).
    { rewrite Q5, Q6. apply rises_range; [exact Lo'| |apply C; left; reflexivity|].
      - rewrite app_length. cbn [List.length]. fold n. pose proof (Nat.div_mod n 2 ltac:(lia)) as D.
        pose proof (Nat.mod_upper_bound n 2 ltac:(lia)). lia.
      - apply Forall_app. split; [exact FQ|]. constructor; [apply C, CL|constructor]. }
    assert (Y : hi' / lo' <= hi / lo * (1 + bpow radix2 (-20))).
    { rewrite E20. unfold hi', lo'. apply (Rmult_le_reg_r (lo * (1 - e))); [exact Lo'|].
      replace (hi * (1 + e) / (lo * (1 - e)) * (lo * (1 - e))) with (hi * (1 + e)) by (field; lra).
      replace (hi / lo * (1 + 4 * e) * (lo * (1 - e))) with (hi * ((1 + 4 * e) * (1 - e))) by (field; lra).
      apply Rmult_le_compat_l; [lra|]. nra. }
    assert (Y0 : 0 <= hi' / lo').
    { unfold Rdiv. apply Rmult_le_pos; [lra|left; apply Rinv_0_lt_compat, Lo']. }
    eapply Rle_trans; [exact G|]. apply Rmult_le_compat_l.
    - pose proof slack_ge1 as SG. apply Rmult_le_pos; [|apply pow_le; lra].
      pose proof Hop as [_ Hset Hbal _ HQ _].
      assert (SF : sound lm as_ (opening_account cfg)).
      { split; [exact Hset|]. split; [split; apply Hop|]. split; [exact Hbal|exact Hw]. }
      assert (0 <= B2R (r_start_value res : f32)).
      { destruct rows as [|r1 rows1]; [destruct S0 as [Hm _]; discriminate|].
        assert (FO : few_units (opening_account cfg)).
        { assert (E1 : w_account r1 = opening_account cfg).
          { destruct S0 as [_ Hok]. destruct (Hok [] r1 rows1 eq_refl) as [Ra _ _ _ _]. exact Ra. }
          rewrite <- E1. apply HX. pose proof (story_logged lm as_ cfg hist te (first :: r0) (r1 :: rows1) r1 (w_account r1) S0) as Z.
          specialize (Z (or_introl eq_refl) (or_introl eq_refl)). apply in_flat_map in Z. exact Z. }
        destruct Hset as [OB OQ _ _]. destruct Hbal as ([FB PB] & [FQ0 PQ] & _). pose proof Hw as (W1 & W2 & _).
        destruct SF as (A1 & [WB WQ] & A3). destruct (whole_units_of _ _ OB WB FB PB W1) as (nb & UB).
        destruct (whole_units_of _ _ OQ WQ FQ0 PQ W2) as (nq & UQ).
        assert (PF : ok_price (close first)) by (apply Forall_cons_iff in Ht as [[T _] _]; apply T).
        destruct (reported (opening_account cfg) (nb, nq, 0%Z) (close first)) as (_ & _ & G3 & _); auto.
        - split; [exact A1|]. split; [split; assumption|]. exact A3.
        - split; [exact UB|]. split; [exact UQ|apply zero_units].
        - rewrite Q7. exact G3. }
      change (@flt I) with f32 in *. pose proof (bpow_gt_0 radix2 (-30)). lra.
    - eapply Rle_trans; [exact X|]. apply pow_incr. split; [exact Y0|exact Y].
  Qed.
End IEEE.

(** The run of C89_ex: the rebalancing trader makes four trades. *)
Section Example.
  Context (lm : libm) (as_ : bool).
  Local Notation I := (ieee lm as_).

  Lemma story_same cfg (te : @trader_emitter I) ticks rows1 rows2 :
    story cfg None te ticks rows1 -> story cfg None te ticks rows2 -> rows1 = rows2.
  Proof.
    intros H1 H2.
    assert (B : exists T, forall t, In t ticks -> (timestamp_sec t <= T)%Z).
    { clear. induction ticks as [|t ts (T & IH)]; [exists 0%Z; intros t []|].
      exists (Z.max (timestamp_sec t) T). intros x [<-|Hx]; [lia|]. specialize (IH x Hx). lia. }
    destruct B as (T & B).
    assert (L : forall rows, story cfg None te ticks rows -> List.length rows = List.length ticks).
    { intros rows [Hm _]. rewrite <- Hm, map_length. reflexivity. }
    pose proof (story_prefix cfg None None te ticks [] [] rows1 rows2 T) as P. rewrite !app_nil_r in P.
    rewrite <- (firstn_all rows1), <- (firstn_all rows2), (L _ H1), (L _ H2). apply P; auto; exact Logic.I.
  Qed.

  Lemma C126_ex :
    (exists te, @GetTrader I "rebalancing"%string = Done te) /\ open_for_business (pf_config lm as_) /\
    strictly_ordered (pf_ticks lm as_) /\ Forall quoted (pf_ticks lm as_) /\ float_whole (opening_account (pf_config lm as_)) /\
    Forall (between_prices 50 120) (pf_ticks lm as_) /\
    exists te res, ExecuteTrader (pf_config lm as_) None true te (counting lm as_) true (pf_ticks lm as_) false = Done (res, false) /\
      r_total_executed_orders res = 4%Z /\
      exists rows, story (pf_config lm as_) None te (pf_ticks lm as_) rows /\ (forall a, logged lm as_ rows a -> few_units a) /\
       B2R (r_end_value res : f32) + B2R (r_total_fee res : f32)
         <= (B2R (r_start_value res : f32) + B2R (cfg_quote_unit (pf_config lm as_) : f32)) * slack ^ 5
            * (120 / 50 * (1 + bpow radix2 (-20))) ^ 3.
  Proof.
    destruct (C89_ex lm as_) as (X1 & X2 & X3 & X4 & X5 & _).
    split; [exact X1|]. split; [exact X2|]. split; [exact X3|]. split; [exact X4|]. split; [exact X5|].
    assert (RNG : Forall (between_prices 50 120) (pf_ticks lm as_)).
    { assert (P : forall t o h l c v, (0 <= h <= 120)%Z -> (50 <= l <= 120)%Z -> (50 <= c <= 120)%Z -> between_prices 50 120 (pf_tick lm as_ t o h l c v)).
      { intros t o h l0 c v Hh Hl Hc. unfold between_prices. cbn [pf_tick low high close].
        destruct (ofZ_finite h ltac:(lia)) as [_ V1]. destruct (ofZ_finite l0 ltac:(lia)) as [_ V2]. destruct (ofZ_finite c ltac:(lia)) as [_ V3].
        rewrite V1, V2, V3. destruct Hh, Hl, Hc. repeat split; apply IZR_le; assumption. }
      unfold pf_ticks. repeat (apply Forall_cons; [apply P; lia|]). apply Forall_nil. }
    split; [exact RNG|].
    exists (rebalancing_emitter default_rebalancing).
    assert (H : bind (ExecuteTrader (pf_config lm as_) None true (rebalancing_emitter default_rebalancing) (counting lm as_) true (pf_ticks lm as_) false)
                     (fun x => Done (snd x, r_total_executed_orders (fst x))) = Done (false, 4%Z)).
    { clear. destruct as_; vm_compute; reflexivity. }
    apply bind_done in H as ([res l'] & H & E). cbn [fst snd] in E. injection E as -> En. exists res. split; [exact H|]. split; [exact En|].
    pose proof (C126_range lm as_ "rebalancing"%string (rebalancing_emitter default_rebalancing) (pf_config lm as_) None None true (counting lm as_) true
                (pf_ticks lm as_) (pf_tick lm as_ 60 100 110 90 105 10) false res false 50 120
                (or_introl eq_refl) X2 Logic.I X3 X4 eq_refl X5 ltac:(lra) RNG H) as (rows & S0 & K).
    exists rows. split; [exact S0|].
      destruct (run_story (pf_config lm as_) None None true _ (counting lm as_) true Logic.I _ _ _ _ (or_introl eq_refl) H) as [(E0 & _)|(f0 & r0 & rows' & E0 & S1 & R0 & L)]; [discriminate|].
      pose proof (story_same (pf_config lm as_) _ _ rows' rows S1 S0) as ER. subst rows'.
      assert (FW : forall a, logged lm as_ rows a -> few_units a).
      { pose proof (ob_settings _ X2) as [OU1 OU2 _ _]. cbn [opening_account base_unit quote_unit] in OU1, OU2.
        intros a Ha. pose proof Ha as (x & Y1 & Y2). destruct (same_units lm as_ _ _ _ _ _ _ S0 Ha) as [E1 E2].
        apply crowded_few; [rewrite E1; exact OU1|rewrite E2; exact OU2|]. eapply counted; [symmetry; exact L|exact Y1|exact Y2]. }
      split; [exact FW|]. specialize (K FW). rewrite En in K. exact K.
  Qed.

  (** Without the slack it fails: one base unit of 0.1, still quoted at 1 and then at 3,
      gains an ulp more than threefold. *)
  Definition gf_config : @account_config I :=
    @AccountConfig I (@flit I 1 10) (f32_of_Z 0) (@flit I 1 10) (@flit I 1 100)
                   (pf_fee lm as_) (pf_fee lm as_) (pf_fee lm as_) (@flit I 1 2) (@flit I 1 2).
  Definition gf_ticks : list (@ohlc_tick I) := [pf_tick lm as_ 60 1 1 1 1 0; pf_tick lm as_ 120 3 3 3 3 0].

  Theorem C126_slack_refuted :
    exists te res, @GetTrader I "rebalancing"%string = Done te /\
      ok_config gf_config /\ float_whole (opening_account gf_config) /\ strictly_ordered gf_ticks /\
      ExecuteTrader gf_config None true te null_logger false gf_ticks tt = Done (res, tt) /\
      r_total_executed_orders res = 0%Z /\
      B2R (r_start_value res : f32) * rises (B2R (r_start_price res : f32)) [B2R (r_end_price res : f32)]
        < B2R (r_end_value res : f32) + B2R (r_total_fee res : f32).
  Proof.
    exists (rebalancing_emitter default_rebalancing).
    assert (H : bind (ExecuteTrader gf_config None true (rebalancing_emitter default_rebalancing) null_logger false gf_ticks tt)
                  (fun x => Done (r_total_executed_orders (fst x), B2SF (r_start_value (fst x) : f32), B2SF (r_start_price (fst x) : f32),
                                  B2SF (r_end_price (fst x) : f32), B2SF (r_end_value (fst x) : f32), B2SF (r_total_fee (fst x) : f32)))
              = Done (0%Z, SpecFloat.S754_finite false 13421773 (-27), SpecFloat.S754_finite false 8388608 (-23), SpecFloat.S754_finite false 12582912 (-22),
                      SpecFloat.S754_finite false 10066330 (-25), SpecFloat.S754_zero false)).
    { clear. unfold gf_config, gf_ticks. destruct as_; vm_compute; reflexivity. }
    apply bind_done in H as ([res []] & H & E). cbn [fst] in E. injection E as E1 E2 E3 E4 E5 E6.
    exists res. split; [reflexivity|].
    split. { destruct (pf_open lm as_) as [[F1 F2 F3] _ _ _ _ _]. constructor; [exact F1|exact F2|exact F3]. }
    split.
    { assert (U : forall (u x : f32) k, is_finite u = true -> (Rabs (B2R u) <= bpow radix2 20)%R -> (0 <= k <= 1)%Z ->
                    B2SF x = B2SF (Bmult mode_NE u (f32_of_Z k)) -> float_units u x).
      { intros u x k Fu Hu Hk E. apply B2SF_inj in E. rewrite E. apply mult_units; [lia|exact Fu|].
        assert (0 <= IZR k <= 1)%R by (split; apply IZR_le; lia). rewrite Rabs_mult, (Rabs_pos_eq (IZR k)) by lra.
        assert (bpow radix2 20 <= bpow radix2 100) by (apply bpow_le; lia). pose proof (Rabs_pos (B2R u)). nra. }
      assert (K : 1 <= bpow radix2 20) by (change 1 with (bpow radix2 0); apply bpow_le; lia).
      lit_fact (@flit I 1 10). lit_fact (@flit I 1 100).
      split; [|split]; cbn [opening_account gf_config base_unit quote_unit base_balance quote_balance total_fee cfg_base_unit cfg_quote_unit start_base_balance start_quote_balance].
      - apply U with (k := 1%Z); [assumption| |lia|vm_compute; reflexivity].
        match goal with V : B2R (@flit I 1 10) = _ |- _ => rewrite V end. rewrite Rabs_pos_eq; lra.
      - apply U with (k := 0%Z); [assumption| |lia|vm_compute; reflexivity].
        match goal with V : B2R (@flit I 1 100) = _ |- _ => rewrite V end. rewrite Rabs_pos_eq; lra.
      - apply U with (k := 0%Z); [assumption| |lia|vm_compute; reflexivity].
        match goal with V : B2R (@flit I 1 100) = _ |- _ => rewrite V end. rewrite Rabs_pos_eq; lra. }
    split.
    { split.
      + intros t Ht. cbn in Ht. repeat (destruct Ht as [<-|Ht]; [cbn; lia|]). destruct Ht.
      + intros i j t t' H1 H2 L. destruct i as [|[|i]], j as [|[|j]]; cbn in H1, H2; try lia; try discriminate; try (destruct i; discriminate); try (destruct j; discriminate);
          injection H1 as <-; injection H2 as <-; cbn; lia. }
    split; [exact H|]. split; [exact E1|].
    assert (G : forall x : f32, B2R x = SF2R radix2 (B2SF x)) by (intros x; symmetry; apply SF2R_B2SF).
    change (@flt I) with f32 in *. rewrite !G, E2, E3, E4, E5, E6. cbn [rises rise SF2R].
    unfold F2R, rise; cbn [Fnum Fexp cond_Zopp].
    change (bpow radix2 (-27)) with (/ 134217728). change (bpow radix2 (-23)) with (/ 8388608).
    change (bpow radix2 (-22)) with (/ 4194304). change (bpow radix2 (-25)) with (/ 33554432).
    replace (IZR 12582912 * / 4194304 / (IZR 8388608 * / 8388608)) with 3 by lra.
    rewrite Rmax_right by lra. lra.
  Qed.
End Example.
