(** Properties of the account that hold for any arithmetic. *)
From Coq Require Import ZArith Bool List.
From Verif.Model Require Import Outcome Machine Types Account.
From Verif.Spec Require Import OrderSpec.
From Verif.Proofs Require Import Base.

Section Any.
  Context {M : machine}.

  Lemma same_settings_refl a : same_settings a a.
  Proof. repeat split. Qed.

  (** Every path of these operations ends in [Done (false, a)], in
      [Done (true, set_balances a ..)] or in another operation of this kind. *)
  Ltac path :=
    repeat match goal with
    | H : bind (assert_ _) _ = Done _ |- _ =>
      let u := fresh in let Hu := fresh in apply bind_done in H as (u & Hu & H)
    | H : (if ?b then _ else _) = Done _ |- _ => destruct b eqn:?
    | H : Done (false, _) = Done _ |- _ => injection H as <- <-
    | H : Done (true, _) = Done _ |- _ => injection H as <- <-
    end;
    try solve [split; [reflexivity || discriminate | repeat split]].

  Lemma BuyBase_all fc x p : all_or_nothing (BuyBase fc x p).
  Proof. intros a ok a' H. unfold BuyBase in H. path. Qed.
  Lemma SellBase_all fc x p : all_or_nothing (SellBase fc x p).
  Proof. intros a ok a' H. unfold SellBase in H. path. Qed.
  Lemma BuyAtQuote_all fc x p m : all_or_nothing (BuyAtQuote fc x p m).
  Proof. intros a ok a' H. unfold BuyAtQuote in H. path. eapply BuyBase_all; exact H. Qed.
  Lemma SellAtQuote_all fc x p m : all_or_nothing (SellAtQuote fc x p m).
  Proof. intros a ok a' H. unfold SellAtQuote in H. path. eapply SellBase_all; exact H. Qed.

  Ltac path2 :=
    path; first [eapply BuyBase_all; eassumption | eapply SellBase_all; eassumption
                | eapply BuyAtQuote_all; eassumption | eapply SellAtQuote_all; eassumption].
  Lemma MarketBuy_all fc t x : all_or_nothing (MarketBuy fc t x).
  Proof. intros a ok a' H. unfold MarketBuy in H. path2. Qed.
  Lemma MarketBuyAtQuote_all fc t x : all_or_nothing (MarketBuyAtQuote fc t x).
  Proof. intros a ok a' H. unfold MarketBuyAtQuote in H. path2. Qed.
  Lemma MarketSell_all fc t x : all_or_nothing (MarketSell fc t x).
  Proof. intros a ok a' H. unfold MarketSell in H. path2. Qed.
  Lemma MarketSellAtQuote_all fc t x : all_or_nothing (MarketSellAtQuote fc t x).
  Proof. intros a ok a' H. unfold MarketSellAtQuote in H. path2. Qed.
  Lemma StopBuy_all fc t x p : all_or_nothing (StopBuy fc t x p).
  Proof. intros a ok a' H. unfold StopBuy in H. path2. Qed.
  Lemma StopBuyAtQuote_all fc t x p : all_or_nothing (StopBuyAtQuote fc t x p).
  Proof. intros a ok a' H. unfold StopBuyAtQuote in H. path2. Qed.
  Lemma StopSell_all fc t x p : all_or_nothing (StopSell fc t x p).
  Proof. intros a ok a' H. unfold StopSell in H. path2. Qed.
  Lemma StopSellAtQuote_all fc t x p : all_or_nothing (StopSellAtQuote fc t x p).
  Proof. intros a ok a' H. unfold StopSellAtQuote in H. path2. Qed.
  Lemma LimitBuy_all fc t x p : all_or_nothing (LimitBuy fc t x p).
  Proof. intros a ok a' H. unfold LimitBuy in H. path2. Qed.
  Lemma LimitBuyAtQuote_all fc t x p : all_or_nothing (LimitBuyAtQuote fc t x p).
  Proof. intros a ok a' H. unfold LimitBuyAtQuote in H. path2. Qed.
  Lemma LimitSell_all fc t x p : all_or_nothing (LimitSell fc t x p).
  Proof. intros a ok a' H. unfold LimitSell in H. path2. Qed.
  Lemma LimitSellAtQuote_all fc t x p : all_or_nothing (LimitSellAtQuote fc t x p).
  Proof. intros a ok a' H. unfold LimitSellAtQuote in H. path2. Qed.

  Theorem ExecuteOrder_all c o t : all_or_nothing (ExecuteOrder c o t).
  Proof.
    intros a ok a' H. unfold ExecuteOrder in H.
    apply bind_done in H as (u & _ & H).
    destruct (get_type o); destruct (is_buy (get_side o)); path;
      first [eapply MarketBuy_all; eassumption
            | eapply MarketBuyAtQuote_all; eassumption
            | eapply MarketSell_all; eassumption
            | eapply MarketSellAtQuote_all; eassumption
            | eapply StopBuy_all; eassumption
            | eapply StopBuyAtQuote_all; eassumption
            | eapply StopSell_all; eassumption
            | eapply StopSellAtQuote_all; eassumption
            | eapply LimitBuy_all; eassumption
            | eapply LimitBuyAtQuote_all; eassumption
            | eapply LimitSell_all; eassumption
            | eapply LimitSellAtQuote_all; eassumption].
  Qed.

  (** An executed operation has rounded the balances it stored. *)
  Definition rounds (a a' : account) : Prop :=
    (exists x, base_balance a' = Round x (base_unit a)) /\
    (exists x, quote_balance a' = Round x (quote_unit a)) /\
    (exists x, total_fee a' = Round x (quote_unit a)) /\ same_settings a a'.

  Ltac path3 :=
    repeat match goal with
    | H : bind (assert_ _) _ = Done _ |- _ =>
      let u := fresh in let Hu := fresh in apply bind_done in H as (u & Hu & H)
    | H : (if ?b then _ else _) = Done _ |- _ => destruct b eqn:?
    | H : Done (false, _) = Done (true, _) |- _ => discriminate H
    | H : Done (true, _) = Done _ |- _ => injection H as <-
    end.
  Lemma BuyBase_rounds fc x p a a' : BuyBase fc x p a = Done (true, a') -> rounds a a'.
  Proof. intros H. unfold BuyBase in H. path3. repeat split; eexists; reflexivity. Qed.
  Lemma SellBase_rounds fc x p a a' : SellBase fc x p a = Done (true, a') -> rounds a a'.
  Proof. intros H. unfold SellBase in H. path3. repeat split; eexists; reflexivity. Qed.

  Lemma ExecuteOrder_rounds c o t a a' : ExecuteOrder c o t a = Done (true, a') -> rounds a a'.
  Proof.
    intros H. unfold ExecuteOrder, MarketBuy, MarketSell, MarketBuyAtQuote, MarketSellAtQuote, StopBuy,
      StopBuyAtQuote, StopSell, StopSellAtQuote, LimitBuy, LimitBuyAtQuote, LimitSell, LimitSellAtQuote,
      BuyAtQuote, SellAtQuote in H.
    apply bind_done in H as (u & _ & H).
    destruct (get_type o); destruct (is_buy (get_side o)); path3;
      first [eapply BuyBase_rounds; eassumption | eapply SellBase_rounds; eassumption].
  Qed.

  Lemma IsValidOrder_wf o : IsValidOrder o = true <-> well_formed_order o.
  Proof.
    unfold IsValidOrder, well_formed_order. split.
    - intros H. apply andb_true_iff in H as [H Ham]. apply andb_true_iff in H as [H Hpr].
      apply andb_true_iff in H as [Hty Hsd].
      destruct (o_type o) as [ty|] eqn:Ety; [|discriminate].
      destruct (o_side o) as [sd|] eqn:Esd; [|discriminate].
      assert (Hpos : positive_amount (o_amount o)).
      { unfold is_base_amount, is_quote_amount, get_base_amount, get_quote_amount in Ham.
        destruct (o_amount o); cbn in *; rewrite ?orb_false_r in Ham; auto; discriminate. }
      destruct ty.
      + exists MARKET, sd, (o_amount o), (fofZ 0). apply order_is_market; auto.
      + unfold get_type, get_price in Hpr. rewrite Ety in Hpr. cbn in Hpr.
        destruct (o_price o) as [p|] eqn:Ep; [|discriminate]. cbn in Hpr.
        exists STOP, sd, (o_amount o), p. apply order_is_priced; auto; discriminate.
      + unfold get_type, get_price in Hpr. rewrite Ety in Hpr. cbn in Hpr.
        destruct (o_price o) as [p|] eqn:Ep; [|discriminate]. cbn in Hpr.
        exists LIMIT, sd, (o_amount o), p. apply order_is_priced; auto; discriminate.
    - intros (ty & sd & am & p & H).
      assert (Hpos : positive_amount am -> o_amount o = am ->
        ((is_base_amount o && fltb (fofZ 0) (get_base_amount o)) ||
         (is_quote_amount o && fltb (fofZ 0) (get_quote_amount o))) = true).
      { intros Hp Hm. unfold is_base_amount, is_quote_amount, get_base_amount, get_quote_amount.
        rewrite Hm. destruct am; cbn in *; [contradiction| |]; rewrite Hp; reflexivity. }
      destruct H as [sd am p Hty Hsd Ham Hp | ty sd am p Hne Hty Hsd Ham Hp Hpr Hpp];
        unfold get_type, get_price; rewrite Hty, Hsd, (Hpos Hp Ham); cbn.
      + reflexivity.
      + rewrite Hpr. cbn. rewrite Hpp. destruct ty; reflexivity.
  Qed.

  Lemma malformed_aborts c o t a :
    asserts_on = true -> ~ well_formed_order o -> ExecuteOrder c o t a = AssertFail.
  Proof.
    intros Hon Hwf. unfold ExecuteOrder, assert_. rewrite Hon.
    destruct (IsValidOrder o) eqn:E; [|reflexivity].
    exfalso. apply Hwf, IsValidOrder_wf, E.
  Qed.

  Lemma dispatch c o t a ty sd am p :
    order_is o ty sd am p -> operation c t a ty sd am p = Some (ExecuteOrder c o t a).
  Proof.
    intros H. assert (Hv : IsValidOrder o = true).
    { apply IsValidOrder_wf. exists ty, sd, am, p. exact H. }
    unfold ExecuteOrder. rewrite Hv, assert_true. cbn [bind].
    unfold get_type, get_side, is_base_amount, is_quote_amount, get_base_amount, get_quote_amount, get_price.
    destruct H as [sd am p Hty Hsd Ham Hp | ty sd am p Hne Hty Hsd Ham Hp Hpr Hpp].
    - rewrite Hty, Hsd, Ham. destruct sd, am; cbn; try contradiction; rewrite ?assert_true; reflexivity.
    - rewrite Hty, Hsd, Ham, Hpr. destruct ty, sd, am; cbn; try contradiction; rewrite ?assert_true;
        try reflexivity; exfalso; auto.
  Qed.
End Any.
