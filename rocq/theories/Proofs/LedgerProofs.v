(** The books of a run balance (exact arithmetic). *)
From Coq Require Import Reals ZArith List Lra Lia Bool.
From Flocq Require Import Core.
From Verif.Model Require Import Outcome Machine Types Account SideInput MachineR Eval.
From Verif.Spec Require Import AccountSpec OrderSpec RunSpec LedgerSpec.
From Verif.Proofs Require Import Base AccountExact AccountAny RunProofs.
Import ListNotations.
Local Open Scope R_scope.

Section Ledger.
  Context (sh : R -> String.string) (as_ : bool).
  Local Notation E := (exact sh as_).
  Implicit Types (a : @account E) (t : @ohlc_tick E).

  Lemma ledger_app (c : @account_config E) a es1 a1 es2 a2 :
    ledger c a es1 a1 -> ledger c a1 es2 a2 -> ledger c a (es1 ++ es2) a2.
  Proof. intros H. revert a2. induction H as [a|a e a1 es a3 F B P V L IH]; intros b2 K; [exact K|]. cbn [app]. econstructor; eauto. Qed.

  Lemma order_well_formed (o : @order E) : @well_formed_order E o -> well_formed o.
  Proof.
    assert (P : forall x : @flt E, @positive E x -> 0 < (x : R)).
    { intros x H. unfold positive in H. cbn [fltb fofZ exact] in H. destruct (Rlt_bool_spec 0 x); [assumption|discriminate]. }
    assert (PA : forall am : @order_amount E, @positive_amount E am ->
      match am with NoAmount => False | BaseAmount x => 0 < (x : R) | QuoteAmount x => 0 < (x : R) end).
    { intros [|x|x] H; cbn in H; [contradiction|apply P, H|apply P, H]. }
    intros (ty & sd & am & p & H). destruct H as [sd am p H1 H2 H3 H4|ty sd am p H0 H1 H2 H3 H4 H5 H6].
    - exists MARKET, sd, 0, am. constructor; auto. apply PA, H4.
    - exists ty, sd, (p : R), am. constructor; auto. apply PA, H4.
  Qed.

  Lemma between_range l x y lo hi : 0 <= l <= 1 -> lo <= x <= hi -> lo <= y <= hi -> lo <= between l x y <= hi.
  Proof. intros Hl Hx Hy. unfold between. split; nra. Qed.

  Lemma offered (c : @account_config E) a t ty sd limit tr :
    sane_account a -> sane_tick t -> triggered ty sd limit t -> tr_side tr = sd ->
    tr_price tr = execution_price (market_liquidity a) ty sd limit t ->
    price_offered (Entry t ty tr).
  Proof.
    intros Ha [T1 T2 T3 T4 T5 T6] Htr Hs Hp. pose proof (sa_liquidity a Ha) as Hl. unfold price_offered. cbn [en_tick en_type en_trade].
    rewrite Hs, Hp. change (@flt E) with R in *.
    destruct ty, sd; cbn [execution_price triggered] in *; try (apply between_range; [exact Hl|..]); try lra;
      unfold Rmax, Rmin; try destruct (Rle_dec _ _); lra.
  Qed.

  Lemma tried_ledger (c : @account_config E) t atts : forall a,
    sane_config c -> sane_account a -> sane_tick t ->
    (as_ = true \/ Forall (fun x => well_formed (fst (fst x))) atts) ->
    tried c t a atts ->
    exists es, ledger c a es (att_account a atts) /\ sane_account (att_account a atts) /\
      length es = length (executed atts) /\ Forall (fun e => en_tick e = t) es.
  Proof.
    induction atts as [|[[o ok] a1] atts IH]; intros a Hc Ha Ht Hw H.
    - exists []. split; [constructor|]. split; [exact Ha|]. split; [reflexivity|constructor].
    - destruct H as [HE H]. rewrite att_account_cons.
      assert (Hwf : well_formed o).
      { destruct Hw as [Hw|Hw]; [|inversion Hw; assumption]. apply order_well_formed.
        destruct (Classical_Prop.classic (@well_formed_order E o)) as [W|W]; [exact W|exfalso];
          rewrite (malformed_aborts c o t a Hw W) in HE; discriminate. }
      destruct Hwf as (ty & sd & limit & am & Hp).
      destruct (ExecuteOrder_trade c o t a ty sd limit am Hc Ha Ht Hp) as (ok' & a'' & HE' & Hno & Hyes).
      rewrite HE in HE'. injection HE' as <- <-.
      assert (Hw' : as_ = true \/ Forall (fun x => well_formed (fst (fst x))) atts)
        by (destruct Hw as [Hw|Hw]; [left; exact Hw|right; inversion Hw; assumption]).
      destruct ok.
      + destruct (Hyes eq_refl) as (Htr & tr & Hs & Hpr & Hfair & Hbk & _ & Hcap).
        assert (Hsf : sane_fees (fees_of c ty)) by (destruct Hc, ty; assumption).
        assert (Ha1 : sane_account a1) by (eapply booked_sane; eauto).
        destruct (IH a1 Hc Ha1 Ht Hw' H) as (es & L & S1 & Hlen & Hin).
        exists (Entry t ty tr :: es). split; [|split; [exact S1|split]].
        * econstructor; [exact Hfair|exact Hbk|apply (offered c a t ty sd limit tr); assumption|exact Hcap|exact L].
        * cbn [executed filter fst snd length]. f_equal. exact Hlen.
        * constructor; [reflexivity|exact Hin].
      + rewrite (Hno eq_refl) in *. destruct (IH a Hc Ha Ht Hw' H) as (es & L & S1 & Hlen & Hin).
        exists es. auto.
  Qed.

  Lemma emitted_well_formed (c : @account_config E) hist te ticks rows :
    careful te -> story c hist te ticks rows ->
    forall st os, last_update rows = Some (st, os) -> Forall well_formed os.
  Proof.
    intros Hcf [_ Hok] st os. induction rows as [|r rows IH] using rev_ind; [discriminate|].
    rewrite last_update_snoc. destruct (w_update r) as [[st1 os1]|] eqn:E.
    - intros H. injection H as -> ->. destruct (Hok rows r [] eq_refl) as [_ _ _ _ Hu]. rewrite E in Hu. destruct Hu as [_ Hu].
      eapply Hcf. exact Hu.
    - apply IH. intros b x a Eb. apply (Hok b x (a ++ [r])). rewrite Eb, <- app_assoc. reflexivity.
  Qed.

  Theorem story_ledger (c : @account_config E) hist te ticks rows :
    sane_config c -> sane_account (opening_account c) -> Forall sane_tick ticks ->
    (as_ = true \/ careful te) -> story c hist te ticks rows ->
    exists es, ledger c (opening_account c) es (final_account c rows) /\ sane_account (final_account c rows) /\
      Z.of_nat (length es) = executed_count rows /\ Forall (fun e => In (en_tick e) ticks) es /\
      (forall r, In r rows -> sane_account (account_after r)) /\ in_tick_order ticks es.
  Proof.
    intros Hc Ha0 Ht Hw. revert ticks Ht. induction rows as [|r rows IH] using rev_ind; intros ticks Ht Hst.
    - exists []. destruct Hst as [<- _]. cbn. split; [constructor|]. split; [exact Ha0|]. split; [reflexivity|]. split; [constructor|]. split; [intros ? []|]. exists []. split; [reflexivity|constructor].
    - assert (Hticks : exists tk t, ticks = tk ++ [t] /\ story c hist te tk rows /\ w_tick r = t /\ row_ok c hist te rows r).
      { pose proof Hst as [Hm Hok]. rewrite map_app in Hm. exists (map w_tick rows), (w_tick r). split; [symmetry; exact Hm|].
        split; [split; [reflexivity|]|split; [reflexivity|apply (Hok rows r []); reflexivity]].
        intros b x a Eb. apply (Hok b x (a ++ [r])). rewrite Eb, <- app_assoc. reflexivity. }
      destruct Hticks as (tk & t & -> & Hst' & Hr & Hrow). apply Forall_app in Ht as [Ht1 Ht2]. inversion Ht2 as [|? ? Ht3 _]; subst.
      destruct (IH tk Ht1 Hst') as (es & L & S1 & Hlen & Hin & Hall & parts & Hcat & Hpart).
      destruct Hrow as [Ra Ro Rt _ _].
      assert (Ra' : w_account r = final_account c rows) by exact Ra.
      destruct (tried_ledger c (w_tick r) (w_attempts r) (w_account r) Hc) as (es2 & L2 & S2 & Hlen2 & Hin2);
        [rewrite Ra'; exact S1|exact Ht3| |exact Rt|].
      { destruct Hw as [Hw|Hw]; [left; exact Hw|right].
        assert (F : Forall well_formed (map (fun x => fst (fst x)) (w_attempts r))).
        { rewrite Ro. destruct (last_update rows) as [[st os]|] eqn:EU; [|constructor]. eapply emitted_well_formed; eassumption. }
        rewrite Forall_map in F. exact F. }
      exists (es ++ es2). rewrite final_account_snoc.
      change (account_after r) with (att_account (w_account r) (w_attempts r)).
      split; [eapply ledger_app; [exact L|rewrite <- Ra'; exact L2]|]. split; [exact S2|]. split; [|split; [|split]].
      + rewrite app_length. unfold executed_count in *. rewrite flat_map_app, app_length. cbn [flat_map]. rewrite app_nil_r. lia.
      + apply Forall_app. split; [eapply Forall_impl; [|exact Hin]; intros e He; apply in_or_app; left; exact He|].
        eapply Forall_impl; [|exact Hin2]. intros e He. rewrite He. apply in_or_app. right. left. reflexivity.
      + intros r' Hr'. apply in_app_or in Hr' as [Hr'|[<-|[]]]; [apply Hall, Hr'|exact S2].
      + exists (parts ++ [es2]). rewrite concat_app, Hcat. cbn [concat]. rewrite app_nil_r. split; [reflexivity|].
        apply Forall2_app; [exact Hpart|constructor; [exact Hin2|constructor]].
  Qed.

  Lemma ledger_totals (c : @account_config E) a es a' : ledger c a es a' ->
    (base_balance a' : R) = base_balance a + total base_change es /\
    (quote_balance a' : R) = quote_balance a + total quote_change es - total tr_fee es /\
    (total_fee a' : R) = total_fee a + total tr_fee es.
  Proof.
    induction 1 as [a|a e a1 es a2 _ Hb _ _ _ (I1 & I2 & I3)]; cbn [total fold_right].
    - change (@flt E) with R in *. lra.
    - destruct Hb as (Hb & Hf & _). unfold base_change, quote_change in *. fold (total base_change es) (total quote_change es) (total tr_fee es) in *.
      change (@flt E) with R in *. destruct (tr_side (en_trade e)); destruct Hb as [Hb1 Hb2]; rewrite I1, I2, I3, Hb1, Hb2, Hf;
        unfold total, base_change, quote_change; repeat split; lra.
  Qed.

  Lemma fee_nonneg (fc : @fee_config E) (u amount f : R) : sane_fees fc -> 0 <= u -> fee_due fc u amount f -> 0 <= f.
  Proof.
    intros [H1 H2 H3] Hu [_ H]. pose proof (Rmax_l (minimum_fee fc) (fixed_fee fc + relative_fee fc * amount)).
    change (@flt E) with R in *. destruct (Req_EM_T u 0); lra.
  Qed.

  Lemma ledger_fees (c : @account_config E) a es a' : sane_config c -> 0 <= (quote_unit a : R) -> ledger c a es a' ->
    Forall (fun e => 0 <= tr_fee (en_trade e)) es.
  Proof.
    intros Hc Hq H. induction H as [a|a e a1 es a2 Hf Hb _ _ _ IH]; constructor.
    - eapply fee_nonneg; [|exact Hq|apply (ft_fee _ _ _ Hf)]. destruct Hc, (en_type e); assumption.
    - apply IH. destruct Hb as (_ & _ & _ & -> & _). exact Hq.
  Qed.

  Lemma entry_value (c : @account_config E) a (e : @entry sh as_) a1 p :
    0 <= (quote_unit a : R) -> fair_trade (fees_of c (en_type e)) a (en_trade e) -> booked a (en_trade e) a1 ->
    price_offered e -> (low (en_tick e) : R) = p -> (high (en_tick e) : R) = p ->
    value a1 p + (total_fee a1 - total_fee a) <= value a p.
  Proof.
    intros Hu [_ _ Hnn Hq _ _] (Hb & Hf & _) Hp Hlo Hhi. unfold value. unfold price_offered in Hp.
    change (@flt E) with R in *. rewrite Hlo, Hhi in Hp. rewrite Hf.
    set (b := tr_base (en_trade e)) in *. set (pr := tr_price (en_trade e)) in *. set (q := tr_quote (en_trade e)) in *.
    destruct (tr_side (en_trade e)); destruct Hb as [-> ->]; destruct Hq as [_ Hq].
    - assert (p <= pr) by (destruct (en_type e); lra). assert (b * p <= b * pr) by (apply Rmult_le_compat_l; assumption).
      destruct (Req_EM_T (quote_unit a) 0); lra.
    - assert (pr <= p) by (destruct (en_type e); lra). assert (b * pr <= b * p) by (apply Rmult_le_compat_l; assumption).
      destruct (Req_EM_T (quote_unit a) 0); lra.
  Qed.

  Theorem ledger_flat (c : @account_config E) a es a' p :
    0 <= (quote_unit a : R) -> ledger c a es a' -> Forall (fun e => flat_at p (en_tick e)) es ->
    value a' p + (total_fee a' - total_fee a) <= value a p.
  Proof.
    intros Hu H. induction H as [a|a e a1 es a2 Hf Hb Hp _ _ IH]; intros HF.
    - change (@flt E) with R in *. lra.
    - apply Forall_cons_iff in HF as [(_ & Hh & Hlo & _) HF'].
      assert (Hu1 : 0 <= (quote_unit a1 : R)) by (destruct Hb as (_ & _ & _ & -> & _); exact Hu).
      specialize (IH Hu1 HF'). pose proof (entry_value c a e a1 p Hu Hf Hb Hp Hlo Hh).
      change (@flt E) with R in *. lra.
  Qed.
End Ledger.
