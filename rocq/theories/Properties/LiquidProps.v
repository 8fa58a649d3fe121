(** C122: a more liquid market. *)
From Coq Require Import Reals ZArith Bool List Lra Lia.
From Flocq Require Import Core BinarySingleNaN.
From Verif.Model Require Import Outcome Machine Types Account MachineR MachineIEEE.
From Verif.Spec Require Import AccountSpec OrderSpec QuoteSpec BetterSpec LiquidSpec.
From Verif.Proofs Require Import Base AccountExact AccountAny QuoteProofs.
From Verif.Properties Require Import BetterProps.
Import ListNotations.
Local Open Scope R_scope.

Section Exact.
  Context (sh : R -> String.string) (as_ : bool).
  Local Notation E := (exact sh as_).

  Lemma between_mono l l' x y : l <= l' -> (x <= y -> between l' x y <= between l x y) /\ (y <= x -> between l x y <= between l' x y).
  Proof.
    intros H. unfold between. split; intros K; nra.
  Qed.

  (** In a more liquid market a buyer pays no more and a seller gets no less. *)
  Lemma price_mono (l l' : R) ty sd limit (t : @ohlc_tick E) : sane_tick t -> triggered ty sd limit t -> l <= l' ->
    match sd with
    | BUY => execution_price l' ty sd limit t <= execution_price l ty sd limit t
    | SELL => execution_price l ty sd limit t <= execution_price l' ty sd limit t
    end.
  Proof.
    intros [H1 H2 H3 H4 H5 H6] T L.
    destruct ty, sd; cbn [execution_price triggered] in *; try (apply (between_mono l l'); [exact L|]); try lra; try assumption.
    - apply Rmax_lub; assumption.
    - apply Rmin_glb; assumption.
  Qed.

  (** What is left of the proceeds grows with them, if fees are at most 100%. *)
  Lemma net_mono (fc fc' : @fee_config E) u c c' g g' :
    0 <= u -> sane_fees fc' -> (relative_fee fc' : R) <= 1 -> exact_cheaper fc fc' -> 0 <= c ->
    whole_units u c -> whole_units u c' -> c <= c' ->
    fee_due fc u c g -> fee_due fc' u c' g' -> c - g <= c' - g'.
  Proof.
    intros U [S1 S2 S3] R1 (K1 & K2 & K3) C0 Wc Wc' L (Wg & Hg) (Wg' & Hg').
    assert (M : Rmax (minimum_fee fc') (fixed_fee fc' + relative_fee fc' * c') <=
                Rmax (minimum_fee fc) (fixed_fee fc + relative_fee fc * c) + (c' - c)).
    { change (@flt E) with R in *. apply Rmax_lub.
      - pose proof (Rmax_l (minimum_fee fc : R) (fixed_fee fc + relative_fee fc * c)). lra.
      - pose proof (Rmax_r (minimum_fee fc : R) (fixed_fee fc + relative_fee fc * c)).
        assert ((relative_fee fc' : R) * (c' - c) <= 1 * (c' - c)) by (apply Rmult_le_compat_r; lra).
        assert ((relative_fee fc' : R) * c <= relative_fee fc * c) by (apply Rmult_le_compat_r; lra). lra. }
    change (@flt E) with R in *. set (m := Rmax (minimum_fee fc) _) in *. set (m' := Rmax (minimum_fee fc') _) in *.
    destruct (Req_EM_T u 0) as [->|N]; [lra|].
    destruct Wc as [?|(kc & ->)]; [contradiction|]. destruct Wc' as [?|(kc' & ->)]; [contradiction|].
    destruct Wg as [?|(kg & ->)]; [contradiction|]. destruct Wg' as [?|(kg' & ->)]; [contradiction|].
    assert (X : IZR kg' * u < (IZR kg + IZR kc' - IZR kc + 1) * u) by lra.
    apply Rmult_lt_reg_r in X; [|lra]. rewrite <- plus_IZR, <- minus_IZR, <- plus_IZR in X. apply lt_IZR in X.
    assert (Y : (kc - kg <= kc' - kg')%Z) by lia. apply IZR_le in Y. rewrite !minus_IZR in Y. nra.
  Qed.

  Lemma asked_same (a a' : @account E) t ty x r :
    base_unit a' = base_unit a -> max_volume_ratio a' = max_volume_ratio a -> asked_base a t ty x r -> asked_base a' t ty x r.
  Proof. unfold asked_base, volume_cap. intros -> ->. auto. Qed.

  Lemma cap_unique (a : @account E) t x y : 0 <= (base_unit a : R) -> volume_cap a t x -> volume_cap a t y -> x = y.
  Proof.
    unfold volume_cap. intros U. destruct (Rlt_dec 0 (max_volume_ratio a)); [apply rounded_down_unique; exact U|congruence].
  Qed.

  (** The amount traded is determined by the order, the tick and the settings. *)
  Lemma base_traded (a : @account E) t ty x tr : amount_respected a t ty (@BaseAmount E x) tr ->
    exists r, asked_base a t ty x r /\ rounded_near (base_unit a) r (tr_base tr).
  Proof.
    intros H. destruct ty; cbn in *; eauto. destruct H as (cap & H1 & H2). exists (Rmin x cap). split; [eauto|exact H2].
  Qed.

  Lemma asked_unique (a : @account E) t ty x r r' : 0 <= (base_unit a : R) -> asked_base a t ty x r -> asked_base a t ty x r' -> r = r'.
  Proof.
    intros U. destruct ty; cbn; try congruence. intros (y & H1 & ->) (z & H2 & ->). rewrite (cap_unique a t y z U H1 H2). reflexivity.
  Qed.

  (** An executed order for a base amount is executed, too, with more money, lower fees and in
      a more liquid market, and leaves at least as much. *)
  Theorem C122_order (c c' : @account_config E) (o : @order E) (t : @ohlc_tick E) (a a' a1 : @account E) :
    sane_config c -> sane_config c' -> exact_cheaper_config c c' -> moderate c' ->
    sane_account a -> sane_account a' -> no_worse a a' -> sane_tick t -> base_order o ->
    @ExecuteOrder E c o t a = Done (true, a1) ->
    exists a1', @ExecuteOrder E c' o t a' = Done (true, a1') /\ no_worse a1 a1'.
  Proof.
    intros Hc Hc' Hch Hm Ha Ha' (U1 & U2 & U3 & U4 & U5 & U6) Ht (ty & sd & limit & x & Ho) He.
    destruct (execute_true c o t a a1 ty sd limit _ Hc Ha Ht Ho He) as (T & tr & Sd & Pr & [F1 F2 F3 F4 F5 F6] & Bk & Am & _).
    set (p := execution_price (market_liquidity a) ty sd limit t) in *.
    set (p' := execution_price (market_liquidity a') ty sd limit t).
    assert (PM : match sd with BUY => p' <= p | SELL => p <= p' end) by (apply price_mono; assumption).
    assert (P : 0 < p).
    { inversion Ho as [am Hty Hsd Hpr Ham Hpos]. apply execution_price_pos; auto; [apply Ha|]. destruct Hpr as [?|[_ ?]]; auto. }
    destruct (base_traded a t ty x tr Am) as (r & Hr & Hb). rewrite Sd, Pr in *. clear Am.
    set (b := tr_base tr) in *. set (q := tr_quote tr) in *. set (f := tr_fee tr) in *.
    assert (UQ : 0 <= (quote_unit a : R)) by apply Ha. assert (UB : 0 <= (base_unit a : R)) by apply Ha.
    assert (Q' : exists q', match sd with BUY => rounded_up (quote_unit a') (b * p') q' | SELL => rounded_down (quote_unit a') (b * p') q' end).
    { rewrite U2. destruct sd; [apply (@rounded_up_exists sh as_)|apply (@rounded_down_exists sh as_)]; exact UQ. }
    destruct Q' as (q' & Hq'). pose proof (@GetFee_due sh as_ a' (fees_of c' ty) q' (sa_quote_unit _ Ha')) as Hf'.
    set (f' := @GetFee E a' (fees_of c' ty) q') in *.
    assert (Hr' : asked_base a' t ty x r) by (apply (asked_same a); assumption).
    assert (Hb' : rounded_near (base_unit a') r b) by (rewrite U1; exact Hb).
    destruct (ExecuteOrder_base_iff c' o t a' ty sd limit x r b q' f' Hc' Ha' Ht Ho Hr' Hb' Hq' Hf') as (ok & a1' & E1 & Hiff).
    rewrite U2 in Hq', Hf'.
    assert (K : exact_cheaper (fees_of c ty) (fees_of c' ty)) by (destruct ty; apply Hch).
    assert (SF : sane_fees (fees_of c' ty)) by (destruct ty; apply Hc').
    assert (Q0 : 0 <= q /\ 0 <= q').
    { assert (0 <= p') by (left; apply execution_price_pos; auto; [apply Ha'|]; inversion Ho as [am Hty Hsd Hpr Ham Hpos]; destruct Hpr as [?|[_ ?]]; auto).
      assert (0 <= b * p) by (apply Rmult_le_pos; lra). assert (0 <= b * p') by (apply Rmult_le_pos; lra).
      assert (Z0 : forall u, 0 <= u -> rounded_up u 0 0 /\ rounded_down u 0 0).
      { intros u Hu. assert (whole_units u 0) by (right; exists 0%Z; cbn; ring).
        split; (split; [assumption|]; destruct (Req_EM_T u 0); [reflexivity|lra]). }
      destruct (Z0 _ UQ) as [Z1 Z2].
      destruct sd; split;
        first [solve [apply (rounded_up_mono (quote_unit a) 0 0 (b * p) q); assumption] | solve [apply (rounded_down_mono (quote_unit a) 0 0 (b * p) q); assumption]
              | solve [apply (rounded_up_mono (quote_unit a) 0 0 (b * p') q'); assumption]
              | solve [apply (rounded_down_mono (quote_unit a) 0 0 (b * p') q'); assumption]]. }
    destruct Q0 as [Q0 Q0'].
    (* the better trade *)
    assert (G : match sd with BUY => q' + f' <= q + f | SELL => q - f <= q' - f' end).
    { destruct sd.
      - assert (L : q' <= q) by (apply (rounded_up_mono (quote_unit a) (b * p') q' (b * p) q); auto; apply Rmult_le_compat_l; assumption).
        assert (L2 : f' <= f).
        { unfold fee_due in *. apply (rounded_up_mono _ _ _ _ _ UQ Hf' F5). destruct K as (M1 & M2 & M3). destruct SF as [S1 S2 S3].
          change (@flt E) with R in *. apply Rmax_lub; [eapply Rle_trans; [exact M3|apply Rmax_l]|].
          eapply Rle_trans; [|apply Rmax_r]. apply Rplus_le_compat; [exact M2|]. apply Rmult_le_compat; assumption. }
        lra.
      - assert (L : q <= q') by (apply (rounded_down_mono (quote_unit a) (b * p) q (b * p') q'); auto; apply Rmult_le_compat_l; assumption).
        apply (net_mono (fees_of c ty) (fees_of c' ty) (quote_unit a) q q' f f'); auto; [apply F4|apply Hq']. }
    assert (OK : ok = true).
    { apply Hiff. split; [exact T|]. rewrite U1, U2. change (@flt E) with R in *. split; [exact F2|]. destruct sd; lra. }
    subst ok. exists a1'. split; [exact E1|].
    destruct (execute_true c' o t a' a1' ty sd limit _ Hc' Ha' Ht Ho E1) as (_ & tr' & Sd' & Pr' & [G1 G2 G3 G4 G5 G6] & Bk' & Am' & _).
    destruct (base_traded a' t ty x tr' Am') as (r' & Hr2 & Hb2). rewrite Sd', Pr' in *. clear Am'. fold p' in G4.
    assert (UB' : 0 <= (base_unit a' : R)) by apply Ha'. assert (UQ' : 0 <= (quote_unit a' : R)) by apply Ha'.
    rewrite (asked_unique a' t ty x r' r UB' Hr2 Hr') in Hb2.
    assert (EB : tr_base tr' = b) by (apply (rounded_near_unique (base_unit a') r); assumption). rewrite EB in *.
    assert (EQ : tr_quote tr' = q').
    { rewrite U2 in *. destruct sd; [apply (rounded_up_unique (quote_unit a) (b * p'))|apply (rounded_down_unique (quote_unit a) (b * p'))]; auto. }
    rewrite EQ in *.
    assert (EF : tr_fee tr' = f') by (rewrite U2 in *; apply (fee_due_unique (fees_of c' ty) (quote_unit a) q'); assumption).
    destruct Bk as (B1 & B2 & B3 & B4 & B5 & B6). destruct Bk' as (C1 & C2 & C3 & C4 & C5 & C6).
    rewrite Sd in B1. rewrite Sd', EB, EQ, EF in C1. fold b q f in B1.
    unfold no_worse. rewrite B3, B4, B5, B6, C3, C4, C5, C6. repeat split; auto; change (@flt E) with R in *; destruct sd; lra.
  Qed.
  (** So it is with every sequence of orders for base amounts that are all executed. *)
  Theorem C122_orders (c c' : @account_config E) (l : list (@order E * @ohlc_tick E)) : forall (a a' a2 : @account E),
    sane_config c -> sane_config c' -> exact_cheaper_config c c' -> moderate c' ->
    sane_account a -> sane_account a' -> no_worse a a' ->
    Forall (fun ot => base_order (fst ot) /\ sane_tick (snd ot)) l ->
    executed_all c a l a2 ->
    exists a2', executed_all c' a' l a2' /\ no_worse a2 a2'.
  Proof.
    assert (SA : forall (c : @account_config E) (o : @order E) t (a a1 : @account E), sane_config c -> sane_account a -> sane_tick t -> base_order o ->
              @ExecuteOrder E c o t a = Done (true, a1) -> sane_account a1).
    { intros d o t a a1 Hd Ha Ht (ty & sd & limit & x & Ho) He.
      destruct (execute_true d o t a a1 ty sd limit _ Hd Ha Ht Ho He) as (_ & tr & _ & _ & F & B & _).
      apply (booked_sane (fees_of d ty) a tr a1); auto. destruct ty; apply Hd. }
    intros a a' a2 Hc Hc' Hch Hm. revert a a' a2. induction l as [|(o, t) l IH]; intros a a' a2 Ha Ha' Hw Hl H; inversion H; subst.
    - exists a'. split; [constructor|exact Hw].
    - inversion Hl as [|? ? (Ho & Ht) Hl']; subst. cbn [fst snd] in *.
      match goal with HE : ExecuteOrder c o t a = Done (true, ?x) |- _ => rename x into b1; rename HE into HE1 end.
      destruct (C122_order c c' o t a a' b1 Hc Hc' Hch Hm Ha Ha' Hw Ht Ho HE1) as (b1' & E1 & W1).
      destruct (IH b1 b1' a2) as (a2' & K1 & K2); auto.
      + exact (SA c o t a b1 Hc Ha Ht Ho HE1).
      + exact (SA c' o t a' b1' Hc' Ha' Ht Ho E1).
      + exists a2'. split; [econstructor; eauto|exact K2].
  Qed.

  (** An executed buy for a quote amount is executed, too, with more money, lower fees and in
      a more liquid market, and buys at least as much. *)
  Theorem C122_quote_buy (c c' : @account_config E) (o : @order E) (t : @ohlc_tick E) (a a' a1 : @account E) ty limit x :
    sane_config c -> sane_config c' -> exact_cheaper_config c c' -> sane_account a -> sane_account a' ->
    no_worse a a' ->
    sane_tick t -> order_parts o ty BUY limit (@QuoteAmount E x) ->
    @ExecuteOrder E c o t a = Done (true, a1) ->
    exists a1', @ExecuteOrder E c' o t a' = Done (true, a1') /\
      (base_balance a1 : R) - base_balance a <= base_balance a1' - base_balance a'.
  Proof.
    intros Hc Hc' Hch Ha Ha' (U1 & U2 & U4 & U3 & _ & Hq) Ht Ho He.
    assert (X : 0 <= x) by (inversion Ho; apply Rlt_le; assumption).
    assert (CP : exists cap, base_cap a t ty cap).
    { destruct ty; cbn [base_cap]; eauto. unfold volume_cap. destruct (Rlt_dec _ _); eauto.
      destruct (@rounded_down_exists sh as_ (base_unit a) (max_volume_ratio a * volume t) (sa_base_unit _ Ha)) as (y & Hy). eauto. }
    destruct CP as (cap & CP).
    assert (CP' : base_cap a' t ty cap).
    { destruct ty; cbn [base_cap] in *; auto. unfold volume_cap in *. rewrite U1, U4. exact CP. }
    set (p := execution_price (market_liquidity a) ty BUY limit t).
    destruct (plan_exists (fees_of c ty) a BUY p x cap Ha X) as (q & f & b & cc & g & Pl).
    destruct (quote_order c o t a ty BUY limit x cap q f b cc g Hc Ha Ht Ho CP Pl) as (ok & a2 & E1 & Hiff & Hb & _).
    rewrite He in E1. injection E1 as <- <-. destruct (proj1 Hiff eq_refl) as (T & F1 & F2 & F3 & F4). destruct (Hb eq_refl) as ((B1 & _) & _).
    pose proof (@GetFee_due sh as_ a' (fees_of c' ty) q (sa_quote_unit _ Ha')) as HF'. set (f' := @GetFee E a' (fees_of c' ty) q) in *.
    assert (P : 0 < p).
    { inversion Ho as [am Hty Hsd Hpr Ham Hpos]. apply execution_price_pos; auto; [apply Ha|]. destruct Hpr as [?|[_ ?]]; auto. }
    destruct Pl as [Q1 Q2 Q3 Q4 Q5].
    assert (Q0 : 0 <= q) by (pose proof (sa_quote_unit _ Ha); change (@flt E) with R in *; lra).
    assert (LF : f' <= f).
    { unfold fee_due in *. rewrite U2 in HF'. apply (up_mono _ _ _ _ _ (sa_quote_unit _ Ha) HF' Q2).
      destruct Hch as (K1 & K2 & K3). assert (K : exact_cheaper (fees_of c ty) (fees_of c' ty)) by (destruct ty; assumption).
      destruct K as (M1 & M2 & M3). apply Rle_max_compat_l || idtac. apply Rmax_lub.
      - eapply Rle_trans; [exact M3|apply Rmax_l].
      - eapply Rle_trans; [|apply Rmax_r]. apply Rplus_le_compat; [exact M2|]. apply Rmult_le_compat_r; assumption. }
    destruct (@rounded_down_exists sh as_ (base_unit a) (Rmin ((q - f') / execution_price (market_liquidity a') ty BUY limit t) cap) (sa_base_unit _ Ha)) as (b' & Hb').
    set (p' := execution_price (market_liquidity a') ty BUY limit t).
    assert (PM : p' <= p) by (exact (price_mono _ _ ty BUY limit t Ht T U3)).
    assert (P' : 0 < p').
    { inversion Ho as [am Hty Hsd Hpr Ham Hpos]. apply execution_price_pos; auto; [apply Ha'|]. destruct Hpr as [?|[_ ?]]; auto. }
    assert (LB : b <= b').
    { apply (down_mono _ _ _ _ _ (sa_base_unit _ Ha) Q3 Hb'). apply Rle_min_compat_r. fold p'. unfold Rdiv. apply Rmult_le_compat; [lra|left; apply Rinv_0_lt_compat; exact P|lra|]. apply Rinv_le_contravar; assumption. }
    destruct (@rounded_up_exists sh as_ (quote_unit a) (b' * p') (sa_quote_unit _ Ha)) as (c1 & Hc1).
    assert (Pl' : quote_plan (fees_of c' ty) a' BUY (execution_price (market_liquidity a') ty BUY limit t) x cap q f' b' c1 (@GetFee E a' (fees_of c' ty) c1)).
    { fold p'. split; rewrite ?U1, ?U2; auto.
      - rewrite <- U2. exact HF'.
      - rewrite <- U2. apply GetFee_due. apply (sa_quote_unit _ Ha'). }
    destruct (quote_order c' o t a' ty BUY limit x cap q f' b' c1 _ Hc' Ha' Ht Ho CP' Pl') as (ok' & a1' & E1' & Hiff' & Hb1' & _).
    assert (OK : ok' = true).
    { apply Hiff'. split; [exact T|]. unfold feasible. rewrite U1, U2. change (@flt E) with R in *. lra. }
    subst ok'. exists a1'. split; [exact E1'|]. destruct (Hb1' eq_refl) as ((B1' & _) & _). cbn [tr_base] in *.
    change (@flt E) with R in *. lra.
  Qed.
End Exact.

(** *** Concrete cases. *)
Section ExampleMet.
  Context (sh : R -> String.string) (as_ : bool).
  Local Notation E := (exact sh as_).
  Definition lq_fees : @fee_config E := @FeeConfig E (1 / 100) 0 0.
  Definition lq_config : @account_config E := @AccountConfig E 0 100 1 1 lq_fees lq_fees lq_fees 0 0.
  Definition lq_account (l : R) : @account E := @Account E 0 100 0 1 1 l 0.
  Definition lq_tick : @ohlc_tick E := @OhlcTick E 300 2 3 1 2 1000.
  Definition lq_buy : @order E := @Order E (Some MARKET) (Some BUY) (@BaseAmount E 10) None.

  Lemma whole_1 z : whole_units 1 (IZR z).
  Proof. right. exists z. ring. Qed.

  (** Ten units bought at 3 (no liquidity) and at 2 (full liquidity), with a fee of 1%. *)
  Theorem C122_ex :
    (sane_config lq_config /\ exact_cheaper_config lq_config lq_config /\ moderate lq_config /\
     sane_account (lq_account 0) /\ sane_account (lq_account 1) /\ no_worse (lq_account 0) (lq_account 1) /\
     sane_tick lq_tick /\ base_order lq_buy) /\
    exists a1 a2, @ExecuteOrder E lq_config lq_buy lq_tick (lq_account 0) = Done (true, a1) /\
      @ExecuteOrder E lq_config lq_buy lq_tick (lq_account 1) = Done (true, a2) /\
      (quote_balance a1 : R) = 69 /\ (quote_balance a2 : R) = 79.
  Proof.
    assert (SF : sane_fees lq_fees) by (split; cbn; lra).
    assert (SC : sane_config lq_config) by (split; exact SF).
    assert (SA : forall l, 0 <= l <= 1 -> sane_account (lq_account l)).
    { intros l Hl. split; cbn; try lra; apply whole_1. }
    assert (ST : sane_tick lq_tick) by (split; cbn; lra).
    assert (HO : order_parts lq_buy MARKET BUY 0 (@BaseAmount E 10)) by (split; cbn; auto; lra).
    assert (RUN : forall l p q, 0 <= l <= 1 -> between l 2 3 = p -> 10 * p = IZR q -> (20 <= q <= 30)%Z ->
              exists a1, @ExecuteOrder E lq_config lq_buy lq_tick (lq_account l) = Done (true, a1) /\ (quote_balance a1 : R) = 100 - IZR q - 1).
    { intros l p q Hl Hp Hq Q. assert (IQ : 20 <= IZR q <= 30) by (split; apply IZR_le; lia).
      destruct (ExecuteOrder_base_iff lq_config lq_buy lq_tick (lq_account l) MARKET BUY 0 10 10 10 (IZR q) 1 SC (SA l Hl) ST HO) as (ok & a1 & E1 & Hiff).
      - reflexivity.
      - split; [apply whole_1|]. cbn. destruct (Req_EM_T 1 0); lra.
      - split; [apply whole_1|]. cbn. destruct (Req_EM_T 1 0); rewrite Hp; lra.
      - split; [apply whole_1|]. cbn. destruct (Req_EM_T 1 0); [lra|]. rewrite Rmax_right; lra.
      - assert (OK : ok = true) by (apply Hiff; cbn; repeat split; lra). subst ok. exists a1. split; [exact E1|].
        destruct (execute_true lq_config lq_buy lq_tick (lq_account l) a1 MARKET BUY 0 _ SC (SA l Hl) ST HO E1)
          as (_ & tr & Sd & Pr & [F1 F2 F3 F4 F5 F6] & (B1 & _) & Am & _).
        rewrite Sd in *. cbn [amount_respected] in Am.
        assert (T1 : tr_base tr = 10).
        { apply (rounded_near_unique 1 10); [lra|exact Am|]. split; [apply whole_1|]. destruct (Req_EM_T 1 0); lra. }
        rewrite T1, Pr in F4. cbn in F4. rewrite Hp, Hq in F4.
        assert (T2 : tr_quote tr = IZR q).
        { apply (rounded_up_unique 1 (IZR q)); [lra|exact F4|]. split; [apply whole_1|]. destruct (Req_EM_T 1 0); lra. }
        assert (T3 : tr_fee tr = 1).
        { apply (fee_due_unique lq_fees 1 (IZR q)); [lra|rewrite <- T2; exact F5|].
          split; [apply whole_1|]. cbn. destruct (Req_EM_T 1 0); [lra|]. rewrite Rmax_right; lra. }
        destruct B1 as [_ B1]. rewrite T2, T3 in B1. exact B1. }
    split.
    - split; [exact SC|]. split; [repeat split; apply Rle_refl|]. split; [intros ty; destruct ty; cbn; lra|].
      split; [apply SA; lra|]. split; [apply SA; lra|]. split; [repeat split; cbn; lra|]. split; [exact ST|].
      exists MARKET, BUY, 0, 10. exact HO.
    - destruct (RUN 0 3 30%Z ltac:(lra) ltac:(unfold between; lra) ltac:(lra) ltac:(lia)) as (a1 & E1 & Q1).
      destruct (RUN 1 2 20%Z ltac:(lra) ltac:(unfold between; lra) ltac:(lra) ltac:(lia)) as (a2 & E2 & Q2).
      exists a1, a2. split; [exact E1|]. split; [exact E2|]. rewrite Q1, Q2. lra.
  Qed.
End ExampleMet.

Section Refuted.
  Context (lm : libm) (as_ : bool).
  Local Notation I := (ieee lm as_).
  Local Notation num z := (f32_of_Z z : @flt I).
  Local Notation free := (@FeeConfig I (num 0) (num 0) (num 0)).
  Local Notation cfg base quote unit l := (@AccountConfig I base quote unit unit free free free l (num 0)).
  Local Notation flat z := (@OhlcTick I 300 (num z) (num z) (num z) (num z) (num 1)).

  (** In single precision a liquidity of 1% may cost an ulp: on a candle whose prices are all
      7, a market order pays 7 with no liquidity and more than 7 with a liquidity of 0.01;
      with a balance of 7 the first is executed and the second is turned down. *)
  Theorem C122_float_refuted :
    let o := @Order I (Some MARKET) (Some BUY) (@BaseAmount I (num 1)) None in
    let run l := omap fst (@ExecuteOrder I (cfg (num 0) (num 7) (num 0) l) o (flat 7) (@InitAccount I (cfg (num 0) (num 7) (num 0) l))) in
    run (num 0) = Done true /\ run (@flit I 1 100) = Done false.
  Proof. clear; destruct as_; split; vm_compute; reflexivity. Qed.

  (** An order to sell for 1 may sell nothing at a better price: with units of 1 it is executed
      at a price of 1 (no liquidity) and turned down at a price of 2 (full liquidity). *)
  Theorem C122_quote_sell_refuted :
    let o := @Order I (Some MARKET) (Some SELL) (@QuoteAmount I (num 1)) None in
    let t := @OhlcTick I 300 (num 2) (num 2) (num 1) (num 2) (num 1) in
    let run l := omap fst (@ExecuteOrder I (cfg (num 10) (num 0) (num 1) l) o t (@InitAccount I (cfg (num 10) (num 0) (num 1) l))) in
    run (num 0) = Done true /\ run (num 1) = Done false.
  Proof. clear; destruct as_; split; vm_compute; reflexivity. Qed.
End Refuted.
