(** C77: the balances of a run, on floats. *)
From Coq Require Import Reals ZArith List Lra Lia Bool.
From Flocq Require Import Core BinarySingleNaN.
From Verif.Model Require Import Outcome Machine Types Account SideInput MachineIEEE Eval.
From Verif.Spec Require Import RunSpec AccountIEEESpec.
From Verif.Proofs Require Import Base FloatLemmas FloatErr AccountAny AccountIEEE RunProofs.
From Verif.Properties Require Import RunProps.
Import ListNotations.

Section IEEE.
  Context (lm : libm) (as_ : bool).
  Local Notation I := (ieee lm as_).

  Definition good_account (a : @account I) : Prop := ok_settings a /\ balances_ok a.

  Lemma tried_good (c : @account_config I) t atts : forall a,
    ok_config c -> good_account a -> ok_tick t -> Forall (fun x => ok_order (fst (fst x))) atts ->
    tried c t a atts ->
    (forall a1, In a1 (removelast (a :: map snd atts)) -> not_exceeded a1) ->
    Forall good_account (map snd atts) /\ (float_whole a -> Forall float_whole (map snd atts)).
  Proof.
    induction atts as [|[[o ok] a1] atts IH]; intros a Hc [Hs Hb] Ht Ho H Hn.
    - split; [constructor|intros _; constructor].
    - destruct H as [HE H]. apply Forall_cons_iff in Ho as [Ho1 Ho2]. cbn [fst snd map] in *.
      assert (N0 : not_exceeded a) by (apply Hn; left; reflexivity).
      destruct (ExecuteOrder_good c o t a Hc Hs (bounded_of a Hb N0) Ht Ho1) as (ok' & a' & E1 & Hb1 & _).
      rewrite HE in E1. injection E1 as <- <-.
      destruct (ExecuteOrder_all c o t a ok a1 HE) as [_ Hss].
      assert (G1 : good_account a1) by (split; [apply (ok_settings_same a); auto|exact Hb1]).
      destruct (IH a1 Hc G1 Ht Ho2 H) as [F1 F2].
      { intros a2 Hin. apply Hn. right. exact Hin. }
      split; [constructor; assumption|]. intros W.
      assert (W1 : float_whole a1) by (apply (ExecuteOrder_whole c o t a ok a1); auto).
      constructor; [exact W1|apply F2, W1].
  Qed.

  Lemma story_good (c : @account_config I) hist te ticks :
    ok_config c -> good_account (opening_account c) -> float_whole (opening_account c) -> Forall ok_tick ticks ->
    forall rows, story c hist te ticks rows ->
    (forall r o ok a, In r rows -> In (o, ok, a) (w_attempts r) -> ok_order o) ->
    (forall r a, In r rows -> In a (row_accounts r) -> not_exceeded a) ->
    (forall r a, In r rows -> In a (row_accounts r) -> good_account a /\ float_whole a) /\
    good_account (final_account c rows) /\ float_whole (final_account c rows).
  Proof.
    intros Hc Ha Hw. induction ticks as [|t ticks IH] using rev_ind; intros Ht rows S0 Ho Hn.
    - destruct S0 as [Hm _]. destruct rows; [|discriminate]. split; [intros r a []|]. split; assumption.
    - destruct (story_unsnoc c hist te ticks t rows S0) as (rows' & r & -> & Ert & S1 & [Ra Ro Rt Rs Ru]).
      apply Forall_app in Ht as [Ht1 Ht2]. apply Forall_cons_iff in Ht2 as [Ht2 _].
      destruct (IH Ht1 rows' S1) as (I1 & I2 & I3).
      { intros r' o ok a H1. apply Ho, in_or_app. left. exact H1. }
      { intros r' a H1. apply Hn, in_or_app. left. exact H1. }
      assert (Ea : w_account r = final_account c rows') by exact Ra.
      assert (Hr : In r (rows' ++ [r])) by (apply in_or_app; right; left; reflexivity).
      destruct (tried_good c (w_tick r) (w_attempts r) (w_account r)) as [F1 F2]; auto.
      { rewrite Ea. exact I2. }
      { rewrite Ert. exact Ht2. }
      { apply Forall_forall. intros [[o ok] a] Hin. cbn. eapply Ho; eauto. }
      { intros a1 Hin. apply (Hn r a1 Hr). unfold row_accounts.
        clear - Hin. revert Hin. generalize (w_account r :: map snd (w_attempts r)). intros l. induction l as [|x l IHl]; [intros []|].
        cbn [removelast]. destruct l; [intros []|]. intros [<-|H]; [left; reflexivity|right; auto]. }
      assert (G : forall a, In a (row_accounts r) -> good_account a /\ float_whole a).
      { intros a [<-|Hin]; [rewrite Ea; auto|]. rewrite Forall_forall in F1. specialize (F2 ltac:(rewrite Ea; exact I3)).
        rewrite Forall_forall in F2. auto. }
      split; [|].
      + intros r' a Hin Hia. apply in_app_or in Hin as [Hin|[<-|[]]]; [eapply I1; eauto|auto].
      + rewrite final_account_snoc. apply and_comm. apply and_comm. apply G. unfold account_after, row_accounts.
        destruct (rev (w_attempts r)) as [|[[o ok] a] l] eqn:Er; [left; reflexivity|right].
        apply in_map_iff. exists (o, ok, a). split; [reflexivity|]. apply in_rev. rewrite Er. left. reflexivity.
  Qed.

  (** Every account of a row is that of a log line of the row: a rejected order leaves the
      account as it was. *)
  Definition line_account {S} (x : @log_line I S) : list (@account I) :=
    match x with TickLine _ a => [a] | OrderLine _ a _ => [a] | TraderLine _ => [] end.

  Lemma attempts_logged (c : @account_config I) t atts : forall (a b : @account I), tried c t a atts ->
    In b (map snd atts) -> b = a \/ In b (map snd (executed atts)).
  Proof.
    induction atts as [|[[o ok] a1] atts IH]; intros a b H Hin; [destruct Hin|]. destruct H as [HE H].
    destruct (ExecuteOrder_all c o t a ok a1 HE) as [Hno _]. cbn [map snd executed filter fst] in *. fold (executed atts).
    destruct ok; cbn [map].
    - destruct Hin as [<-|Hin]; [right; left; reflexivity|]. destruct (IH a1 b H Hin) as [->|K]; right; [left; reflexivity|right; exact K].
    - rewrite (Hno eq_refl) in *. destruct Hin as [<-|Hin]; [left; reflexivity|]. exact (IH a b H Hin).
  Qed.

  Lemma row_logged (c : @account_config I) hist te before r b : row_ok c hist te before r -> In b (row_accounts r) ->
    In b (flat_map line_account (row_log r)).
  Proof.
    intros [_ _ Rt _ _] Hin. unfold row_log. cbn [flat_map line_account app].
    assert (K : b = w_account r \/ In b (map snd (executed (w_attempts r)))).
    { destruct Hin as [<-|Hin]; [left; reflexivity|]. eapply attempts_logged; eauto. }
    destruct K as [->|K]; [left; reflexivity|right]. rewrite flat_map_app. apply in_or_app. left.
    apply in_map_iff in K as (x & <- & Hx). apply in_flat_map. exists (OrderLine (w_tick r) (snd x) (fst (fst x))).
    split; [apply in_map_iff; exists x; auto|left; reflexivity].
  Qed.

  Lemma story_logged (c : @account_config I) hist te ticks rows r b : story c hist te ticks rows -> In r rows ->
    In b (row_accounts r) -> In b (flat_map line_account (story_log rows)).
  Proof.
    intros [_ Hok] Hr Hb. apply in_split in Hr as (l1 & l2 & ->). pose proof (row_logged c hist te l1 r b (Hok l1 r l2 eq_refl) Hb) as K.
    unfold story_log. rewrite flat_map_app. cbn [flat_map]. rewrite !flat_map_app. apply in_or_app. right. apply in_or_app. left. exact K.
  Qed.

  Lemma units_kept (cfg : @account_config I) hist te ticks : forall rows, story cfg hist te ticks rows ->
    base_unit (final_account cfg rows) = cfg_base_unit cfg /\ quote_unit (final_account cfg rows) = cfg_quote_unit cfg.
  Proof.
    induction ticks as [|t ticks IH] using rev_ind; intros rows S0.
    - destruct S0 as [Hm _]. destruct rows; [|discriminate]. split; reflexivity.
    - destruct (story_unsnoc cfg hist te ticks t rows S0) as (rows' & r & -> & _ & S1 & [Ra _ Rt _ _]).
      specialize (IH rows' S1). rewrite final_account_snoc.
      assert (Ea : w_account r = final_account cfg rows') by exact Ra. rewrite <- Ea in IH.
      change (account_after r) with (att_account (w_account r) (w_attempts r)).
      clear - Rt IH. revert Rt IH. generalize (w_account r). induction (w_attempts r) as [|[[o ok] a1] l IHl]; intros a Rt IH; [exact IH|].
      destruct Rt as [E R]. rewrite att_account_cons. apply IHl; [exact R|].
      destruct (ExecuteOrder_all cfg o _ a ok a1 E) as [_ SS]. destruct IH. split; [rewrite <- H|rewrite <- H0]; apply SS.
  Qed.

  (** ** C77 In a run whose orders and prices are in range and in whose log no balance
      exceeds 2^40, every balance is at all times a finite non-negative number and a whole
      number of units; so are the reported balances and fees. *)
  Theorem C77_run (cfg : @account_config I) hist s fast te lg ticks first l res l' :
    side_matches hist s -> (hist = None \/ time_ordered ticks) -> hd_error ticks = Some first ->
    ok_config cfg -> ok_settings (opening_account cfg) -> balances_ok (opening_account cfg) ->
    float_whole (opening_account cfg) -> Forall ok_tick ticks ->
    ExecuteTrader cfg s fast te lg true ticks l = Done (res, l') ->
    exists rows, story cfg hist te ticks rows /\ result_of cfg first (List.last ticks first) rows res /\
      l' = write_lines lg (te_show te) (story_log rows) l /\
      ((forall r o ok a, In r rows -> In (o, ok, a) (w_attempts r) -> ok_order o) ->
       (forall x a, In x (story_log rows) -> In a (line_account x) -> not_exceeded a) ->
       (forall r a, In r rows -> In a (row_accounts r) -> balances_ok a /\ float_whole a) /\
       balance_ok (r_end_base_balance res) /\ balance_ok (r_end_quote_balance res) /\ balance_ok (r_total_fee res) /\
       float_units (cfg_base_unit cfg) (r_end_base_balance res) /\
       float_units (cfg_quote_unit cfg) (r_end_quote_balance res) /\
       float_units (cfg_quote_unit cfg) (r_total_fee res)).
  Proof.
    intros Hs Ho Hf Hc Ha1 Ha2 Hw Ht H.
    destruct (run_story cfg hist s fast te lg true Hs ticks l res l' Ho H) as [(E & _)|(f0 & r0 & rows & E & S0 & R0 & L)];
      [subst; discriminate|]. assert (f0 = first) by (rewrite E in Hf; injection Hf; auto). subst f0.
    exists rows. split; [exact S0|]. split; [exact R0|]. split; [exact L|]. intros O1 N1.
    destruct (story_good cfg hist te ticks Hc (conj Ha1 Ha2) Hw Ht rows S0 O1) as (G & [_ (B1 & B2 & B3)] & (W1 & W2 & W3)).
    { intros r a I1 I2. pose proof (story_logged cfg hist te ticks rows r a S0 I1 I2) as K. apply in_flat_map in K as (x & K1 & K2). eapply N1; eauto. }
    split; [intros r a I1 I2; destruct (G r a I1 I2) as [[_ X] Y]; auto|].
    destruct (units_kept cfg hist te ticks rows S0) as [U1 U2]. rewrite U1 in W1. rewrite U2 in W2, W3.
    destruct R0 as (_ & _ & Q3 & Q4 & _ & _ & _ & _ & _ & Q10). rewrite Q3, Q4, Q10. auto 10.
  Qed.

  (** A concrete run: buys on every tick; a logger that watches the balances. *)
  Definition exceeds (a : @account I) : bool :=
    Bltb limit40 (base_balance a) || Bltb limit40 (quote_balance a) || Bltb limit40 (total_fee a).
  Definition watch : @logger I :=
    @Logger I bool (fun b _ a => b || exceeds a) (fun b _ a _ => b || exceeds a) (fun b _ => b).

  Lemma watched {S} (show : S -> String.string) lines : forall b, write_lines watch show lines b = false ->
    forall x a, In x lines -> In a (line_account x) -> not_exceeded a.
  Proof.
    assert (K : forall lines b, write_lines watch show lines b = false -> b = false).
    { intros ls. induction ls as [|x ls IHl]; intros b H; [exact H|]. unfold write_lines in H. cbn [fold_left] in H. apply IHl in H.
      destruct x; cbn in H; try (apply orb_false_iff in H as [H _]); exact H. }
    induction lines as [|x lines IH]; intros b H y a Hin Ha; [destruct Hin|]; destruct Hin as [<-|Hin]; unfold write_lines in H; cbn [fold_left] in H.
    - apply K in H. destruct x; cbn in Ha; try contradiction; destruct Ha as [<-|[]]; cbn in H;
        apply orb_false_iff in H as [_ H]; unfold exceeds in H; apply orb_false_iff in H as [H H3]; apply orb_false_iff in H as [H1 H2]; split; auto.
    - eapply IH; eauto.
  Qed.
End IEEE.

Section Example.
  Context (lm : libm) (as_ : bool).
  Local Notation I := (ieee lm as_).
  Local Notation watch := (watch lm as_).
  Local Notation rn := f32_of_Z.
  Lemma rn_range k lo hi : (Z.abs k <= 2 ^ 24)%Z -> (lo <= IZR k <= hi)%R -> in_range lo hi (rn k).
  Proof. intros H L. destruct (ofZ_finite k H) as [F V]. split; [exact F|]. rewrite V. exact L. Qed.

  Lemma C77_ex :
    ok_config (@r_config lm as_) /\ ok_settings (opening_account (@r_config lm as_)) /\
    balances_ok (opening_account (@r_config lm as_)) /\ float_whole (opening_account (@r_config lm as_)) /\
    Forall ok_tick (@r_ticks lm as_) /\
    exists res, ExecuteTrader (@r_config lm as_) None true r_trader watch true r_ticks false = Done (res, false) /\
      r_total_executed_orders res = 3%Z /\ balance_ok (r_end_base_balance res) /\ balance_ok (r_end_quote_balance res) /\
      balance_ok (r_total_fee res).
  Proof.
    assert (B : forall e, (0 <= e)%Z -> (1 <= bpow radix2 e)%R).
    { intros e He. change 1%R with (bpow radix2 0). apply bpow_le. exact He. }
    assert (B4 : (16 <= bpow radix2 26)%R) by (change (bpow radix2 26) with (IZR (2 ^ 26)); apply IZR_le; lia).
    assert (B5 : (128 <= bpow radix2 40)%R) by (change (bpow radix2 40) with (IZR (2 ^ 40)); apply IZR_le; lia).
    assert (B6 : (bpow radix2 (-30) <= 1)%R) by (change 1%R with (bpow radix2 0); apply bpow_le; lia).
    assert (B7 : (bpow radix2 (-26) <= 1)%R) by (change 1%R with (bpow radix2 0); apply bpow_le; lia).
    assert (P1 : ok_config (@r_config lm as_)).
    { assert (F : ok_fees (@r_free lm as_)).
      { pose proof (B 20%Z ltac:(lia)). constructor; apply rn_range; try lia; lra. }
      constructor; exact F. }
    assert (U : ok_unit (rn 1)).
    { destruct (ofZ_finite 1 ltac:(lia)) as [F V]. split; [exact F|right]. rewrite V. pose proof (B 20%Z ltac:(lia)). lra. }
    assert (P2 : ok_settings (opening_account (@r_config lm as_))).
    { constructor; try exact U; apply rn_range; try lia; lra. }
    assert (BK : forall k, (0 <= k <= 2 ^ 24)%Z -> balance_ok (rn k)).
    { intros k Hk. destruct (ofZ_finite k ltac:(lia)) as [F V]. split; [exact F|]. rewrite V. apply IZR_le. lia. }
    assert (P3 : balances_ok (opening_account (@r_config lm as_))).
    { split; [|split]; apply BK; lia. }
    assert (FU : forall k, (0 <= k <= 2 ^ 24)%Z -> B2SF (rn k) = B2SF (Bmult mode_NE (rn 1) (rn k)) -> float_units (rn 1) (rn k)).
    { intros k Hk E. right. destruct (ofZ_finite k ltac:(lia)) as [F V].
      exists (rn k). split; [exact F|]. split; [exists k; exact V|]. apply B2SF_inj. exact E. }
    assert (P4 : float_whole (opening_account (@r_config lm as_))).
    { split; [|split]; apply FU; try lia; vm_compute; reflexivity. }
    assert (P5 : Forall ok_tick (@r_ticks lm as_)).
    { assert (T : forall t p v, (1 <= p <= 16)%Z -> (0 <= v <= 16)%Z -> ok_tick (@r_tick lm as_ t p v)).
      { intros t p v Hp Hv. destruct (ofZ_finite p ltac:(lia)) as [F V].
        assert (1 <= IZR p <= 16)%R by (split; apply IZR_le; lia). assert (0 <= IZR v <= 16)%R by (split; apply IZR_le; lia).
        assert (OP : ok_price (rn p)) by (apply rn_range; [lia|lra]).
        constructor; cbn [open high low close volume r_tick]; try exact OP; try apply Rle_refl. apply rn_range; [lia|lra]. }
      unfold r_ticks. do 4 (apply Forall_cons; [apply T; lia|]). constructor. }
    split; [exact P1|]. split; [exact P2|]. split; [exact P3|]. split; [exact P4|]. split; [exact P5|].
    assert (H : bind (ExecuteTrader (@r_config lm as_) None true r_trader watch true r_ticks false)
                     (fun x => Done (snd x, r_total_executed_orders (fst x))) = Done (false, 3%Z)).
    { clear. destruct as_; vm_compute; reflexivity. }
    apply bind_done in H as ([res l'] & H & E). cbn [fst snd] in E. injection E as -> En. exists res. split; [exact H|]. split; [exact En|].
    destruct (C77_run lm as_ r_config None None true r_trader watch r_ticks _ false res false Logic.I (or_introl eq_refl) eq_refl P1 P2 P3 P4 P5 H)
      as (rows & S0 & _ & L & G).
    destruct G as (_ & G1 & G2 & G3 & _); [| |auto].
    - intros r o ok a Hr Hin. destruct S0 as [_ Hok]. apply in_split in Hr as (r1 & r2 & ->).
      destruct (Hok r1 r r2 eq_refl) as [_ Ro _ _ _].
      assert (K : In o (match last_update r1 with None => [] | Some (_, os) => os end)).
      { rewrite <- Ro. apply in_map_iff. exists (o, ok, a). auto. }
      assert (B3 : forall rs, (exists tail, r1 ++ r :: r2 = rs ++ tail) -> match last_update rs with None => True | Some (_, os) => os = [@r_buy lm as_] end).
      { induction rs as [|x rs IH] using rev_ind; intros [tail Et]; [exact Logic.I|]. rewrite last_update_snoc.
        destruct (w_update x) as [[st os]|] eqn:Eu.
        - rewrite <- app_assoc in Et. destruct (Hok rs x tail Et) as [_ _ _ _ Ru]. rewrite Eu in Ru. destruct Ru as [_ Ru]. cbn in Ru. injection Ru as _ <-. reflexivity.
        - apply IH. exists (x :: tail). rewrite Et, <- app_assoc. reflexivity. }
      specialize (B3 r1 (ex_intro _ (r :: r2) eq_refl)). destruct (last_update r1) as [[st os]|]; [|destruct K]. subst os.
      rewrite B3 in K. destruct K as [<-|[]]. destruct (ofZ_finite 1 ltac:(lia)) as [F V].
      apply (OkOrder _ MARKET BUY (rn 1) (@BaseAmount I (rn 1))); auto. split; [|rewrite V; lra].
      apply rn_range; [lia|]. pose proof (B 60%Z ltac:(lia)). lra.
    - eapply watched. symmetry. exact L.
  Qed.
End Example.
