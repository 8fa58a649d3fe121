(** C89: the books of a whole run in whole units, in single precision. *)
From Coq Require Import Reals ZArith String Lra Lia Bool.
From Coq Require Import List.
From Flocq Require Import Core BinarySingleNaN Mult_error.
From Verif.Model Require Import Outcome Machine Types Account SideInput MachineIEEE Eval Traders.
From Verif.Spec Require Import AccountSpec AccountIEEESpec RunSpec SetupSpec FloatTradeSpec TraderSpec ProgressSpec.
From Verif.Proofs Require Import Base FloatLemmas FloatErr AccountAny AccountIEEE AccountBook RunProofs ProgressProofs SteadyFloat.
From Verif.Properties Require Import AccountFloatProps RunProps RunIEEEProps ProgressFloatProps.
Import ListNotations.

Section IEEE.
  Context (lm : libm) (as_ : bool).
  Local Notation I := (ieee lm as_).

  (** All orders of a story, executed or not, in the order in which they were tried. *)
  Definition story_orders {S} (rows : list (@row I S)) : list (@order I * @ohlc_tick I) :=
    flat_map (fun r => map (fun x => (fst (fst x), w_tick r)) (w_attempts r)) rows.

  (** The accounts written to the log. *)
  Definition logged {S} (rows : list (@row I S)) (a : @account I) : Prop :=
    exists x, In x (story_log rows) /\ In a (line_account lm as_ x).

  Lemma unit_ledger_app ex (c : @account_config I) a l1 ks1 a1 l2 ks2 a2 :
    unit_ledger ex c a l1 ks1 a1 -> unit_ledger ex c a1 l2 ks2 a2 -> unit_ledger ex c a (l1 ++ l2) (ks1 ++ ks2) a2.
  Proof.
    intros H1 H2. induction H1 as [a|a o t l ks a' E K IH|a o t tr kb kq kf a1 l ks a' E C U K IH]; [exact H2| |].
    - cbn [app]. apply ul_rejected; auto.
    - cbn [app]. exact (ul_traded ex c a o t tr kb kq kf a1 _ _ a2 E C U (IH H2)).
  Qed.

  Lemma sum_Z_app f ks1 ks2 : sum_Z f (ks1 ++ ks2) = (sum_Z f ks1 + sum_Z f ks2)%Z.
  Proof. unfold sum_Z. induction ks1 as [|k ks1 IH]; cbn [app fold_right]; [reflexivity|]. rewrite IH. lia. Qed.

  (** An account in order. *)
  Definition sound (a : @account I) : Prop := ok_settings a /\ has_units a /\ balances_ok a /\ float_whole a.

  Lemma tried_ledger (c : @account_config I) t atts : forall a nb nq nf,
    ok_config c -> sound a -> ok_tick t -> Forall (fun x => ok_order (fst (fst x))) atts -> tried c t a atts ->
    Forall few_units (a :: map snd atts) -> holds a nb nq nf ->
    exists ks, unit_ledger (@ExecuteOrder I c) c a (map (fun x => (fst (fst x), t)) atts) ks (att_account a atts) /\
      List.length ks = List.length (executed atts) /\ sound (att_account a atts) /\
      holds (att_account a atts) (nb + sum_Z entry_base ks) (nq + sum_Z entry_quote ks) (nf + sum_Z entry_fee ks).
  Proof.
    induction atts as [|[[o ok] a1] atts IH]; intros a nb nq nf Hc Hso Ht Ho H Hf HH.
    - exists []. split; [constructor|]. split; [reflexivity|]. split; [exact Hso|]. cbn. rewrite !Z.add_0_r. exact HH.
    - destruct H as [HE H]. apply Forall_cons_iff in Ho as [Ho1 Ho2]. cbn [fst snd map] in *.
      apply Forall_cons_iff in Hf as [F0 Hf]. pose proof Hf as Hf1. apply Forall_cons_iff in Hf1 as [F1 _].
      destruct Hso as (Hs & Hu & Hb & Hw).
      destruct (ExecuteOrder_good c o t a Hc Hs (few_bounded lm as_ a Hs Hb F0) Ht Ho1) as (ok' & a' & E1 & Hb1 & _).
      rewrite HE in E1. injection E1 as <- <-.
      destruct (ExecuteOrder_all c o t a ok a1 HE) as [Hrej Hss].
      assert (S1 : sound a1).
      { split; [apply (ok_settings_same a); auto|]. split; [|split; [exact Hb1|apply (ExecuteOrder_whole c o t a ok a1); auto]].
        destruct Hss as (U1 & U2 & _), Hu. split; [rewrite U1|rewrite U2]; assumption. }
      rewrite att_account_cons. unfold executed. cbn [filter fst snd]. fold (executed atts). destruct ok.
      + destruct (C86_order lm as_ c o t a a1 nb nq nf Hc Hs Hu Hb Hw Ht Ho1 F0 F1 HH HE) as (tr & kb & kq & kf & K1 & K2 & K3).
        destruct (IH a1 _ _ _ Hc S1 Ht Ho2 H Hf K3) as (ks & L1 & L2 & L3 & L4).
        exists ((tr_side tr, (kb, kq, kf)) :: ks). split; [exact (ul_traded _ c a o t tr kb kq kf a1 _ ks _ HE K1 K2 L1)|].
        split; [cbn [List.length]; rewrite L2; reflexivity|]. split; [exact L3|].
        unfold sum_Z in *. cbn [fold_right entry_base entry_quote entry_fee].
        rewrite !Z.add_assoc, Z.add_sub_assoc. exact L4.
      + assert (a1 = a) by auto. subst a1.
        destruct (IH a _ _ _ Hc S1 Ht Ho2 H Hf HH) as (ks & L1 & L2 & L3 & L4).
        exists ks. split; [apply ul_rejected; auto|]. auto.
  Qed.

  Lemma story_ledger (c : @account_config I) hist te ticks nb nq :
    ok_config c -> sound (opening_account c) -> Forall ok_tick ticks -> holds (opening_account c) nb nq 0 ->
    forall rows, story c hist te ticks rows ->
    (forall r o ok a, In r rows -> In (o, ok, a) (w_attempts r) -> ok_order o) ->
    (forall r a, In r rows -> In a (row_accounts r) -> few_units a) ->
    exists ks, unit_ledger (@ExecuteOrder I c) c (opening_account c) (story_orders rows) ks (final_account c rows) /\
      Z.of_nat (List.length ks) = executed_count rows /\ sound (final_account c rows) /\
      holds (final_account c rows) (nb + sum_Z entry_base ks) (nq + sum_Z entry_quote ks) (sum_Z entry_fee ks).
  Proof.
    intros Hc Ha Ht HH. induction ticks as [|t ticks IH] using rev_ind; intros rows S0 Ho Hn.
    - destruct S0 as [Hm _]. destruct rows; [|discriminate]. exists []. split; [constructor|]. split; [reflexivity|]. split; [exact Ha|].
      cbn. rewrite !Z.add_0_r. exact HH.
    - destruct (story_unsnoc c hist te ticks t rows S0) as (rows' & r & -> & Ert & S1 & [Ra Ro Rt Rs Ru]).
      apply Forall_app in Ht as [Ht1 Ht2]. apply Forall_cons_iff in Ht2 as [Ht2 _].
      destruct (IH Ht1 rows' S1) as (ks1 & I1 & I2 & I3 & I4).
      { intros r' o ok a H1. apply Ho, in_or_app. left. exact H1. }
      { intros r' a H1. apply Hn, in_or_app. left. exact H1. }
      assert (Ea : w_account r = final_account c rows') by exact Ra.
      assert (Hr : In r (rows' ++ [r])) by (apply in_or_app; right; left; reflexivity).
      rewrite <- Ea in I1, I3, I4.
      destruct (tried_ledger c (w_tick r) (w_attempts r) (w_account r) (nb + sum_Z entry_base ks1)%Z (nq + sum_Z entry_quote ks1)%Z (sum_Z entry_fee ks1) Hc I3) as (ks2 & J1 & J2 & J3 & J4).
      { rewrite Ert. exact Ht2. }
      { apply Forall_forall. intros [[o ok] a] Hin. cbn. eapply Ho; eauto. }
      { exact Rt. }
      { apply Forall_forall. intros a Hin. apply (Hn r a Hr). exact Hin. }
      { exact I4. }
      assert (Eaa : final_account c (rows' ++ [r]) = att_account (w_account r) (w_attempts r)).
      { rewrite final_account_snoc. reflexivity. }
      rewrite Eaa. exists (ks1 ++ ks2). split; [|split; [|split; [exact J3|]]].
      + unfold story_orders. rewrite flat_map_app. cbn [flat_map]. rewrite app_nil_r. exact (unit_ledger_app _ c _ _ _ _ _ _ _ I1 J1).
      + unfold executed_count in *. rewrite flat_map_app, !app_length. cbn [flat_map]. rewrite app_nil_r, J2. lia.
      + rewrite !sum_Z_app, !Z.add_assoc. exact J4.
  Qed.

  Lemma zero_units (u : f32) : units u 0 (f32_of_Z 0).
  Proof.
    split; [reflexivity|]. rewrite Rmult_0_r. symmetry. apply round_0. apply valid_rnd_N.
  Qed.

  (** ** C89 A run starts with nb base units and nq quote units.  Unless the log shows a
      balance (or fees) of more than 2^20 units, there are numbers of units, one entry for
      each executed order, that follow the orders exactly, and add up to the reported
      result. *)
  Theorem C89_run (cfg : @account_config I) hist s fast te lg hl ticks first l res l' nb nq :
    side_matches hist s -> (hist = None \/ time_ordered ticks) -> hd_error ticks = Some first ->
    ok_config cfg -> ok_settings (opening_account cfg) -> has_units (opening_account cfg) ->
    balances_ok (opening_account cfg) -> float_whole (opening_account cfg) -> Forall ok_tick ticks ->
    units (cfg_base_unit cfg) nb (start_base_balance cfg) -> units (cfg_quote_unit cfg) nq (start_quote_balance cfg) ->
    ExecuteTrader cfg s fast te lg hl ticks l = Done (res, l') ->
    exists rows, story cfg hist te ticks rows /\
      ((forall o t, In (o, t) (story_orders rows) -> ok_order o) -> (forall a, logged rows a -> few_units a) ->
       exists ks, unit_ledger (@ExecuteOrder I cfg) cfg (opening_account cfg) (story_orders rows) ks (final_account cfg rows) /\
         r_total_executed_orders res = Z.of_nat (List.length ks) /\
         units (cfg_base_unit cfg) (nb + sum_Z entry_base ks) (r_end_base_balance res) /\
         units (cfg_quote_unit cfg) (nq + sum_Z entry_quote ks) (r_end_quote_balance res) /\
         units (cfg_quote_unit cfg) (sum_Z entry_fee ks) (r_total_fee res)).
  Proof.
    intros Hs Ho Hf Hc Ha1 Hu Ha2 Hw Ht Nb Nq H.
    destruct (run_story cfg hist s fast te lg hl Hs ticks l res l' Ho H) as [(E & _)|(f0 & r0 & rows & E & S0 & R0 & L)];
      [subst; discriminate|].
    exists rows. split; [exact S0|]. intros O1 N1.
    destruct (story_ledger cfg hist te ticks nb nq Hc (conj Ha1 (conj Hu (conj Ha2 Hw))) Ht) with (rows := rows) as (ks & K1 & K2 & _ & K4); auto.
    - split; [exact Nb|]. split; [exact Nq|]. apply zero_units.
    - intros r o ok a I1 I2. apply (O1 o (w_tick r)). apply in_flat_map. exists r. split; [exact I1|].
      apply in_map_iff. exists (o, ok, a). auto.
    - intros r a I1 I2. pose proof (story_logged lm as_ cfg hist te ticks rows r a S0 I1 I2) as K. apply in_flat_map in K. apply N1. exact K.
    - exists ks. split; [exact K1|]. destruct (units_kept lm as_ cfg hist te ticks rows S0) as [U1 U2].
      destruct R0 as (_ & _ & Q3 & Q4 & _ & _ & _ & _ & Q9 & Q10). rewrite Q3, Q4, Q9, Q10.
      destruct K4 as (K5 & K6 & K7). rewrite U1 in K5. rewrite U2 in K6, K7. auto.
  Qed.

  Lemma few_not_exceeded (a : @account I) : thriving lm as_ a -> few_units a -> not_exceeded a.
  Proof.
    intros (Hs & Hb & _) Hf. destruct (few_bounded lm as_ a Hs Hb Hf) as (B1 & B2 & B3).
    destruct limit40_val as [F L].
    assert (G : forall x : f32, ok_amount x -> Bltb limit40 x = false).
    { intros x [Fx Hx]. change (@flt I) with f32 in *. rewrite Bltb_correct by assumption. rewrite L. apply Rlt_bool_false. apply Hx. }
    split; [|split]; apply G; assumption.
  Qed.

  (** The traders of the factory only emit orders in range. *)
  Lemma copes_orders (cfg : @account_config I) hist te ticks : open_for_business cfg -> copes_float te ->
    strictly_ordered ticks -> Forall quoted ticks ->
    forall past rest rows, ticks = past ++ rest -> story cfg hist te past rows ->
    (forall r a, In r rows -> In a (row_accounts r) -> few_units a) ->
    thriving lm as_ (final_account cfg rows) /\ Forall (shown (thriving lm as_) not_exceeded quoted) (views rows) /\
    Forall ok_order (pending rows) /\
    (forall r o ok a, In r rows -> In (o, ok, a) (w_attempts r) -> ok_order o).
  Proof.
    intros [Hc Hset Hbal Hb Hq Own] Hte Hticks HT. induction past as [|t past IH] using rev_ind; intros rest rows Et S0 HX.
    - destruct S0 as [Hm _]. destruct rows; [|discriminate]. split; [repeat split; auto; apply Hset || apply Hbal|].
      split; [constructor|]. split; [constructor|]. intros r o ok a [].
    - destruct (story_unsnoc cfg hist te past t rows S0) as (rows' & r & -> & Ert & S1 & [Ra Ro Rt Rs Ru]).
      rewrite <- app_assoc in Et. cbn [app] in Et.
      destruct (IH (t :: rest) rows' Et S1) as (I1 & I2 & I3 & I4).
      { intros r' a H1. apply HX, in_or_app. left. exact H1. }
      assert (Tt : quoted t) by (rewrite Et in HT; apply Forall_app in HT as [_ HT']; apply Forall_cons_iff in HT'; apply HT').
      assert (Ea : w_account r = final_account cfg rows') by exact Ra.
      assert (Hr : In r (rows' ++ [r])) by (apply in_or_app; right; left; reflexivity).
      assert (Oo : Forall (fun x => ok_order (fst (fst x))) (w_attempts r)).
      { apply Forall_forall. intros x Hx. rewrite Forall_forall in I3. apply I3. unfold pending. rewrite <- Ro.
        apply in_map_iff. exists x. auto. }
      assert (Ga : forall a atts, thriving lm as_ a -> tried cfg t a atts -> Forall (fun x => ok_order (fst (fst x))) atts ->
                Forall few_units (a :: map snd atts) -> thriving lm as_ (att_account a atts) /\ not_exceeded (att_account a atts)).
      { clear - Hc Tt. intros a atts. revert a. induction atts as [|[[o ok] a1] atts IHa]; intros a Ta H Ho Hn.
        - split; [exact Ta|]. apply Forall_cons_iff in Hn. apply few_not_exceeded; [exact Ta|apply Hn].
        - destruct H as [HE H]. apply Forall_cons_iff in Ho as [Ho1 Ho2]. cbn [map fst snd] in *. apply Forall_cons_iff in Hn as [N0 Hn].
          rewrite att_account_cons. apply IHa; auto.
          destruct (exec_thriving lm as_ cfg o t a Hc (proj1 Tt) Ho1 Ta (few_not_exceeded a Ta N0)) as (ok' & a' & E1 & T1). rewrite HE in E1. injection E1 as _ <-. exact T1. }
      destruct (Ga (w_account r) (w_attempts r)) as [G1 G2].
      { rewrite Ea. exact I1. } { rewrite Ert in Rt. exact Rt. } { exact Oo. }
      { apply Forall_forall. intros a Hin. apply (HX r a Hr). exact Hin. }
      change (att_account (w_account r) (w_attempts r)) with (account_after r) in G1, G2.
      assert (HV : Forall (shown (thriving lm as_) not_exceeded quoted) (views (rows' ++ [r]))).
      { unfold views. rewrite flat_map_app. fold (views rows'). apply Forall_app. split; [exact I2|]. cbn [flat_map].
        destruct (w_update r) as [u|]; [|constructor]. constructor; [|constructor]. split; [cbn; rewrite Ert; exact Tt|].
        exists (account_after r). cbn. auto. }
      split; [rewrite final_account_snoc; exact G1|]. split; [exact HV|]. split.
      + assert (Ho : strictly_ordered (past ++ [t])) by (apply (strictly_prefix _ rest); rewrite <- app_assoc; cbn; rewrite <- Et; exact Hticks).
        destruct (Hte _ (proj1 (views_times cfg hist te _ _ S0 Ho))) as (oss & E & F).
        { eapply Forall_impl; [|exact HV]. intros v. apply shown_portfolio. }
        destruct (story_views cfg hist te _ _ S0) as [E2 _]. rewrite E in E2. injection E2 as ->.
        apply Forall_forall. intros o Hin. apply pending_emitted in Hin as (os & J1 & J2).
        rewrite Forall_forall in F. specialize (F os J1). rewrite Forall_forall in F. apply F, J2.
      + intros r' o ok a Hin Hat. apply in_app_or in Hin as [Hin|[<-|[]]]; [eapply I4; eauto|].
        rewrite Forall_forall in Oo. exact (Oo _ Hat).
  Qed.

  (** For the traders the programs can create no condition on the orders is needed. *)
  Theorem C89_programs name te (cfg : @account_config I) hist s fast lg hl ticks l res l' nb nq :
    (@GetTrader I name = Done te \/ exists tes, @GetBatchOfTraders I name = Done tes /\ In te tes) ->
    open_for_business cfg -> side_matches hist s -> strictly_ordered ticks -> Forall quoted ticks -> ticks <> [] ->
    float_whole (opening_account cfg) ->
    units (cfg_base_unit cfg) nb (start_base_balance cfg) -> units (cfg_quote_unit cfg) nq (start_quote_balance cfg) ->
    ExecuteTrader cfg s fast te lg hl ticks l = Done (res, l') ->
    exists rows, story cfg hist te ticks rows /\
      ((forall a, logged rows a -> few_units a) ->
       exists ks, unit_ledger (@ExecuteOrder I cfg) cfg (opening_account cfg) (story_orders rows) ks (final_account cfg rows) /\
         r_total_executed_orders res = Z.of_nat (List.length ks) /\
         units (cfg_base_unit cfg) (nb + sum_Z entry_base ks) (r_end_base_balance res) /\
         units (cfg_quote_unit cfg) (nq + sum_Z entry_quote ks) (r_end_quote_balance res) /\
         units (cfg_quote_unit cfg) (sum_Z entry_fee ks) (r_total_fee res)).
  Proof.
    intros Hn Hop Hs Ho Ht Hne Hw Nb Nq H. destruct ticks as [|first ticks']; [congruence|]. set (ticks := first :: ticks') in *.
    assert (Hte : copes_float te).
    { destruct (C80_factory lm as_ name) as [F1 F2]. destruct Hn as [Hn|(tes & Hn & Hin)]; [auto|].
      specialize (F2 tes Hn). rewrite Forall_forall in F2. auto. }
    pose proof Hop as [Hc Hset Hbal Hb Hq Own].
    destruct (C89_run cfg hist s fast te lg hl ticks first l res l' nb nq Hs) as (rows & S0 & K); auto.
    - right. exact (strict_ordered ticks Ho).
    - split; assumption.
    - eapply Forall_impl; [|exact Ht]. intros t [T _]. exact T.
    - exists rows. split; [exact S0|]. intros HX. apply K; [|exact HX].
      destruct (copes_orders cfg hist te ticks Hop Hte Ho Ht ticks [] rows) as (_ & _ & _ & O1); [rewrite app_nil_r; reflexivity|exact S0| |].
      { intros r a I1 I2. apply HX. pose proof (story_logged lm as_ cfg hist te ticks rows r a S0 I1 I2) as Q. apply in_flat_map in Q. exact Q. }
      intros o t Hin. apply in_flat_map in Hin as (r & I1 & I2). apply in_map_iff in I2 as ([[o' ok] a] & E & I2). cbn in E. injection E as <- <-.
      eapply O1; eauto.
  Qed.
End IEEE.

(** A concrete run: the rebalancing trader on the market of ProgressFloatProps, starting with
    1000 base units of 0.001 and 10000 quote units of 0.01. *)
Section Example.
  Context (lm : libm) (as_ : bool).
  Local Notation I := (ieee lm as_).
  Local Notation n := f32_of_Z.

  Definition crowded (a : @account I) : bool :=
    Bltb (Bmult mode_NE (n (2 ^ 20)) (base_unit a)) (base_balance a) ||
    Bltb (Bmult mode_NE (n (2 ^ 20)) (quote_unit a)) (quote_balance a) ||
    Bltb (Bmult mode_NE (n (2 ^ 20)) (quote_unit a)) (total_fee a).
  Definition counting : @logger I :=
    @Logger I bool (fun b _ a => b || crowded a) (fun b _ a _ => b || crowded a) (fun b _ => b).

  Lemma counted {S} (show : S -> String.string) lines : forall b, write_lines counting show lines b = false ->
    forall x a, In x lines -> In a (line_account lm as_ x) -> crowded a = false.
  Proof.
    assert (K : forall lines b, write_lines counting show lines b = false -> b = false).
    { intros ls. induction ls as [|x ls IHl]; intros b H; [exact H|]. unfold write_lines in H. cbn [fold_left] in H. apply IHl in H.
      destruct x; cbn in H; try (apply orb_false_iff in H as [H _]); exact H. }
    induction lines as [|x lines IH]; intros b H y a Hin Ha; [destruct Hin|]; destruct Hin as [<-|Hin]; unfold write_lines in H; cbn [fold_left] in H.
    - apply K in H. destruct x; cbn in Ha; try contradiction; destruct Ha as [<-|[]]; cbn in H; apply orb_false_iff in H as [_ H]; exact H.
    - eapply IH; eauto.
  Qed.

  Lemma mult_units (u : f32) k : (Z.abs k <= 2 ^ 24)%Z -> is_finite u = true -> (Rabs (B2R u * IZR k) <= bpow radix2 100)%R ->
    units u k (Bmult mode_NE u (n k)) /\ float_units u (Bmult mode_NE u (n k)).
  Proof.
    intros Hk Fu NO. destruct (ofZ_finite k Hk) as [F V]. split.
    - pose proof (Bmult_correct 24 128 _ _ mode_NE u (n k)) as H. cbn [round_mode] in H. rewrite V in H.
      rewrite (no_overflow _ 100) in H by (lia || exact NO). destruct H as (HR & HF & _). rewrite Fu, F in HF. split; [exact HF|].
      exact HR.
    - right. exists (n k). split; [exact F|]. split; [exists k; exact V|reflexivity].
  Qed.

  Lemma twenty_bits (u : f32) : ok_unit u -> is_finite (Bmult mode_NE (n (2 ^ 20)) u) = true /\
    B2R (Bmult mode_NE (n (2 ^ 20)) u) = (bpow radix2 20 * B2R u)%R.
  Proof.
    intros [Fu Hu]. destruct (ofZ_finite (2 ^ 20) ltac:(lia)) as [F V].
    assert (V20 : B2R (n (2 ^ 20)) = bpow radix2 20) by (rewrite V; reflexivity).
    assert (Hb : (0 <= B2R u <= bpow radix2 20)%R).
    { pose proof (bpow_gt_0 radix2 (-30)). pose proof (bpow_gt_0 radix2 20). destruct Hu as [->|Hu]; lra. }
    pose proof (Bmult_correct 24 128 _ _ mode_NE (n (2 ^ 20)) u) as H. cbn [round_mode] in H. rewrite V20 in H.
    assert (G : generic_format radix2 (SpecFloat.fexp 24 128) (bpow radix2 20 * B2R u)).
    { destruct Hu as [->|Hu]; [rewrite Rmult_0_r; apply generic_format_0|].
      rewrite Rmult_comm. pose proof (bpow_gt_0 radix2 (-30)).
      apply mult_bpow_exact_FLT; [apply generic_format_B2R|].
      assert (MG : (-29 <= mag radix2 (B2R u))%Z) by (apply mag_ge_bpow; rewrite Rabs_pos_eq by lra; apply Hu). change (SpecFloat.emin 24 128) with (-149)%Z. lia. }
    rewrite (no_overflow _ 40) in H.
    - rewrite round_generic in H by (try apply valid_rnd_N; exact G). destruct H as (HR & HF & _). rewrite F, Fu in HF. split; [exact HF|exact HR].
    - lia.
    - rewrite Rabs_pos_eq by (apply Rmult_le_pos; [apply bpow_ge_0|lra]). change 40%Z with (20 + 20)%Z. rewrite bpow_plus.
      apply Rmult_le_compat_l; [apply bpow_ge_0|lra].
  Qed.

  Lemma crowded_few (a : @account I) : ok_unit (base_unit a) -> ok_unit (quote_unit a) -> crowded a = false -> few_units a.
  Proof.
    intros U1 U2 H. unfold crowded in H. apply orb_false_iff in H as [H H3]. apply orb_false_iff in H as [H1 H2].
    assert (G : forall u x : f32, ok_unit u -> Bltb (Bmult mode_NE (n (2 ^ 20)) u) x = false -> (B2R x <= bpow radix2 20 * B2R u)%R).
    { intros u x Hu Hx. destruct (twenty_bits u Hu) as [Fm Vm]. destruct (is_finite x) eqn:Fx.
      - rewrite Bltb_correct in Hx by assumption. rewrite Vm in Hx. destruct (Rlt_bool_spec (bpow radix2 20 * B2R u) (B2R x)); [discriminate|assumption].
      - assert (E : B2R x = 0%R) by (destruct x; try discriminate Fx; reflexivity). rewrite E.
        apply Rmult_le_pos; [apply bpow_ge_0|]. destruct Hu as [_ [->|Hu]]; [lra|]. pose proof (bpow_gt_0 radix2 (-30)). lra. }
    split; [|split]; apply G; assumption.
  Qed.

  Lemma same_units (cfg : @account_config I) hist te ticks rows a : story cfg hist te ticks rows -> logged lm as_ rows a ->
    base_unit a = cfg_base_unit cfg /\ quote_unit a = cfg_quote_unit cfg.
  Proof.
    revert rows. induction ticks as [|t ticks IH] using rev_ind; intros rows S0 HL.
    - destruct S0 as [Hm _]. destruct rows; [|discriminate]. destruct HL as (x & [] & _).
    - pose proof (units_kept lm as_ cfg hist te) as UK.
      destruct (story_unsnoc cfg hist te ticks t rows S0) as (rows' & r & -> & _ & S1 & [Ra _ Rt _ _]).
      destruct HL as (x & Hx & Ha). unfold story_log in Hx. rewrite flat_map_app in Hx. apply in_app_or in Hx as [Hx|Hx].
      { apply (IH rows' S1). exists x. auto. }
      assert (Ea : w_account r = final_account cfg rows') by exact Ra. specialize (UK ticks rows' S1). rewrite <- Ea in UK.
      assert (G : forall atts (b : @account I), tried cfg (w_tick r) b atts -> base_unit b = cfg_base_unit cfg /\ quote_unit b = cfg_quote_unit cfg ->
                forall y, In y (map snd atts) -> base_unit y = cfg_base_unit cfg /\ quote_unit y = cfg_quote_unit cfg).
      { clear. induction atts as [|[[o ok] a1] atts IH]; intros b H Hb y Hy; [destruct Hy|]. destruct H as [HE H].
        destruct (ExecuteOrder_all cfg o _ b ok a1 HE) as [_ (E1 & E2 & _)].
        assert (H1 : base_unit a1 = cfg_base_unit cfg /\ quote_unit a1 = cfg_quote_unit cfg) by (rewrite E1, E2; exact Hb).
        destruct Hy as [<-|Hy]; [exact H1|]. eapply IH; eauto. }
      cbn [flat_map] in Hx. rewrite app_nil_r in Hx. unfold row_log in Hx. destruct Hx as [<-|Hx].
      { destruct Ha as [<-|[]]. exact UK. }
      apply in_app_or in Hx as [Hx|Hx].
      + apply in_map_iff in Hx as (y & <- & Hy). destruct Ha as [<-|[]]. apply (G (w_attempts r) _ Rt UK). apply in_map.
        unfold executed in Hy. apply filter_In in Hy. apply Hy.
      + destruct (w_update r) as [[st os]|]; [|destruct Hx]. destruct Hx as [<-|[]]. destruct Ha.
  Qed.

End Example.

Section Example2.
  Context (lm : libm) (as_ : bool).
  Local Notation I := (ieee lm as_).
  Local Notation n := f32_of_Z.
  Local Notation counting := (counting lm as_).

  Lemma C89_ex :
    (exists te, @GetTrader I "rebalancing"%string = Done te) /\ open_for_business (pf_config lm as_) /\
    strictly_ordered (pf_ticks lm as_) /\ Forall quoted (pf_ticks lm as_) /\ float_whole (opening_account (pf_config lm as_)) /\
    units (cfg_base_unit (pf_config lm as_)) 1000 (start_base_balance (pf_config lm as_)) /\
    units (cfg_quote_unit (pf_config lm as_)) 10000 (start_quote_balance (pf_config lm as_)) /\
    exists te res, ExecuteTrader (pf_config lm as_) None true te counting true (pf_ticks lm as_) false = Done (res, false) /\
      exists ks, List.length ks = 4%nat /\
         units (cfg_base_unit (pf_config lm as_)) (1000 + sum_Z entry_base ks) (r_end_base_balance res) /\
         units (cfg_quote_unit (pf_config lm as_)) (10000 + sum_Z entry_quote ks) (r_end_quote_balance res) /\
         units (cfg_quote_unit (pf_config lm as_)) (sum_Z entry_fee ks) (r_total_fee res).
  Proof.
    destruct (pf_market lm as_) as [M1 M2]. pose proof (pf_open lm as_) as OB.
    assert (U : forall (u x : f32) k, ok_unit u -> (0 <= k <= 2 ^ 20)%Z -> B2SF x = B2SF (Bmult mode_NE u (n k)) -> units u k x /\ float_units u x).
    { intros u x k [Fu Hu] Hk E. apply B2SF_inj in E. rewrite E. apply (mult_units); [lia|exact Fu|].
      assert (0 <= IZR k <= bpow radix2 20)%R by (change (bpow radix2 20) with (IZR (2 ^ 20)); split; apply IZR_le; lia).
      pose proof (bpow_gt_0 radix2 (-30)). assert (0 <= B2R u <= bpow radix2 20)%R by (destruct Hu as [->|Hu]; [split; [lra|apply bpow_ge_0]|lra]).
      rewrite Rabs_pos_eq by (apply Rmult_le_pos; lra). apply Rle_trans with (bpow radix2 20 * bpow radix2 20)%R; [apply Rmult_le_compat; lra|].
      rewrite <- bpow_plus. apply bpow_le. lia. }
    destruct (ob_settings _ OB) as [OU1 OU2 _ _]. cbn [opening_account base_unit quote_unit] in OU1, OU2.
    destruct (U _ (start_base_balance (pf_config lm as_)) 1000%Z OU1) as [B1 B2]; [lia|vm_compute; reflexivity|].
    destruct (U _ (start_quote_balance (pf_config lm as_)) 10000%Z OU2) as [Q1 Q2]; [lia|vm_compute; reflexivity|].
    destruct (U _ (n 0) 0%Z OU2) as [_ Z2]; [lia|vm_compute; reflexivity|].
    assert (W : float_whole (opening_account (pf_config lm as_))) by (split; [exact B2|split; [exact Q2|exact Z2]]).
    split; [eexists; reflexivity|]. split; [exact OB|]. split; [exact M1|]. split; [exact M2|]. split; [exact W|]. split; [exact B1|]. split; [exact Q1|].
    exists (rebalancing_emitter default_rebalancing).
    assert (H : bind (ExecuteTrader (pf_config lm as_) None true (rebalancing_emitter default_rebalancing) counting true (pf_ticks lm as_) false)
                     (fun x => Done (snd x, r_total_executed_orders (fst x))) = Done (false, 4%Z)).
    { clear. destruct as_; vm_compute; reflexivity. }
    apply bind_done in H as ([res l'] & H & E). cbn [fst snd] in E. injection E as -> En. exists res. split; [exact H|].
    destruct (run_story (pf_config lm as_) None None true _ counting true Logic.I _ _ _ _ (or_introl eq_refl) H) as [(E0 & _)|(f0 & r0 & rows & E0 & S0 & R0 & L)]; [discriminate|].
    destruct (story_ledger lm as_ (pf_config lm as_) None (rebalancing_emitter default_rebalancing) (pf_ticks lm as_) 1000 10000) with (rows := rows) as (ks & K1 & K2 & _ & K4); auto.
    - apply OB.
    - split; [apply OB|]. split; [split; apply OB|]. split; [apply OB|exact W].
    - eapply Forall_impl; [|exact M2]. intros t [T _]. exact T.
    - split; [exact B1|]. split; [exact Q1|]. apply zero_units.
    - assert (FW : forall a, logged lm as_ rows a -> few_units a).
      { intros a Ha. pose proof Ha as (x & X1 & X2). destruct (same_units lm as_ _ _ _ _ _ _ S0 Ha) as [E1 E2].
        apply crowded_few; [rewrite E1; exact OU1|rewrite E2; exact OU2|]. eapply counted; [symmetry; exact L|exact X1|exact X2]. }
      destruct (copes_orders lm as_ (pf_config lm as_) None (rebalancing_emitter default_rebalancing) (pf_ticks lm as_) OB) with (past := pf_ticks lm as_) (rest := @nil (@ohlc_tick I)) (rows := rows) as (_ & _ & _ & O1); auto.
      + apply (proj1 (C80_factory lm as_ "rebalancing"%string)). reflexivity.
      + intros r a I1 I2. apply FW. pose proof (story_logged lm as_ _ _ _ _ rows r a S0 I1 I2) as Q. apply in_flat_map in Q. exact Q.
    - intros r a I1 I2. pose proof (story_logged lm as_ _ _ _ _ rows r a S0 I1 I2) as Q. apply in_flat_map in Q.
      pose proof Q as (x & X1 & X2). destruct (same_units lm as_ _ _ _ _ _ _ S0 Q) as [E1 E2].
      apply crowded_few; [rewrite E1; exact OU1|rewrite E2; exact OU2|]. eapply counted; [symmetry; exact L|exact X1|exact X2].
    - exists ks. destruct (units_kept lm as_ _ _ _ _ rows S0) as [U1 U2].
      destruct R0 as (_ & _ & Q3 & Q4 & _ & _ & _ & _ & Q9 & Q10). rewrite Q3, Q4, Q10. rewrite Q9 in En.
      destruct K4 as (K5 & K6 & K7). rewrite U1 in K5. rewrite U2 in K6, K7. split; [apply Nat2Z.inj; rewrite K2; exact En|]. auto.
  Qed.
End Example2.
