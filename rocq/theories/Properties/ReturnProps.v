(** C81, C82: in single precision evaluations and the trader program come to an end. *)
From Coq Require Import Reals ZArith Lra Lia Bool String Classical.
From Coq Require Import List.
From Flocq Require Import Core BinarySingleNaN.
From Verif.Model Require Import Outcome Machine Types Account SideInput MachineR MachineIEEE TimeUtil Eval Traders CsvLogger Proto Convert TimeText Files Programs.
From Verif.Spec Require Import SeriesSpec AccountSpec AccountIEEESpec OrderSpec RunSpec TraderSpec EvalSpec ProgramSpec ProgressSpec ReturnSpec.
From Verif.Proofs Require Import Base FloatLemmas RunProofs EvalProofs BatchProofs TraderProofs ProgressProofs SteadyFloat EvalFloat ProgramProofs TraderMain.
From Verif.Properties Require Import EvalProps ProgressFloatProps TraderMainProps.
Import ListNotations.
Local Open Scope R_scope.

Local Notation EM := (ieee tm_libm true).

Section IEEE.
  Context (lm : libm) (as_ : bool).
  Local Notation I := (ieee lm as_).

  (** ** C81 *)
  Theorem C81_evaluation (cfg : @account_config I) ec hist side te lg hl history fuel l :
    open_for_business cfg -> copes_float te -> side_matches hist side -> strictly_ordered history -> Forall quoted history ->
    (0 < ec_start_timestamp_sec ec)%Z -> covers ec history ->
    (Z.max 0 (ec_end_timestamp_sec ec - ec_start_timestamp_sec ec) < Z.of_nat fuel)%Z ->
    (exists r l', EvaluateTrader cfg ec history side te lg hl fuel l = Done (r, l')) \/
    (exists ws we a, reached cfg hist te (ticks_in history ws we) a /\ ~ not_exceeded a).
  Proof.
    intros Hb Hte Hs Ho Hq H0 Hc Hf.
    destruct (classic (exists ws we a, reached cfg hist te (ticks_in history ws we) a /\ ~ not_exceeded a)) as [H|H]; [right; exact H|left].
    destruct (evaluation_returns lm as_ cfg ec hist side te lg hl history Hb Hte Hs Ho Hq) with (fuel := fuel) (l := l) as (r & l' & E & _); eauto.
    intros ws we a Ha. apply NNPP. intros N. apply H. exists ws, we, a. auto.
  Qed.

  Lemma program_copes name (te : @trader_emitter I) : program_trader name te -> copes_float te.
  Proof.
    destruct (C80_factory lm as_ name) as [F1 F2].
    intros [H|(tes & H & Hin)]; [auto|]. specialize (F2 tes H). rewrite Forall_forall in F2. auto.
  Qed.

  Theorem C81_programs name (te : @trader_emitter I) (cfg : @account_config I) ec hist side lg hl history fuel l :
    program_trader name te ->
    open_for_business cfg -> side_matches hist side -> strictly_ordered history -> Forall quoted history ->
    (0 < ec_start_timestamp_sec ec)%Z -> covers ec history ->
    (Z.max 0 (ec_end_timestamp_sec ec - ec_start_timestamp_sec ec) < Z.of_nat fuel)%Z ->
    (exists r l', EvaluateTrader cfg ec history side te lg hl fuel l = Done (r, l')) \/
    (exists ws we a, reached cfg hist te (ticks_in history ws we) a /\ ~ not_exceeded a).
  Proof. intros H. intros. apply C81_evaluation; auto. eapply program_copes. exact H. Qed.

  (** A whole batch: every schedule that gives each task enough steps ends, with one result
      per trader, in order.  (The scores can be compared if the library's pow is sane.) *)
  Lemma batch_returns tes (cfg : @account_config I) ec hist side history sched :
    Forall copes_float tes ->
    open_for_business cfg -> side_matches hist side -> strictly_ordered history -> Forall quoted history ->
    (forall te ws we a, In te tes -> reached cfg hist te (ticks_in history ws we) a -> not_exceeded a) ->
    (0 < ec_start_timestamp_sec ec)%Z -> covers ec history ->
    (forall i, (i < List.length tes)%nat ->
       (Z.max 0 (ec_end_timestamp_sec ec - ec_start_timestamp_sec ec) < Z.of_nat (count_occ Nat.eq_dec sched i))%Z) ->
    exists results, EvaluateBatchOfTraders cfg ec history side tes sched = Done results /\
       Forall2 (fun te (r : @evaluation_result I) => er_name r = te_name te /\ scored lm as_ r) tes results.
  Proof.
    intros Ht Hb Hs Ho Hq HX H0 Hc Hn.
    set (n := S (Z.to_nat (Z.max 0 (ec_end_timestamp_sec ec - ec_start_timestamp_sec ec)))).
    assert (Alone : forall te, In te tes -> exists r, evaluate_alone cfg ec history side n te = Done r /\ er_name r = te_name te /\ scored lm as_ r).
    { intros te Hin. rewrite Forall_forall in Ht.
      destruct (evaluation_returns lm as_ cfg ec hist side te null_logger false history Hb (Ht te Hin) Hs Ho Hq) with (fuel := n) (l := tt) as (r & l' & E & Sc); auto.
      - intros ws we a Ha. apply (HX te ws we a Hin Ha).
      - unfold n. lia.
      - exists r. split; [|split; [|exact Sc]].
        + unfold evaluate_alone. rewrite E. reflexivity.
        + unfold EvaluateTrader in E. apply bind_done in E as ([ps l1] & _ & E). apply bind_done in E as (r' & E & Er). injection Er as <- _.
          unfold eval_summary in E. apply bind_done in E as (sc & _ & E). injection E as <-. reflexivity. }
    rewrite (C27_batch cfg ec history side tes sched n).
    - clear - Alone. induction tes as [|te tes IH]; [exists []; split; [reflexivity|constructor]|].
      destruct (Alone te ltac:(left; reflexivity)) as (r & E & P). destruct IH as (rs & Es & F); [intros te' H; apply Alone; right; exact H|].
      exists (r :: rs). cbn [map all_in_order fold_right]. unfold all_in_order in Es. rewrite E, Es. split; [reflexivity|constructor; assumption].
    - intros te Hin K. destruct (Alone te Hin) as (r & E & _). congruence.
    - intros i Hi. specialize (Hn i Hi). unfold n. lia.
  Qed.

  Theorem C81_batch name tes (cfg : @account_config I) ec hist side history sched :
    @GetBatchOfTraders I name = Done tes ->
    open_for_business cfg -> side_matches hist side -> strictly_ordered history -> Forall quoted history ->
    (0 < ec_start_timestamp_sec ec)%Z -> covers ec history ->
    (forall i, (i < List.length tes)%nat ->
       (Z.max 0 (ec_end_timestamp_sec ec - ec_start_timestamp_sec ec) < Z.of_nat (count_occ Nat.eq_dec sched i))%Z) ->
    (exists results, EvaluateBatchOfTraders cfg ec history side tes sched = Done results /\
       Forall2 (fun te (r : @evaluation_result I) => er_name r = te_name te) tes results) \/
    (exists te ws we a, In te tes /\ reached cfg hist te (ticks_in history ws we) a /\ ~ not_exceeded a).
  Proof.
    intros Ht Hb Hs Ho Hq H0 Hc Hn.
    destruct (classic (exists te ws we a, In te tes /\ reached cfg hist te (ticks_in history ws we) a /\ ~ not_exceeded a)) as [H|H]; [right; exact H|left].
    destruct (batch_returns tes cfg ec hist side history sched) as (rs & E & F); auto.
    - apply Forall_forall. intros te Hin. apply (program_copes name). right. exists tes. auto.
    - intros te ws we a Hin Ha. apply NNPP. intros N. apply H. exists te, ws, we, a. auto.
    - exists rs. split; [exact E|]. clear - F. induction F as [|? ? ? ? [? _]]; constructor; auto.
  Qed.

  (** ** C82 The trader program *)

  Ltac lit_range := match goal with |- in_range _ _ ?x => lit_fact x; split; [assumption|match goal with V : B2R _ = _ |- _ => rewrite V end; lra] end.

  Lemma fmt_bpow k : (-149 <= k)%Z -> generic_format radix2 (SpecFloat.fexp 24 128) (bpow radix2 k).
  Proof. intros H. apply generic_format_bpow. unfold SpecFloat.fexp, SpecFloat.emin. lia. Qed.

  Lemma flag_account f : sensible_flags f -> open_for_business (@GetAccountConfig lm as_ f).
  Proof.
    intros [Hb Hq Own Hl Hr].
    assert (Z0 : generic_format radix2 (SpecFloat.fexp 24 128) 0) by apply generic_format_0.
    assert (One : generic_format radix2 (SpecFloat.fexp 24 128) 1) by (change 1 with (bpow radix2 0); apply fmt_bpow; lia).
    assert (L100 : bpow radix2 100 < bpow radix2 128) by (apply bpow_lt; lia).
    assert (L1 : 1 < bpow radix2 128) by (change 1 with (bpow radix2 0); apply bpow_lt; lia).
    pose proof (bpow_gt_0 radix2 (-30)) as P30.
    assert (B : forall x, flag_between 0 (bpow radix2 100) x -> balance_ok (f64_to_f32 x)).
    { intros x Hx. destruct (narrow_range 0 (bpow radix2 100) x Z0 (fmt_bpow 100 ltac:(lia)) ltac:(lra) L100 Hx) as [F V]. split; [exact F|apply V]. }
    assert (O : forall x, flag_between 0 (bpow radix2 100) x -> bpow radix2 (-30) <= B2R x -> bpow radix2 (-30) <= B2R (f64_to_f32 x)).
    { intros x [Fx Hx] Ox. destruct (narrow_range (bpow radix2 (-30)) (bpow radix2 100) x (fmt_bpow (-30) ltac:(lia)) (fmt_bpow 100 ltac:(lia)) ltac:(lra) L100) as [_ V]; [|apply V].
      split; [exact Fx|]. split; [exact Ox|apply Hx]. }
    assert (Fees : ok_fees (@FeeConfig I (flit (M := I) 5 1000) (f32_of_Z 0) (f32_of_Z 0))).
    { destruct big_enough as (B1 & B2 & B3 & B4 & B5 & B6 & B7).
      constructor; cbn [relative_fee fixed_fee minimum_fee]; [lit_range|apply n_range; [lia|lra]|apply n_range; [lia|lra]]. }
    assert (U1 : in_range (1 / 131072) 1 (@flit I 1 100000)) by lit_range.
    assert (U2 : in_range (1 / 131072) 1 (@flit I 1 100)) by lit_range.
    assert (Unit : forall x : f32, in_range (1 / 131072) 1 x -> ok_unit x).
    { intros x [Fx Hx]. split; [exact Fx|]. right.
      assert (bpow radix2 (-30) <= 1 / 131072) by (apply Rle_trans with (bpow radix2 (-17)); [apply bpow_le; lia|change (bpow radix2 (-17)) with (/ 131072); lra]).
      destruct big_enough as (B1 & B2 & B3 & B4 & B5 & B6 & B7). lra. }
    constructor.
    - constructor; exact Fees.
    - constructor; cbn [opening_account GetAccountConfig base_unit quote_unit market_liquidity max_volume_ratio cfg_base_unit cfg_quote_unit cfg_market_liquidity cfg_max_volume_ratio]; auto; apply narrow_range; auto; lra.
    - split; [|split]; cbn [opening_account GetAccountConfig base_balance quote_balance total_fee start_base_balance start_quote_balance]; auto.
      split; [reflexivity|cbn; lra].
    - destruct U1 as [_ U1]. cbn [GetAccountConfig cfg_base_unit]. change (@flt I) with f32 in *. lra.
    - destruct U2 as [_ U2]. cbn [GetAccountConfig cfg_quote_unit]. change (@flt I) with f32 in *. lra.
    - cbn [GetAccountConfig start_base_balance start_quote_balance]. destruct Own as [Own|Own]; [left|right]; apply O; auto.
  Qed.

  Lemma log_opens env f file : log_possible env f file -> exists s, OpenLogFile env f file = Some s.
  Proof.
    intros [->|[W M]]; [exists None; reflexivity|]. unfold OpenLogFile. destruct (nonempty file); [|exists None; reflexivity].
    cbn [negb]. rewrite Z.gtb_ltb, (proj2 (Z.ltb_ge _ _)) by lia. rewrite W. eauto.
  Qed.

  Lemma batch_of name te : @GetTrader I name = Done te -> exists tes, @GetBatchOfTraders I name = Done tes.
  Proof.
    unfold GetTrader, GetBatchOfTraders. destruct (String.eqb name "rebalancing"); [eauto|].
    intros H. apply bind_done in H as (u & E & _). rewrite E. cbn [bind]. eauto.
  Qed.

  (** The flags and the input files for a run that is expected to end well. *)
  Record ready (env : environment) (f : trader_flags) (start end_ : Z) (h : list (@ohlc_tick I)) (side : option (list (@side_record I))) : Prop := Ready {
    rd_data : @trading_data lm as_ env f start end_ h side;
    rd_flags : sensible_flags f;
    rd_name : tf_trader f = "rebalancing"%string \/ tf_trader f = "stop"%string;
    rd_times : strictly_ordered (of_period timestamp_sec start end_ h);
    rd_ticks : Forall quoted (of_period timestamp_sec start end_ h);
    rd_cover : (0 < tf_evaluation_period_months f)%Z \/
               tf_evaluation_period_months f = 0%Z /\ of_period timestamp_sec start end_ h <> []
  }.

  Lemma ready_covers env f start end_ h side fast : ready env f start end_ h side ->
    covers (eval_config_of f start end_ fast) (of_period timestamp_sec start end_ h).
  Proof.
    intros [D _ _ _ _ [M|[M N]]]; [left; exact M|right]. cbn [eval_config_of ec_start_timestamp_sec ec_end_timestamp_sec evaluation_period_months].
    pose proof (td_period _ _ _ _ _ _ D) as Hp. split; [split; [exact M|lia]|].
    rewrite <- (in_interval_ticks (M := I) _ start end_) by lia. rewrite period_twice by exact Hp. exact N.
  Qed.

  Theorem C82_table env sort fuel sched f start end_ h side :
    ready env f start end_ h side -> tf_evaluate_batch f = false ->
    log_possible env f (tf_exchange_log f) -> log_possible env f (tf_trader_log f) ->
    (end_ - start < Z.of_nat fuel)%Z ->
    (exists name rows logs, @trader_main lm as_ env sort fuel sched f = Done (TraderResult EXIT_SUCCESS (Some (Table name rows)) logs)) \/
    (exists te ws we a, program_trader (tf_trader f) te /\
       reached (GetAccountConfig f) side te (ticks_in (of_period timestamp_sec start end_ h) ws we) a /\ ~ not_exceeded a).
  Proof.
    intros R Hb L1 L2 Hf. pose proof R as [D Fl Nm Ho Hq _]. pose proof (td_period _ _ _ _ _ _ D) as Hp.
    destruct (main_reads env sort fuel sched f start end_ h side D) as (si & Hs & ->).
    assert (exists te, @GetTrader I (tf_trader f) = Done te) as (te & Hte).
    { destruct Nm as [-> | ->]; [eexists; reflexivity|]. unfold GetTrader. cbn [String.eqb Ascii.eqb Bool.eqb]. rewrite assert_true. cbn [bind]. eauto. }
    unfold trading. rewrite Hb, Hte. cbn [bind].
    destruct (log_opens env f _ L1) as (s1 & ->). destruct (log_opens env f _ L2) as (s2 & ->).
    destruct (C81_programs (tf_trader f) te (GetAccountConfig f) (eval_config_of f start end_ false) side si (@csv_logger I) true
      (of_period timestamp_sec start end_ h) fuel (s1, s2)) as [(r & l' & E)|(ws & we & a & Ha & Na)].
    - left. exact Hte.
    - apply flag_account. exact Fl.
    - exact Hs.
    - exact Ho.
    - exact Hq.
    - cbn. lia.
    - eapply ready_covers. exact R.
    - cbn [eval_config_of ec_start_timestamp_sec ec_end_timestamp_sec]. lia.
    - left. rewrite E. cbn [bind]. eauto.
    - right. exists te, ws, we, a. split; [left; exact Hte|]. auto.
  Qed.

  Lemma scored_number (r : @evaluation_result I) : roots_exist lm -> scored lm as_ r -> @feqb I (er_score r) (er_score r) = true.
  Proof.
    intros P [->|(x & n & Hx & Hn & ->)]; [reflexivity|]. apply narrow_number. apply P; assumption.
  Qed.

  Theorem C82_ranking env sort fuel sched f start end_ h side :
    roots_exist lm -> ready env f start end_ h side -> tf_evaluate_batch f = true ->
    (forall i tes, @GetBatchOfTraders I (tf_trader f) = Done tes -> (i < List.length tes)%nat ->
       (end_ - start < Z.of_nat (count_occ Nat.eq_dec sched i))%Z) ->
    (exists rows, @trader_main lm as_ env sort fuel sched f = Done (TraderResult EXIT_SUCCESS (Some (Ranking rows)) [])) \/
    (exists te ws we a, program_trader (tf_trader f) te /\
       reached (GetAccountConfig f) side te (ticks_in (of_period timestamp_sec start end_ h) ws we) a /\ ~ not_exceeded a).
  Proof.
    intros Roots R Hb Hn. pose proof R as [D Fl Nm Ho Hq _]. pose proof (td_period _ _ _ _ _ _ D) as Hp.
    destruct (main_reads env sort fuel sched f start end_ h side D) as (si & Hs & ->).
    assert (exists tes, @GetBatchOfTraders I (tf_trader f) = Done tes) as (tes & Htes).
    { apply (batch_of (tf_trader f) (match @GetTrader I (tf_trader f) with Done te => te | _ => rebalancing_emitter (@RebalancingConfig I (f32_of_Z 0) (f32_of_Z 0)) end)).
      destruct Nm as [-> | ->]; [reflexivity|]. unfold GetTrader. cbn [String.eqb Ascii.eqb Bool.eqb]. rewrite assert_true. reflexivity. }
    destruct (classic (exists te ws we a, program_trader (tf_trader f) te /\
       reached (GetAccountConfig f) side te (ticks_in (of_period timestamp_sec start end_ h) ws we) a /\ ~ not_exceeded a)) as [H|H]; [right; exact H|left].
    unfold trading. rewrite Hb, Htes. cbn [bind].
    assert (PT : forall te, In te tes -> program_trader (tf_trader f) te) by (intros te Hin; right; exists tes; auto).
    destruct (batch_returns tes (GetAccountConfig f) (eval_config_of f start end_ true) side si (of_period timestamp_sec start end_ h) sched) as (rs & E & F).
    - apply Forall_forall. intros te Hin. apply (program_copes (tf_trader f)). auto.
    - apply flag_account. exact Fl.
    - exact Hs.
    - exact Ho.
    - exact Hq.
    - intros te ws we a Hin Ha. apply NNPP. intros N. apply H. exists te, ws, we, a. auto.
    - cbn. lia.
    - eapply ready_covers. exact R.
    - intros i Hi. cbn [eval_config_of ec_start_timestamp_sec ec_end_timestamp_sec]. specialize (Hn i tes Htes Hi). lia.
    - rewrite E. cbn [bind]. unfold std_sort.
      assert (X : existsb (fun r => negb (feqb (machine := I) (er_score r) (er_score r))) rs = false).
      { apply not_true_is_false. intros K. apply existsb_exists in K as (r & Hr & K).
        assert (Sc : scored lm as_ r).
        { clear - F Hr. induction F as [|te r0 tes rs [_ S] F IH]; [destruct Hr|]. destruct Hr as [<-|Hr]; auto. }
        rewrite (scored_number r Roots Sc) in K. discriminate. }
      rewrite X, andb_false_r. cbn [bind]. eauto.
  Qed.
End IEEE.

(** The flags and files of the example of C73 meet the hypotheses (and C73_ex, C74_ex show
    what the program then prints). *)
Lemma C82_ex elog batch : ready tm_libm true tm_env (tm_flags "t.bin" elog batch) 2 720 tm_ticks (Some tm_side) /\ roots_exist tm_libm.
Proof.
  split; [|intros x n Hx _; cbn [libm_pow tm_libm]; destruct x; try reflexivity; discriminate].
  destruct big_enough as (B1 & B2 & B3 & B4 & B5 & B6 & B7).
  assert (P : of_period timestamp_sec 2 720 tm_ticks = [tm_tick 2 100; tm_tick 302 110; tm_tick 602 105]) by reflexivity.
  constructor; rewrite ?P; clear P.
  - apply C71_trading_data.
  - assert (F : forall k hi, (0 <= k <= 1)%Z -> 1 <= hi -> flag_between 0 hi (f64_of_Z k) /\ B2R (f64_of_Z k) = IZR k).
    { intros k hi Hk Hh. assert (V : is_finite (f64_of_Z k) = true /\ B2R (f64_of_Z k) = IZR k).
      { assert (k = 0 \/ k = 1)%Z as [-> | ->] by lia; [split; reflexivity|]. split; [vm_compute; reflexivity|].
        rewrite <- SF2R_B2SF. replace (B2SF (f64_of_Z 1)) with (SpecFloat.S754_finite false 4503599627370496 (-52)) by (vm_compute; reflexivity).
        unfold SF2R, F2R. cbn [Fnum Fexp SpecFloat.cond_Zopp]. change (IZR 4503599627370496) with (bpow radix2 52). rewrite <- bpow_plus. reflexivity. }
      destruct V as [V1 V2]. split; [|exact V2]. split; [exact V1|]. rewrite V2.
      assert (0 <= IZR k <= 1) by (split; apply IZR_le; lia). lra. }
    assert (One : 1 <= bpow radix2 100) by (change 1 with (bpow radix2 0); apply bpow_le; lia).
    constructor; cbn [tm_flags tf_start_base_balance tf_start_quote_balance tf_market_liquidity tf_max_volume_ratio];
      try (apply F; [lia|lra || exact One]).
    left. rewrite (proj2 (F 1%Z 1 ltac:(lia) ltac:(lra))). lra.
  - right. reflexivity.
  - split.
    + intros t Ht. cbn in Ht. repeat (destruct Ht as [<-|Ht]; [cbn; lia|]). destruct Ht.
    + intros i j t t' H1 H2 L. destruct i as [|[|[|i]]], j as [|[|[|j]]]; cbn in H1, H2; try lia; try discriminate; try (destruct i; discriminate); try (destruct j; discriminate);
        injection H1 as <-; injection H2 as <-; cbn; lia.
  - assert (K : forall t c, (2 <= c <= 127)%Z -> quoted (tm_tick t c)).
    { intros t c Hc.
      assert (P : forall k, (1 <= k <= 128)%Z -> in_range (bpow radix2 (-19)) (bpow radix2 19) (f32_of_Z k) /\ in_range (bpow radix2 (-26)) (bpow radix2 26) (f32_of_Z k)).
      { intros k Hk. assert (1 <= IZR k <= 128) by (split; apply IZR_le; lia). split; apply n_range; try lia; lra. }
      assert (Q : forall k, (0 <= k <= 128)%Z -> B2R (f32_of_Z k) = IZR k) by (intros k Hk; apply ofZ_finite; lia).
      split; [|apply P; lia]. constructor; try (apply P; lia).
      - apply n_range; [cbn; lia|]. cbn. lra.
      - cbn [tm_tick low open]. rewrite !Q by lia. apply IZR_le. lia.
      - cbn [tm_tick high open]. rewrite !Q by lia. apply IZR_le. lia. }
    repeat (apply Forall_cons; [apply K; lia|]). apply Forall_nil.
  - right. split; [reflexivity|discriminate].
Qed.

Lemma C81_ex : exists ec r, covers ec (pf_ticks tm_libm true) /\ (0 < ec_start_timestamp_sec ec)%Z /\
  @EvaluateTrader EM (pf_config tm_libm true) ec (pf_ticks tm_libm true) None (rebalancing_emitter default_rebalancing) null_logger false 300 tt = Done (r, tt) /\
  List.length (er_period r) = 1%nat.
Proof.
  set (ec := {| ec_start_timestamp_sec := 60; ec_end_timestamp_sec := 301; evaluation_period_months := 0; fast_eval := true |}).
  exists ec.
  assert (H : bind (@EvaluateTrader EM (pf_config tm_libm true) ec (pf_ticks tm_libm true) None (rebalancing_emitter default_rebalancing) null_logger false 300 tt)
                   (fun x => Done (List.length (er_period (fst x)))) = Done 1%nat) by (vm_compute; reflexivity).
  apply bind_done in H as ([r []] & H1 & H2). exists r. split; [|split; [reflexivity|split; [exact H1|injection H2; auto]]].
  right. split; [cbn; lia|discriminate].
Qed.
