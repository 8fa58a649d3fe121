(** C128: an evaluation is made of its windows, and of nothing else. *)
From Coq Require Import ZArith Bool List Lia String.
From Verif.Model Require Import Outcome Machine Types Account History SideInput Indicators TimeUtil Eval MachineR MachineIEEE.
From Verif.Spec Require Import SeriesSpec HistorySpec RunSpec EvalSpec TimeSpec WindowSpec.
From Verif.Proofs Require Import Base TimeProofs SubsetProofs RunPairs EvalProofs.
From Verif.Properties Require RunProps.
From Verif.Properties Require Import EvalProps.
Import ListNotations.
Local Open Scope Z_scope.

Local Opaque AddMonthsToTimestampSec.
Section Windows.
  Context {M : machine}.
  Context (cfg : account_config) (ec : evaluation_config) (side : option side_input) (te : trader_emitter).

  (** ** One window alone: every reported period is, field by field, what the evaluation of
      the period's own range as a whole reports, on any history with the same ticks in that
      range and with any logger.  Such an evaluation aborts only where the score of that one window is
      negative or not a number. *)
  Theorem C128_alone : forall history history2 lg hl fuel l r l' p lg2 hl2 fuel2 l2,
    ordered timestamp_sec history -> ordered timestamp_sec history2 ->
    0 < evaluation_period_months ec -> clean_start ec history -> clean_start ec history2 ->
    EvaluateTrader cfg ec history side te lg hl fuel l = Done (r, l') -> In p (er_period r) ->
    ticks_in history2 (p_start_timestamp_sec p) (p_end_timestamp_sec p) =
      ticks_in history (p_start_timestamp_sec p) (p_end_timestamp_sec p) ->
    (0 < fuel2)%nat ->
    let alone := EvaluateTrader cfg (only_window ec p) history2 side te lg2 hl2 fuel2 l2 in
    (exists r2 l2', alone = Done (r2, l2') /\ er_period r2 = [p]) \/
    (alone = AssertFail /\
     dleb (dofZ 0) (dmul (dofZ 1) (f2d (fdiv (p_final_gain p) (p_base_final_gain p)))) = false).
  Proof.
    intros history history2 lg hl fuel l r l' p lg2 hl2 fuel2 l2 Ho Ho2 Hp Hc Hc2 H Hin Hsame Hf alone.
    destruct (C22_windows cfg ec history side te lg hl Ho Hp Hc) as (K & HK & HKs & E).
    assert (Hf' : exists fuel', K < Z.of_nat fuel' /\ EvaluateTrader cfg ec history side te lg hl fuel' l = Done (r, l')).
    { exists (fuel + Z.to_nat K + 1)%nat. split; [lia|]. revert H. unfold EvaluateTrader. intros H. apply bind_done in H as ([ps l1] & H & H2).
      assert (Mono : forall n m s x, eval_loop cfg ec history side te lg hl n s = Done x -> eval_loop cfg ec history side te lg hl (n + m) s = Done x).
      { clear. induction n as [|n IH]; intros m s x H; [discriminate|]. cbn [eval_loop Nat.add] in *. apply bind_done in H as (y & -> & H).
        cbn [bind]. destruct y; [apply IH; exact H|exact H]. }
      rewrite <- Nat.add_assoc. rewrite (Mono _ _ _ _ H). cbn [bind]. exact H2. }
    destruct Hf' as (fuel' & Hf' & H'). clear H. rewrite (E _ _ Hf') in H'. apply bind_done in H' as ([ps l1] & HF & H').
    apply bind_done in H' as (r' & Hr & Er). injection Er as -> ->.
    assert (er_period r = ps) as Eps.
    { unfold eval_summary in Hr. apply bind_done in Hr as (sc & _ & Hr). injection Hr as <-. reflexivity. }
    rewrite Eps in Hin. clear E Hf' fuel' Eps Hr r.
    (* the period comes from one of the windows, whose checks passed *)
    assert (W : forall ws ps0 l0 ps1 l1', foldM (evaluate_window cfg ec side te lg hl history) (ps0, l0) ws = Done (ps1, l1') ->
      In p ps1 -> In p ps0 \/
      exists start end_ la res lb, In (start, end_) ws /\ ticks_in history start end_ <> [] /\
        ExecuteTrader cfg side (fast_eval ec) te lg hl (ticks_in history start end_) la = Done (res, lb) /\
        assert_ (fltb (fofZ 0) (r_start_value res)) = Done tt /\
        assert_ (fltb (fofZ 0) (r_start_price res) && fltb (fofZ 0) (r_end_price res)) = Done tt /\
        p = {| p_start_timestamp_sec := start; p_end_timestamp_sec := end_; p_result := res;
               p_final_gain := fdiv (r_end_value res) (r_start_value res);
               p_base_final_gain := fdiv (r_end_price res) (r_start_price res) |}).
    { clear. induction ws as [|[start end_] ws IH]; intros ps0 l0 ps1 l1' H Hin.
      - injection H as <- <-. left; exact Hin.
      - cbn [foldM] in H. apply bind_done in H as ([ps2 l2'] & H1 & H2).
        destruct (IH _ _ _ _ H2 Hin) as [Hi|(s & e & la & res & lb & Hw & R)].
        2:{ right. exists s, e, la, res, lb. split; [right; exact Hw|exact R]. }
        unfold evaluate_window in H1. cbn [fst snd] in H1. destruct (ticks_in history start end_) as [|x rs] eqn:Et.
        + injection H1 as -> ->. left; exact Hi.
        + apply bind_done in H1 as ([res l3] & E1 & H1). apply bind_done in H1 as ([] & A1 & H1). apply bind_done in H1 as ([] & A2 & H1).
          injection H1 as <- <-. apply in_app_or in Hi as [Hi|[Hi|[]]]; [left; exact Hi|]. right.
          exists start, end_, l0, res, l3. rewrite Et. split; [left; reflexivity|]. split; [discriminate|].
          split; [exact E1|]. split; [exact A1|]. split; [exact A2|]. symmetry. exact Hi. }
    destruct (W _ _ _ _ _ HF Hin) as [[]|(start & end_ & la & res & lb & Hw & Hne & Hex & A1 & A2 & Ep)].
    clear W HF Hin.
    apply in_map_iff in Hw as (k & Ek & Hk). apply in_map_iff in Hk as (n & <- & _). injection Ek as Es Ee.
    pose proof (start_before_end ec Hp (Z.of_nat n)) as Hse. destruct (start_grows ec (Z.of_nat n) ltac:(lia)) as [G1 G2].
    rewrite Es in Hse, G1, G2. rewrite Ee in Hse.
    assert (Pe : p_start_timestamp_sec p = start /\ p_end_timestamp_sec p = end_) by (rewrite Ep; split; reflexivity).
    destruct Pe as [Ps Pe].
    assert (C1 : 0 < start \/ (start = 0 /\ forall t, In t history2 -> 0 <= timestamp_sec t)).
    { destruct Hc2 as [Hc2|[Hc1 Hc2]]; [left; lia|]. destruct (Z.eq_dec start 0); [right; auto|left; lia]. }
    assert (Wi : eval_window (only_window ec p) 0 = (start, end_)).
    { unfold eval_window, only_window. cbn [evaluation_period_months ec_start_timestamp_sec ec_end_timestamp_sec].
      change (0 >? 0) with false. cbv iota zeta. rewrite Ps, Pe. f_equal.
      destruct (to_civil start) as (y & m & d & s & Hc' & _). rewrite (add_months _ 0 y m d s Hc'), Z.add_0_r.
      symmetry. apply at_civil_first. exact Hc'. }
    assert (Hle : end_ <= ec_end_timestamp_sec (only_window ec p)).
    { unfold only_window. cbn [ec_end_timestamp_sec]. rewrite Pe. lia. }
    pose proof (step_window cfg (only_window ec p) history2 side te lg2 hl2 Ho2 0 [] l2 _ _ Wi Hle ltac:(lia)) as S.
    rewrite (in_interval_ticks history2 start end_ C1 ltac:(lia)) in S.
    rewrite Ps, Pe in Hsame. rewrite Hsame in S.
    pose proof (logger_irrelevant cfg side (fast_eval ec) te lg lg2 hl hl2 (ticks_in history start end_) la l2) as LI.
    rewrite Hex in LI. cbn [omap bind fst] in LI. symmetry in LI. apply omap_done in LI as ([res2 lb2] & Hex2 & Eres). cbn [fst] in Eres. subst res2.
    destruct (ticks_in history start end_) as [|x rs] eqn:Et; [congruence|].
    change (fast_eval (only_window ec p)) with (fast_eval ec) in S.
    rewrite Hex2 in S. cbn [bind] in S. rewrite A1 in S. cbn [bind] in S. rewrite A2 in S. cbn [bind] in S.
    change (evaluation_period_months (only_window ec p)) with 0 in S. change (0 =? 0) with true in S. cbv iota zeta in S.
    rewrite <- Ep in S. cbn [app] in S.
    destruct fuel2 as [|fuel2]; [lia|].
    assert (EA : alone = do r2 <- eval_summary cfg (only_window ec p) te [p] ; Done (r2, lb2)).
    { unfold alone, EvaluateTrader. cbn [eval_loop]. rewrite S. reflexivity. }
    clearbody alone. subst alone. unfold eval_summary, GetGeometricAverage. cbn [fold_left].
    unfold assert_. destruct (dleb (dofZ 0) (dmul (dofZ 1) (f2d (fdiv (p_final_gain p) (p_base_final_gain p))))) eqn:Eb.
    - left. destruct asserts_on; cbn [bind]; eexists; eexists; split; reflexivity.
    - destruct asserts_on; cbn [bind]; [right; split; reflexivity|left; eexists; eexists; split; reflexivity].
  Qed.

  (** ** Nothing outside the windows: two histories with the same ticks in every window
      evaluate alike, step for step, including every failure and everything logged. *)
  Theorem C128_same_windows : forall h1 h2 lg hl fuel l,
    ordered timestamp_sec h1 -> ordered timestamp_sec h2 ->
    0 < evaluation_period_months ec -> clean_start ec h1 -> clean_start ec h2 ->
    (forall k, 0 <= k -> window_end ec k <= ec_end_timestamp_sec ec ->
       ticks_in h1 (window_start ec k) (window_end ec k) = ticks_in h2 (window_start ec k) (window_end ec k)) ->
    EvaluateTrader cfg ec h1 side te lg hl fuel l = EvaluateTrader cfg ec h2 side te lg hl fuel l.
  Proof.
    intros h1 h2 lg hl fuel l Ho1 Ho2 Hp Hc1 Hc2 Hw. unfold EvaluateTrader.
    assert (L : forall n k ps l0, 0 <= k -> eval_loop cfg ec h1 side te lg hl n (k, ps, l0) = eval_loop cfg ec h2 side te lg hl n (k, ps, l0)).
    { clear fuel l. induction n as [|n IH]; intros k ps l0 Hk; [reflexivity|]. cbn [eval_loop].
      destruct (Z_le_gt_dec (window_end ec k) (ec_end_timestamp_sec ec)) as [He|He].
      - pose proof (start_before_end ec Hp k) as Hse. destruct (start_grows ec k Hk) as [G1 G2].
        assert (C : forall h, clean_start ec h -> 0 < window_start ec k \/ (window_start ec k = 0 /\ forall t, In t h -> 0 <= timestamp_sec t)).
        { intros h [Hc|[Hc3 Hc4]]; [left; lia|]. destruct (Z.eq_dec (window_start ec k) 0); [right; auto|left; lia]. }
        rewrite (step_window cfg ec h1 side te lg hl Ho1 k ps l0 _ _ (window_pos ec Hp k) He ltac:(lia)).
        rewrite (step_window cfg ec h2 side te lg hl Ho2 k ps l0 _ _ (window_pos ec Hp k) He ltac:(lia)).
        assert (Hwe : 0 < window_end ec k) by (destruct (C h1 Hc1) as [?|[? _]]; lia).
        rewrite (in_interval_ticks h1 _ _ (C h1 Hc1)), (in_interval_ticks h2 _ _ (C h2 Hc2)) by lia.
        rewrite <- (Hw k Hk He).
        destruct (ticks_in h1 (window_start ec k) (window_end ec k)) as [|x rs]; [cbn [bind]; apply IH; lia|].
        rewrite !bind_assoc. apply bind_ext. intros [res l1] _. rewrite ?bind_assoc. apply bind_ext. intros [] _.
        rewrite ?bind_assoc. apply bind_ext. intros [] _. cbv zeta. rewrite (proj2 (Z.eqb_neq _ _)) by lia.
        cbn [bind]. apply IH. lia.
      - unfold eval_step. rewrite (window_pos ec Hp k). rewrite Z.gtb_ltb, (proj2 (Z.ltb_lt _ _)) by lia. cbv beta iota zeta. cbn [bind]. reflexivity. }
    rewrite L by lia. reflexivity.
  Qed.

  (** In particular the ticks before the start and from the end on do not matter. *)
  Theorem C128_cut : forall history lg hl fuel l,
    ordered timestamp_sec history -> 0 < evaluation_period_months ec -> clean_start ec history ->
    EvaluateTrader cfg ec history side te lg hl fuel l =
    EvaluateTrader cfg ec (ticks_in history (ec_start_timestamp_sec ec) (ec_end_timestamp_sec ec)) side te lg hl fuel l.
  Proof.
    intros history lg hl fuel l Ho Hp Hc. apply C128_same_windows; auto.
    - apply ordered_filter. exact Ho.
    - destruct Hc as [Hc|[Hc1 Hc2]]; [left; exact Hc|right; split; [exact Hc1|]]. intros t Ht. apply filter_In in Ht as [Ht _]. auto.
    - intros k Hk He. destruct (start_grows ec k Hk) as [G1 _]. unfold ticks_in.
      set (a := ec_start_timestamp_sec ec) in *. set (b := ec_end_timestamp_sec ec) in *.
      set (s := window_start ec k) in *. set (e := window_end ec k) in *. clearbody a b s e. clear - G1 He.
      induction history as [|t h IH]; [reflexivity|]. cbn [filter].
      destruct ((s <=? timestamp_sec t) && (timestamp_sec t <? e)) eqn:E1.
      + apply andb_true_iff in E1 as [E2 E3]. apply Z.leb_le in E2. apply Z.ltb_lt in E3.
        rewrite (proj2 (Z.leb_le a (timestamp_sec t))), (proj2 (Z.ltb_lt (timestamp_sec t) b)) by lia. cbn [andb filter].
        rewrite (proj2 (Z.leb_le s (timestamp_sec t))), (proj2 (Z.ltb_lt (timestamp_sec t) e)) by lia. cbn [andb]. f_equal. exact IH.
      + destruct ((a <=? timestamp_sec t) && (timestamp_sec t <? b)); [|exact IH]. cbn [filter]. rewrite E1. exact IH.
  Qed.

  (** ** More data later: evaluating up to a later end, on a history that has the same ticks
      before the former end and with side input that is the same before the former end,
      reports the same periods first, then only periods that end after the former end. *)
  Theorem C128_later_end : forall hist1 hist2 side2 h1 h2 lg1 hl1 fuel1 l1 r1 l1' lg2 hl2 fuel2 l2 r2 l2' end2,
    ordered timestamp_sec h1 -> ordered timestamp_sec h2 ->
    0 < evaluation_period_months ec -> clean_start ec h1 -> clean_start ec h2 ->
    ec_end_timestamp_sec ec <= end2 ->
    side_matches hist1 side -> side_matches hist2 side2 ->
    same_knowledge hist1 hist2 (ec_end_timestamp_sec ec - 1) ->
    ticks_in h1 (ec_start_timestamp_sec ec) (ec_end_timestamp_sec ec) =
      ticks_in h2 (ec_start_timestamp_sec ec) (ec_end_timestamp_sec ec) ->
    EvaluateTrader cfg ec h1 side te lg1 hl1 fuel1 l1 = Done (r1, l1') ->
    EvaluateTrader cfg (until ec end2) h2 side2 te lg2 hl2 fuel2 l2 = Done (r2, l2') ->
    exists more, er_period r2 = er_period r1 ++ more /\
      Forall (fun p => ec_end_timestamp_sec ec < p_end_timestamp_sec p <= end2) more.
  Proof.
    intros hist1 hist2 side2 h1 h2 lg1 hl1 fuel1 l1 r1 l1' lg2 hl2 fuel2 l2 r2 l2' end2 Ho1 Ho2 Hp Hc1 Hc2 Hend SM1 SM2 SK Hsame H1 H2.
    rewrite C128_cut in H1 by assumption.
    set (h := ticks_in h1 (ec_start_timestamp_sec ec) (ec_end_timestamp_sec ec)) in *.
    assert (Ho : ordered timestamp_sec h) by (apply ordered_filter; exact Ho1).
    assert (Hc : clean_start ec h).
    { destruct Hc1 as [Hc|[Hc Hc']]; [left; exact Hc|right; split; [exact Hc|]]. intros t Ht. apply filter_In in Ht as [Ht _]. auto. }
    destruct (C22_periods cfg ec h side te lg1 hl1 fuel1 l1 r1 l1' Ho Hp Hc H1) as (K1 & HK1 & HKs1 & F1).
    assert (X2 : exists K, 0 <= K /\ (forall k, 0 <= k -> (window_end ec k <= end2 <-> k < K)) /\
      Forall2 (fun k p => period_reports cfg side2 (fast_eval ec) te (ticks_in h2 (window_start ec k) (window_end ec k))
                            (window_start ec k) (window_end ec k) p)
              (filter (fun k => match ticks_in h2 (window_start ec k) (window_end ec k) with
                                | [] => false | _ => true end) (offsets K))
              (er_period r2)).
    { pose proof (C22_periods cfg (until ec end2) h2 side2 te lg2 hl2 fuel2 l2 r2 l2' Ho2 Hp Hc2 H2) as (K2 & A & B & F).
      exists K2. split; [exact A|]. split; [exact B|]. exact F. }
    destruct X2 as (K2 & HK2 & HKs2 & F2).
    assert (HK : K1 <= K2).
    { destruct (Z_le_gt_dec K1 K2) as [|G]; [assumption|exfalso]. pose proof (proj2 (HKs1 K2 ltac:(lia)) ltac:(lia)) as A.
      pose proof (proj1 (HKs2 K2 ltac:(lia)) ltac:(lia)). lia. }
    assert (EO : offsets K2 = offsets K1 ++ map (fun i => K1 + Z.of_nat i) (seq 0 (Z.to_nat (K2 - K1)))).
    { unfold offsets. replace (Z.to_nat K2) with (Z.to_nat K1 + Z.to_nat (K2 - K1))%nat by lia. rewrite seq_app, map_app. f_equal.
      cbn [Nat.add]. clear - HK1. generalize (Z.to_nat (K2 - K1)). intros n.
      rewrite <- (Nat.add_0_r (Z.to_nat K1)). generalize O. induction n as [|n IH]; intros m; [reflexivity|].
      cbn [seq map]. f_equal; [lia|]. rewrite <- (IH (S m)). f_equal. f_equal. lia. }
    rewrite EO, filter_app in F2. apply Forall2_app_inv_l in F2 as (q1 & q2 & Fa & Fb & Eq). rewrite Eq.
    assert (Win : forall k, In k (offsets K1) -> ticks_in h2 (window_start ec k) (window_end ec k) = ticks_in h (window_start ec k) (window_end ec k)).
    { intros k Hk. unfold offsets in Hk. apply in_map_iff in Hk as (n & <- & Hn). apply in_seq in Hn.
      pose proof (proj2 (HKs1 (Z.of_nat n) ltac:(lia)) ltac:(lia)) as He. destruct (start_grows ec (Z.of_nat n) ltac:(lia)) as [G1 _].
      rewrite Hsame. unfold ticks_in.
      set (a := ec_start_timestamp_sec ec) in *. set (b := ec_end_timestamp_sec ec) in *.
      set (s := window_start ec _) in *. set (e := window_end ec _) in *. clearbody a b s e. clear - G1 He.
      induction h2 as [|t h IH]; [reflexivity|]. cbn [filter].
      destruct ((s <=? timestamp_sec t) && (timestamp_sec t <? e)) eqn:E1.
      + apply andb_true_iff in E1 as [E2 E3]. apply Z.leb_le in E2. apply Z.ltb_lt in E3.
        rewrite (proj2 (Z.leb_le a (timestamp_sec t))), (proj2 (Z.ltb_lt (timestamp_sec t) b)) by lia. cbn [andb filter].
        rewrite (proj2 (Z.leb_le s (timestamp_sec t))), (proj2 (Z.ltb_lt (timestamp_sec t) e)) by lia. cbn [andb]. f_equal. exact IH.
      + destruct ((a <=? timestamp_sec t) && (timestamp_sec t <? b)); [|exact IH]. cbn [filter]. rewrite E1. exact IH. }
    exists q2. split.
    - f_equal.
      assert (Run : forall k, In k (offsets K1) ->
        run_quietly cfg side2 (fast_eval ec) te (ticks_in h (window_start ec k) (window_end ec k)) =
        run_quietly cfg side (fast_eval ec) te (ticks_in h (window_start ec k) (window_end ec k))).
      { intros k Hk. unfold offsets in Hk. apply in_map_iff in Hk as (n & <- & Hn). apply in_seq in Hn.
        pose proof (proj2 (HKs1 (Z.of_nat n) ltac:(lia)) ltac:(lia)) as He. unfold run_quietly. f_equal. symmetry.
        apply (RunProps.C15_same_past cfg hist1 hist2 side side2 (fast_eval ec) te null_logger false
                 (ticks_in h (window_start ec (Z.of_nat n)) (window_end ec (Z.of_nat n))) tt (ec_end_timestamp_sec ec - 1) SM1 SM2 SK).
        - intros t Ht. unfold ticks_in in Ht at 1. apply filter_In in Ht as [_ Ht]. apply andb_true_iff in Ht as [_ Ht]. apply Z.ltb_lt in Ht. lia.
        - assert (Hof : ordered timestamp_sec (ticks_in h (window_start ec (Z.of_nat n)) (window_end ec (Z.of_nat n)))) by (apply ordered_filter; exact Ho).
          exact Hof. }
      clear - F1 Fa Win Run.
      assert (FE : forall ks, (forall k, In k ks -> ticks_in h2 (window_start ec k) (window_end ec k) = ticks_in h (window_start ec k) (window_end ec k)) ->
        filter (fun k => match ticks_in h2 (window_start ec k) (window_end ec k) with [] => false | _ => true end) ks =
        filter (fun k => match ticks_in h (window_start ec k) (window_end ec k) with [] => false | _ => true end) ks).
      { intros ks Hks. apply filter_ext_in. intros k Hk. rewrite (Hks k Hk). reflexivity. }
      rewrite (FE _ Win) in Fa. clear FE.
      assert (Sub : forall k, In k (filter (fun k => match ticks_in h (window_start ec k) (window_end ec k) with [] => false | _ => true end) (offsets K1)) ->
        ticks_in h2 (window_start ec k) (window_end ec k) = ticks_in h (window_start ec k) (window_end ec k) /\
        run_quietly cfg side2 (fast_eval ec) te (ticks_in h (window_start ec k) (window_end ec k)) =
        run_quietly cfg side (fast_eval ec) te (ticks_in h (window_start ec k) (window_end ec k))).
      { intros k Hk. apply filter_In in Hk as [Hk _]. auto. }
      clear Win Run. revert F1 Fa Sub. generalize (filter (fun k => match ticks_in h (window_start ec k) (window_end ec k) with [] => false | _ => true end) (offsets K1)).
      generalize (er_period r1). intros ps ks. revert ps q1.
      induction ks as [|k ks IH]; intros ps qs F1 F2 Sub; inversion F1 as [|? p0 ? ps0 P1 Q1]; inversion F2 as [|? p1 ? ps1 P2 Q2]; subst; [reflexivity|].
      f_equal.
      + destruct (Sub k (or_introl eq_refl)) as [Su1 Su2]. unfold period_reports in P2. rewrite Su1, Su2 in P2. destruct P1 as (A1 & A2 & A3 & A4 & A5), P2 as (B1 & B2 & B3 & B4 & B5).
        rewrite A3 in B3. injection B3 as B3. destruct p0, p1. cbn in *. congruence.
      + apply (IH _ _ Q1 Q2). intros j Hj. apply Sub. right. exact Hj.
    - assert (Sub : forall k, In k (filter (fun k => match ticks_in h2 (window_start ec k) (window_end ec k) with [] => false | _ => true end)
                       (map (fun i => K1 + Z.of_nat i) (seq 0 (Z.to_nat (K2 - K1))))) -> ec_end_timestamp_sec ec < window_end ec k <= end2).
      { intros k Hk. apply filter_In in Hk as [Hk _]. apply in_map_iff in Hk as (n & <- & Hn). apply in_seq in Hn.
        split; [|apply HKs2; lia]. destruct (Z_lt_ge_dec (ec_end_timestamp_sec ec) (window_end ec (K1 + Z.of_nat n))) as [|G]; [assumption|].
        pose proof (proj1 (HKs1 (K1 + Z.of_nat n) ltac:(lia)) ltac:(lia)). lia. }
      clear - Fb Sub. induction Fb as [|k p ks ps P Q IH]; constructor.
      + destruct P as (_ & -> & _). apply Sub. left. reflexivity.
      + apply IH. intros j Hj. apply Sub. right. exact Hj.
  Qed.
End Windows.

Local Transparent AddMonthsToTimestampSec.
Section Examples.
  Context (lm : libm) (as_ : bool).

  (** May alone; the same months to a later end with the ticks of August. *)
  Definition w_periods (start end_ months : Z) (fuel : nat) : outcome (list (Z * Z)) :=
    omap (fun x => map (fun p => (p_start_timestamp_sec p, p_end_timestamp_sec p)) (er_period (fst x)))
         (@EvaluateTrader (ieee lm as_) (@e_config lm as_)
            {| ec_start_timestamp_sec := start; ec_end_timestamp_sec := end_; evaluation_period_months := months; fast_eval := false |}
            (@e_history lm as_) None (@e_holder lm as_) null_logger false fuel tt).

End Examples.

Section ExampleProofs.
  Context (lm : libm) (as_ : bool).
  Local Notation w_periods := (@w_periods lm as_).

  Lemma C128_ex :
    w_periods 1493596800 1498867200 1 4 = Done [(1493596800, 1496275200); (1496275200, 1498867200)] /\
    w_periods 1493596800 1496275200 0 1 = Done [(1493596800, 1496275200)] /\
    w_periods 1493596800 1504224000 1 6 = Done [(1493596800, 1496275200); (1496275200, 1498867200); (1501545600, 1504224000)].
  Proof. clear; destruct as_; vm_compute; auto. Qed.
End ExampleProofs.

Print Assumptions C128_alone.
Print Assumptions C128_same_windows.
Print Assumptions C128_cut.
Print Assumptions C128_later_end.
Print Assumptions C128_ex.
