(** C129: the table of the trader program grows, and its lines stand for themselves. *)
From Coq Require Import ZArith Reals String Ascii Bool Lia.
From Coq Require Import List.
From Verif.Model Require Import Outcome Machine Types Account History SideInput TimeUtil Eval
  Traders CsvLogger Proto Convert TimeText MachineIEEE Files Programs.
From Verif.Spec Require Import SeriesSpec HistorySpec ReaderSpec SideInputSpec RunSpec EvalSpec ProtoSpec ProgramSpec WindowSpec TableSpec.
From Verif.Proofs Require Import Base ProtoProofs ReaderProofs EvalProofs RunPairs ProgramProofs TraderMain.
From Verif.Properties Require Import EvalProps TimeTextProps ProgramProps TraderMainProps WindowProps.
Import ListNotations.
Local Open Scope Z_scope.
Local Opaque AddMonthsToTimestampSec.

Section Table.
  Context {lm : libm} {as_ : bool}.
  Local Notation I := (ieee lm as_).
  Implicit Types (env : environment) (f : trader_flags).

  (** What a successful run of one trader over months is. *)
  Lemma months_run env sort fuel sched f start end_ h side r :
    @trading_data lm as_ env f start end_ h side -> tf_evaluate_batch f = false ->
    0 < tf_evaluation_period_months f ->
    @trader_main lm as_ env sort fuel sched f = Done r -> t_exit r = EXIT_SUCCESS ->
    exists si te er logs, side_matches side si /\ GetTrader (tf_trader f) = Done te /\
      tf_exchange_log f = EmptyString /\ tf_trader_log f = EmptyString /\
      EvaluateTrader (GetAccountConfig f) (eval_config_of f start end_ false) (of_period timestamp_sec start end_ h) si te
        (@csv_logger I) true fuel (None, None) = Done (er, logs) /\
      t_printed r = Some (Table (te_name te) (map table_row_of (er_period er))).
  Proof.
    intros D Hb Hm H He. destruct (main_reads env sort fuel sched f start end_ h side D) as (si & Hs & E). rewrite E in H. clear E.
    unfold trading in H. rewrite Hb in H. apply bind_done in H as (te & Hte & H).
    assert (O : forall file x, OpenLogFile env f file = Some x -> file = EmptyString /\ x = None).
    { intros file x. unfold OpenLogFile, nonempty. destruct (String.eqb_spec file "") as [->|N]; cbn [negb]; [intros K; injection K as <-; auto|].
      rewrite Z.gtb_ltb, (proj2 (Z.ltb_lt 0 _) Hm). discriminate. }
    destruct (OpenLogFile env f (tf_exchange_log f)) as [ex|] eqn:O1; [|injection H as <-; discriminate He].
    destruct (OpenLogFile env f (tf_trader_log f)) as [tr|] eqn:O2; [|injection H as <-; discriminate He].
    apply O in O1 as [O1 ->]. apply O in O2 as [O2 ->].
    apply bind_done in H as ([er logs] & H & Hr). injection Hr as <-.
    exists si, te, er, logs. split; [exact Hs|]. split; [exact Hte|]. split; [exact O1|]. split; [exact O2|]. split; [exact H|]. reflexivity.
  Qed.

  (** Without log files nothing is logged. *)
  Lemma evaluation_silent cfg ec h side (te : @trader_emitter I) hl fuel r l :
    EvaluateTrader cfg ec h side te (@csv_logger I) hl fuel (None, None) = Done (r, l) -> l = (None, None).
  Proof.
    assert (LN : forall fuel s x, snd s = (None, None) ->
       eval_loop cfg ec h side te (@csv_logger I) hl fuel s = Done x -> snd x = (None, None)).
    { clear. intros fuel. induction fuel as [|fuel IH]; intros [[k ps] l] x El H; [discriminate|]. cbn [snd] in El. subst l.
      cbn [eval_loop] in H. apply bind_done in H as (y & Hy & H).
      assert (Ly : match y with inl s => snd s = (None, None) | inr x => snd x = (None, None) end).
      { unfold eval_step in Hy. destruct (eval_window ec k) as [w1 w2]. destruct (w2 >? _); [injection Hy as <-; reflexivity|].
        destruct (HistorySubset _ _ _ _) as [b0 e0]. destruct (b0 =? e0)%nat; [injection Hy as <-; reflexivity|].
        destruct (e0 <? b0)%nat; [discriminate|]. apply bind_done in Hy as ([res l1] & HX & Hy).
        assert (l1 = (None, None)).
        { eapply csv_silent. exact HX. }
        subst l1. apply bind_done in Hy as (u1 & _ & Hy). apply bind_done in Hy as (u2 & _ & Hy).
        destruct (_ =? 0); injection Hy as <-; reflexivity. }
      destruct y as [s'|x']; [eapply IH; eassumption|injection H as <-; exact Ly]. }
    intros H. unfold EvaluateTrader in H. apply bind_done in H as ([ps l1] & HL & H). apply bind_done in H as (r' & _ & H). injection H as _ <-.
    apply LN in HL; [|reflexivity]. exact HL.
  Qed.

  (** ** More candles, more side input and a later end time: the lines printed before are printed again,
      unchanged and first; then come only lines of periods that end after the former end. *)
  Theorem C129_grows env1 env2 sort1 sort2 fuel1 fuel2 sched1 sched2 f ohlc2 side2 end_time2 start end1 end2 h1 h2 records1 records2 r1 r2 :
    let f2 := ask_until f ohlc2 side2 end_time2 in
    @trading_data lm as_ env1 f start end1 h1 records1 -> @trading_data lm as_ env2 f2 start end2 h2 records2 ->
    same_knowledge records1 records2 (end1 - 1) ->
    end1 <= end2 -> of_period timestamp_sec start end1 h1 = of_period timestamp_sec start end1 h2 ->
    tf_evaluate_batch f = false -> 0 < tf_evaluation_period_months f ->
    @trader_main lm as_ env1 sort1 fuel1 sched1 f = Done r1 -> t_exit r1 = EXIT_SUCCESS ->
    @trader_main lm as_ env2 sort2 fuel2 sched2 f2 = Done r2 -> t_exit r2 = EXIT_SUCCESS ->
    exists name lines more,
      t_printed r1 = Some (Table name lines) /\
      t_printed r2 = Some (Table name (lines ++ more)) /\
      Forall (fun line => exists e, ParseTime (row_end line) = Some e /\ end1 < e <= end2) more.
  Proof.
    intros f2 D1 D2 SK Hend Hsame Hb Hm M1 X1 M2 X2.
    destruct (months_run env1 sort1 fuel1 sched1 f start end1 h1 records1 r1 D1 Hb Hm M1 X1) as (s1 & te1 & er1 & l1 & S1 & T1 & _ & _ & E1 & P1).
    destruct (months_run env2 sort2 fuel2 sched2 f2 start end2 h2 records2 r2 D2 Hb Hm M2 X2) as (s2 & te2 & er2 & l2 & S2 & T2 & _ & _ & E2 & P2).
    change (tf_trader f2) with (tf_trader f) in T2. rewrite T1 in T2. injection T2 as <-.
    change (@GetAccountConfig lm as_ f2) with (@GetAccountConfig lm as_ f) in E2.
    destruct D1 as [_ Hp1 (b1 & _ & _ & Ho1) _], D2 as [_ Hp2 (b2 & _ & _ & Ho2) _].
    assert (W : forall (h : list (@ohlc_tick I)) e, end1 <= e ->
      ticks_in (of_period timestamp_sec start e h) start end1 = of_period timestamp_sec start end1 h).
    { intros h e He. rewrite ticks_in_period by lia. reflexivity. }
    destruct (C128_later_end (@GetAccountConfig lm as_ f) (eval_config_of f start end1 false) s1 te1 records1 records2 s2
      (of_period timestamp_sec start end1 h1) (of_period timestamp_sec start end2 h2)
      (@csv_logger I) true fuel1 (None, None) er1 l1 (@csv_logger I) true fuel2 (None, None) er2 l2 end2
      (period_ordered _ _ _ Ho1) (period_ordered _ _ _ Ho2) Hm) as (more & Em & Fm).
    - left. cbn. lia.
    - left. cbn. lia.
    - exact Hend.
    - exact S1.
    - exact S2.
    - exact SK.
    - cbn [eval_config_of ec_start_timestamp_sec ec_end_timestamp_sec]. rewrite !W by lia. exact Hsame.
    - exact E1.
    - exact E2.
    - exists (te_name te1), (map table_row_of (er_period er1)), (map table_row_of more).
      split; [exact P1|]. rewrite P2, Em, map_app. split; [reflexivity|].
      clear - Fm. apply Forall_map. eapply Forall_impl; [|exact Fm]. intros p Hp.
      exists (p_end_timestamp_sec p). split; [apply C68_round_trip|]. exact Hp.
  Qed.

  (** ** A line alone: asking about the period of one line as a whole, with the times as
      printed in the line, prints exactly this line (without side input, which the program
      cuts to the asked period).  The program can only abort instead, and only where the
      score of the line is negative or not a number. *)
  Theorem C129_alone env sort fuel sched f start end_ h r name lines line sort2 fuel2 sched2 :
    @trading_data lm as_ env f start end_ h None ->
    tf_evaluate_batch f = false -> 0 < tf_evaluation_period_months f ->
    @trader_main lm as_ env sort fuel sched f = Done r -> t_exit r = EXIT_SUCCESS ->
    t_printed r = Some (Table name lines) -> In line lines -> (0 < fuel2)%nat ->
    let again := @trader_main lm as_ env sort2 fuel2 sched2 (ask_line f line) in
    again = Done (TraderResult EXIT_SUCCESS (Some (Table name [line])) []) \/
    (again = AssertFail /\
     @dleb I (@dofZ I 0) (@dmul I (@dofZ I 1) (@f2d I (row_score line))) = false).
  Proof.
    intros D Hb Hm M1 X1 P1 Hin Hf again.
    destruct (months_run env sort fuel sched f start end_ h None r D Hb Hm M1 X1) as (si & te & er & l & S & T & L1 & L2 & E & P).
    rewrite P in P1. injection P1 as <- <-. apply in_map_iff in Hin as (p & <- & Hin).
    destruct si as [si|]; [contradiction|].
    pose proof D as [[Ts _] Hp (b & Hbytes & Hticks & Ho) Hside].
    set (ec := eval_config_of f start end_ false) in *.
    assert (Hclean : forall q : list (@ohlc_tick I), clean_start ec q) by (intros q; left; cbn; lia).
    destruct (C22_periods (@GetAccountConfig lm as_ f) ec (of_period timestamp_sec start end_ h) None te (@csv_logger I) true fuel (None, None) er l
                (period_ordered _ _ _ Ho) Hm (Hclean _) E) as (K & HK & HKs & F).
    assert (R : start <= p_start_timestamp_sec p /\ p_start_timestamp_sec p < p_end_timestamp_sec p /\ p_end_timestamp_sec p <= end_).
    { assert (Q : exists k, 0 <= k < K /\ p_start_timestamp_sec p = window_start ec k /\ p_end_timestamp_sec p = window_end ec k).
      { clear - F Hin. revert F. assert (Sub : forall k, In k (filter (fun k => match ticks_in (of_period timestamp_sec start end_ h) (window_start ec k) (window_end ec k) with [] => false | _ => true end) (offsets K)) -> 0 <= k < K).
        { intros k Hk. apply filter_In in Hk as [Hk _]. apply in_map_iff in Hk as (n & <- & Hn). apply in_seq in Hn. lia. }
        revert Sub. generalize (filter (fun k => match ticks_in (of_period timestamp_sec start end_ h) (window_start ec k) (window_end ec k) with [] => false | _ => true end) (offsets K)).
        intros ks Sub F. revert Hin. induction F as [|k q ks qs Hq F IH]; intros Hin; [contradiction|].
        destruct Hin as [->|Hin]; [|apply IH; [intros j Hj; apply Sub; right; exact Hj|exact Hin]].
        exists k. destruct Hq as (A & B & _). split; [apply Sub; left; reflexivity|]. split; assumption. }
      destruct Q as (k & Hk & -> & ->). destruct (start_grows ec k ltac:(lia)) as [G _].
      split; [exact G|]. split; [apply start_before_end; exact Hm|]. apply (HKs k); lia. }
    destruct R as (R1 & R2 & R3).
    assert (D0 : @trading_data lm as_ env (ask_line f (table_row_of p)) (p_start_timestamp_sec p) (p_end_timestamp_sec p) h None).
    { split.
      - split; apply C68_round_trip.
      - lia.
      - exists b. split; [exact Hbytes|]. split; assumption.
      - inversion Hside. apply no_side. assumption. }
    destruct (main_reads env sort2 fuel2 sched2 _ _ _ _ _ D0) as (si0 & S0 & E0).
    destruct si0 as [si0|]; [contradiction|].
    destruct (C128_alone (@GetAccountConfig lm as_ f) ec None te (of_period timestamp_sec start end_ h)
      (of_period timestamp_sec (p_start_timestamp_sec p) (p_end_timestamp_sec p) h)
      (@csv_logger I) true fuel (None, None) er l p (@csv_logger I) true fuel2 (None, None)
      (period_ordered _ _ _ Ho) (period_ordered _ _ _ Ho) Hm (Hclean _) (Hclean _) E Hin) as [(r2 & l2 & A & B)|[A B]].
    - rewrite !ticks_in_period by lia. reflexivity.
    - exact Hf.
    - left. unfold again. rewrite E0. unfold trading.
      change (tf_evaluate_batch (ask_line f (table_row_of p))) with (tf_evaluate_batch f). rewrite Hb.
      change (tf_trader (ask_line f (table_row_of p))) with (tf_trader f).
      etransitivity; [apply (f_equal (fun x => bind x _)); exact T|]. cbn [bind].
      change (tf_exchange_log (ask_line f (table_row_of p))) with (tf_exchange_log f).
      change (tf_trader_log (ask_line f (table_row_of p))) with (tf_trader_log f).
      rewrite L1, L2. change (OpenLogFile env (ask_line f (table_row_of p)) EmptyString) with (Some (@None string)). cbv iota.
      etransitivity; [apply (f_equal (fun x => bind x _)); exact A|]. cbn [bind]. rewrite B.
      apply evaluation_silent in A. rewrite A. reflexivity.
    - right. split; [|exact B]. unfold again. rewrite E0. unfold trading.
      change (tf_evaluate_batch (ask_line f (table_row_of p))) with (tf_evaluate_batch f). rewrite Hb.
      change (tf_trader (ask_line f (table_row_of p))) with (tf_trader f).
      etransitivity; [apply (f_equal (fun x => bind x _)); exact T|]. cbn [bind].
      change (tf_exchange_log (ask_line f (table_row_of p))) with (tf_exchange_log f).
      change (tf_trader_log (ask_line f (table_row_of p))) with (tf_trader_log f).
      rewrite L1, L2. change (OpenLogFile env (ask_line f (table_row_of p)) EmptyString) with (Some (@None string)). cbv iota.
      etransitivity; [apply (f_equal (fun x => bind x _)); exact A|]. reflexivity.
  Qed.
End Table.

(** ** Example: two candle files, the second with a tick of February 20th more. *)
Local Transparent AddMonthsToTimestampSec.
Local Notation EM := (ieee tm_libm true).
Definition tb_ticks1 : list (@ohlc_tick EM) := [tm_tick 777600 90; tm_tick 2678400 100].
Definition tb_ticks2 : list (@ohlc_tick EM) := tb_ticks1 ++ [tm_tick 4320000 110].
Definition tb_env : environment :=
  Environment (fun name => if String.eqb name "t1.bin" then Some (tick_file tb_ticks1)
                           else if String.eqb name "t2.bin" then Some (tick_file tb_ticks2) else None)
              (fun _ => true).
Definition tb_flags : trader_flags :=
  TraderFlags "t1.bin" "" "" "" "stop" "1970-01-02" "1970-02-02" 1
              (f64_of_Z 1) (f64_of_Z 0) (f64_of_Z 1) (f64_of_Z 1) false.
Definition tb_lines (f : trader_flags) : option (list (string * string)) :=
  match trader_main tb_env tm_sort 5 [] f with
  | Done {| t_exit := EXIT_SUCCESS; t_printed := Some (Table _ rows) |} =>
    Some (map (fun r => (row_start r, row_end r)) rows)
  | _ => None
  end.

Lemma C129_ex :
  trading_data tb_env tb_flags 86400 2764800 tb_ticks1 None /\
  trading_data tb_env (ask_until tb_flags "t2.bin" "" "1970-03-10") 86400 5875200 tb_ticks2 None /\
  of_period timestamp_sec 86400 2764800 tb_ticks1 = of_period timestamp_sec 86400 2764800 tb_ticks2 /\
  tb_lines tb_flags = Some [("1970-01-02 00:00:00", "1970-02-02 00:00:00")]%string /\
  tb_lines (ask_until tb_flags "t2.bin" "" "1970-03-10")
    = Some [("1970-01-02 00:00:00", "1970-02-02 00:00:00"); ("1970-02-02 00:00:00", "1970-03-02 00:00:00")]%string.
Proof.
  assert (O : forall n, ordered timestamp_sec (firstn n tb_ticks2)).
  { intros n i j r r' H1 H2 L. unfold tb_ticks2, tb_ticks1 in *. cbn [app] in *.
    destruct n as [|[|[|n]]], i as [|[|[|i]]], j as [|[|[|j]]]; cbn in H1, H2; try lia; try discriminate;
      try (rewrite ?firstn_nil in *; destruct i; discriminate); try (rewrite ?firstn_nil in *; destruct j; discriminate);
      injection H1 as <-; injection H2 as <-; cbn; lia. }
  split; [|split; [|split; [reflexivity|split; vm_compute; reflexivity]]].
  - split; [split; vm_compute; reflexivity|lia| |apply no_side; reflexivity].
    eexists. split; [reflexivity|]. split; [|exact (O 2%nat)].
    exists (map msg_of_tick tb_ticks1). split; [apply tick_file_read; repeat constructor; cbn; lia|].
    symmetry. apply ticks_of_msgs.
  - split; [split; vm_compute; reflexivity|lia| |apply no_side; reflexivity].
    eexists. split; [reflexivity|]. split; [|exact (O 3%nat)].
    exists (map msg_of_tick tb_ticks2). split; [apply tick_file_read; repeat constructor; cbn; lia|].
    symmetry. apply ticks_of_msgs.
Qed.

Print Assumptions C129_grows.
Print Assumptions C129_alone.
Print Assumptions C129_ex.
