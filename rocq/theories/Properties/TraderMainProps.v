(** C71 - C75: broken inputs; the trader program from flags and files to its output. *)
From Coq Require Import ZArith Reals Lra String Ascii Bool Lia Permutation.
From Coq Require Import List.
From Flocq Require BinarySingleNaN.
From Verif.Model Require Import Outcome Machine Types Account History SideInput TimeUtil Eval
  Traders CsvLogger Proto Convert TimeText MachineIEEE Files Programs.
From Verif.Spec Require Import SeriesSpec HistorySpec ReaderSpec SideInputSpec RunSpec EvalSpec ProtoSpec ProgramSpec.
From Verif.Spec Require LogSpec.
From Verif.Proofs Require RunProofs OrderLaws.
From Verif.Proofs Require Import Base ProtoProofs ReaderProofs EvalProofs RunPairs ProgramProofs TraderMain.
From Verif.Properties Require Import ReaderProps HistoryProps SideInputProps ProtoProps EvalProps TimeTextProps LogProps ProgramProps.
Import ListNotations.
Local Open Scope Z_scope.

Section Trader.
  Context {lm : libm} {as_ : bool}.
  Local Notation I := (ieee lm as_).
  Implicit Types (env : environment) (f : trader_flags).

  (** ** C71 Broken input files *)

  (** A missing or damaged OHLC file: exit code, no output, no log file touched. *)
  Theorem C71_trader_ohlc env sort fuel sched f :
    broken env OhlcTickType (tf_input_ohlc f) ->
    @trader_main lm as_ env sort fuel sched f = Done (TraderResult EXIT_FAILURE None []).
  Proof.
    intros H. unfold trader_main. destruct (ParseTime (tf_start_time f)) as [s|]; [|reflexivity].
    destruct (ParseTime (tf_end_time f)) as [e|]; [|reflexivity].
    rewrite (read_history_broken env OhlcTickType _ _ _ s e H). reflexivity.
  Qed.

  Theorem C71_trader_side env sort fuel sched f start end_ (h : list (@ohlc_tick I)) :
    trader_times f start end_ -> 0 < start <= end_ -> tick_input env (tf_input_ohlc f) h ->
    tf_input_side f <> EmptyString -> broken env SideInputRecordType (tf_input_side f) ->
    @trader_main lm as_ env sort fuel sched f = Done (TraderResult EXIT_FAILURE None []).
  Proof.
    intros [T1 T2] Hp (b & Hb & (ms & Hv & ->) & Ho) Hne H. unfold trader_main. rewrite T1, T2.
    rewrite (read_history_file env OhlcTickType (@tick_of_msg lm as_) (@timestamp_sec I) _ b ms start end_ Hp Hb Hv Ho). cbn [bind].
    unfold nonempty. destruct (String.eqb_spec (tf_input_side f) ""); [contradiction|]. cbn [negb].
    rewrite (read_history_broken env SideInputRecordType _ _ _ start end_ H). reflexivity.
  Qed.

  (** A file cut off inside a record is broken. *)
  Theorem C71_truncated env file T ok (ms : list (msg T)) (k : nat) :
    history_type T ok -> Forall ok ms ->
    readable env file = Some (firstn k (WriteDelimitedMessages T ms)) ->
    (forall n, firstn k (WriteDelimitedMessages T ms) <> WriteDelimitedMessages T (firstn n ms)) ->
    broken env T file.
  Proof.
    intros HT Hok Hf Hk. unfold broken. rewrite Hf. intros ms' H.
    destruct (C61_truncated T ok ms k HT Hok) as (n & st & _ & R & _ & Hst). rewrite R in H. injection H as _ ->.
    apply (Hk n). apply Hst. reflexivity.
  Qed.

  (** convert: a missing file, and a damaged file in which no record at or after the end is
      met before the damage. *)
  Theorem C71_convert_missing env (sc : @scanner I) cf file :
    readable env file = None ->
    input_price_csv cf file \/ input_price_proto cf file \/ input_ohlc_csv cf file \/
    input_ohlc_proto cf file \/ input_side_csv cf file ->
    convert_main env sc cf = Done (ConvertResult EXIT_FAILURE [] []).
  Proof.
    intros Hf Hi. rewrite convert_main_cases.
    destruct (ParseTime (cf_start_time cf)) as [s|]; [|reflexivity].
    destruct (ParseTime (cf_end_time cf)) as [e|]; [|reflexivity]. cbv zeta.
    destruct Hi as [[N E]|[[N E]|[[N E]|[[N E]|[N E]]]]]; rewrite E;
      unfold is_price_input, is_ohlc_input, check_input_flags, read_price, read_ohlc;
      cbn [price_csv price_proto ohlc_csv ohlc_proto side_csv]; rewrite (nonempty_ne _ N);
      cbn [nonempty String.eqb negb orb andb plus Nat.ltb Nat.leb Nat.eqb];
      unfold ReadPriceHistoryFromCsvFile, ReadOhlcHistoryFromCsvFile, ReadSideHistoryFromCsvFile, read_lines,
        ReadPriceHistoryFromDelimitedProtoFile, ReadOhlcHistoryFromDelimitedProtoFile; rewrite ?Hf; try reflexivity.
    - rewrite (read_file_missing env PriceRecordType _ _ file s e Hf). reflexivity.
    - rewrite (read_file_missing env OhlcTickType _ _ file s e Hf). reflexivity.
  Qed.

  Theorem C71_convert_damaged_prices env (sc : @scanner I) cf file b ms st start end_ :
    input_price_proto cf file -> convert_times cf start end_ -> readable env file = Some b ->
    ReadDelimitedVector PriceRecordType b = Some (ms, st) -> st <> Ok ->
    end_ <= 0 \/ (forall m, In m ms -> get_int (pm_timestamp m) < end_) ->
    convert_main env sc cf = Done (ConvertResult EXIT_FAILURE [] []).
  Proof.
    intros [N E] [T1 T2] Hf Hv Hst Hend. rewrite convert_main_cases, T1, T2. cbv zeta. rewrite E.
    unfold is_price_input, is_ohlc_input, check_input_flags, read_price.
    cbn [price_csv price_proto ohlc_csv ohlc_proto side_csv]. rewrite (nonempty_ne _ N).
    cbn [nonempty String.eqb negb orb andb plus Nat.ltb Nat.leb Nat.eqb].
    unfold ReadPriceHistoryFromDelimitedProtoFile.
    rewrite (read_file_damaged env PriceRecordType _ _ file b ms st start end_ Hf Hv Hst); [reflexivity|].
    intros m Hm. unfold at_end. destruct Hend as [Hend|Hend].
    - rewrite (proj2 (Z.ltb_ge 0 end_)) by lia. rewrite andb_false_r. reflexivity.
    - specialize (Hend m Hm). cbn beta in *. change (get_int (pm_timestamp m) < end_) in Hend.
      rewrite (proj2 (Z.leb_gt end_ (get_int (pm_timestamp m)))) by lia. apply andb_false_r.
  Qed.

  Theorem C71_convert_damaged_ticks env (sc : @scanner I) cf file b ms st start end_ :
    input_ohlc_proto cf file -> convert_times cf start end_ -> readable env file = Some b ->
    ReadDelimitedVector OhlcTickType b = Some (ms, st) -> st <> Ok ->
    end_ <= 0 \/ (forall m, In m ms -> get_int (tm_timestamp m) < end_) ->
    convert_main env sc cf = Done (ConvertResult EXIT_FAILURE [] []).
  Proof.
    intros [N E] [T1 T2] Hf Hv Hst Hend. rewrite convert_main_cases, T1, T2. cbv zeta. rewrite E.
    unfold is_price_input, is_ohlc_input, check_input_flags, read_ohlc.
    cbn [price_csv price_proto ohlc_csv ohlc_proto side_csv]. rewrite (nonempty_ne _ N).
    cbn [nonempty String.eqb negb orb andb plus Nat.ltb Nat.leb Nat.eqb].
    unfold ReadOhlcHistoryFromDelimitedProtoFile.
    rewrite (read_file_damaged env OhlcTickType _ _ file b ms st start end_ Hf Hv Hst); [reflexivity|].
    intros m Hm. unfold at_end. destruct Hend as [Hend|Hend].
    - rewrite (proj2 (Z.ltb_ge 0 end_)) by lia. rewrite andb_false_r. reflexivity.
    - specialize (Hend m Hm). cbn beta in *. change (get_int (tm_timestamp m) < end_) in Hend.
      rewrite (proj2 (Z.leb_gt end_ (get_int (tm_timestamp m)))) by lia. apply andb_false_r.
  Qed.

  (** ** C72 Only the data of the period counts *)

  Theorem C72_period env1 env2 sort fuel sched f start end_ h1 h2 (side : option (list (@side_record I))) :
    trading_data env1 f start end_ h1 side -> trading_data env2 f start end_ h2 side ->
    of_period timestamp_sec start end_ h1 = of_period timestamp_sec start end_ h2 ->
    (forall file, writable env1 file = writable env2 file) ->
    @trader_main lm as_ env1 sort fuel sched f = @trader_main lm as_ env2 sort fuel sched f.
  Proof.
    intros D1 D2 E W.
    destruct (main_reads env1 sort fuel sched f start end_ h1 side D1) as (s1 & M1 & ->).
    destruct (main_reads env2 sort fuel sched f start end_ h2 side D2) as (s2 & M2 & ->).
    rewrite E.
    assert (s1 = s2) as ->.
    { destruct side as [hs|], s1 as [i1|], s2 as [i2|]; try contradiction; [|reflexivity].
      destruct M1 as [_ M1], M2 as [_ M2]. rewrite M1 in M2. injection M2 as ->. reflexivity. }
    unfold trading. assert (O : forall file, OpenLogFile env1 f file = OpenLogFile env2 f file).
    { intros file. unfold OpenLogFile. rewrite W. reflexivity. }
    rewrite !O. reflexivity.
  Qed.

  (** ** C73 One trader: the table and the log files *)

  Lemma open_log env f file x : OpenLogFile env f file = Some x -> x = None /\ file = EmptyString \/ x = Some EmptyString /\ file <> EmptyString.
  Proof.
    unfold OpenLogFile, nonempty. destruct (String.eqb_spec file ""); cbn [negb]; [intros H; injection H as <-; auto|].
    destruct (_ >? _); [discriminate|]. destruct (writable env file); [|discriminate]. intros H; injection H as <-. auto.
  Qed.

  Lemma opened_text env f file x text : OpenLogFile env f file = Some x ->
    opened file (option_map (fun s => (s ++ text)%string) x) = log_file file text.
  Proof.
    intros H. apply open_log in H as [[-> ->]|[-> N]]; [reflexivity|].
    unfold log_file. destruct (String.eqb_spec file ""); [contradiction|reflexivity].
  Qed.

  Lemma period_ordered start end_ (h : list (@ohlc_tick I)) : ordered timestamp_sec h -> ordered timestamp_sec (of_period timestamp_sec start end_ h).
  Proof. apply ordered_filter. Qed.

  Lemma period_twice {R} (ts : R -> Z) start end_ h : 0 < start <= end_ ->
    filter (fun t => in_interval start end_ (ts t)) (of_period ts start end_ h) = of_period ts start end_ h.
  Proof.
    intros H. rewrite period_interval by exact H. unfold of_period. induction h as [|x h IH]; [reflexivity|].
    cbn [filter]. destruct (_ && _) eqn:E; [|exact IH]. cbn [filter]. rewrite E, IH. reflexivity.
  Qed.

  (** No evaluation period: the whole period is evaluated once, the printed line and the log
      files are those of one run over the ticks of the period. *)
  Theorem C73_run env sort fuel sched f start end_ h side r first rest :
    @trading_data lm as_ env f start end_ h side -> tf_evaluate_batch f = false ->
    tf_evaluation_period_months f = 0 -> of_period timestamp_sec start end_ h = first :: rest ->
    @trader_main lm as_ env sort fuel sched f = Done r -> t_exit r = EXIT_SUCCESS ->
    exists te res row rows elines,
      GetTrader (tf_trader f) = Done te /\
      story (GetAccountConfig f) side te (first :: rest) rows /\
      result_of (GetAccountConfig f) first (List.last (first :: rest) first) rows res /\
      t_printed r = Some (Table (te_name te) [row]) /\ row_shows start end_ res row /\
      Forall2 line_columns (filter (is_exchange_line lm as_) (story_log rows)) elines /\
      t_logs r = log_file (tf_exchange_log f) (LogSpec.text elines)
                 ++ log_file (tf_trader_log f)
                      (LogSpec.text (map (te_show te) (flat_map (trader_states lm as_) (story_log rows)))).
  Proof.
    intros D Hb Hm Ht H He. pose proof D as [_ Hp (b & _ & _ & Ho) _].
    destruct (main_reads env sort fuel sched f start end_ h side D) as (si & Hs & E). rewrite E in H. clear E.
    unfold trading in H. rewrite Hb in H. apply bind_done in H as (te & Hte & H).
    destruct (OpenLogFile env f (tf_exchange_log f)) as [ex|] eqn:O1; [|injection H as <-; discriminate He].
    destruct (OpenLogFile env f (tf_trader_log f)) as [tr|] eqn:O2; [|injection H as <-; discriminate He].
    apply bind_done in H as ([er logs] & H & Hr). injection Hr as <-.
    apply once in H; [|apply period_ordered; exact Ho|exact Hm|cbn; lia|cbn [eval_config_of ec_start_timestamp_sec ec_end_timestamp_sec]; rewrite period_twice by exact Hp; rewrite Ht; discriminate].
    cbn [eval_config_of ec_start_timestamp_sec ec_end_timestamp_sec fast_eval] in H. rewrite period_twice in H by exact Hp.
    destruct H as (res & HX & HP). rewrite Ht in HX.
    assert (Ho' : time_ordered (first :: rest)) by (rewrite <- Ht; apply period_ordered; exact Ho).
    destruct (RunProofs.run_story (GetAccountConfig f) side si false te (@csv_logger I) true Hs (first :: rest) (ex, tr) res logs (or_intror Ho') HX)
      as [(N & _)|(f0 & r0 & rows & E0 & S0 & R & L)]; [discriminate|]. injection E0 as <- <-.
    destruct (csv_written lm as_ te (story_log rows) ex tr) as (el & F & _ & _ & W).
    exists te, res. eexists. exists rows, el. split; [exact Hte|]. split; [exact S0|]. split; [exact R|]. rewrite HP. cbn [map t_printed t_logs].
    split; [reflexivity|]. split; [apply row_of_period|]. split; [exact F|].
    rewrite L. change (RunProofs.logged (@csv_logger I) true (ex, tr) (te_show te) (story_log rows)) with (write_lines (@csv_logger I) (te_show te) (story_log rows) (ex, tr)).
    rewrite W. cbn [fst snd]. rewrite (opened_text _ _ _ _ _ O1), (opened_text _ _ _ _ _ O2). reflexivity.
  Qed.

  Lemma ticks_in_period start end_ (h : list (@ohlc_tick I)) ws we : start <= ws -> we <= end_ ->
    ticks_in (of_period timestamp_sec start end_ h) ws we = ticks_in h ws we.
  Proof.
    intros H1 H2. unfold ticks_in, of_period. induction h as [|x h IH]; [reflexivity|]. cbn [filter].
    destruct (Z.leb_spec start (timestamp_sec x)), (Z.ltb_spec (timestamp_sec x) end_),
      (Z.leb_spec ws (timestamp_sec x)), (Z.ltb_spec (timestamp_sec x) we); cbn [andb filter]; try lia; try exact IH;
      rewrite ?(proj2 (Z.leb_le ws (timestamp_sec x))), ?(proj2 (Z.ltb_lt (timestamp_sec x) we)),
        ?(proj2 (Z.leb_gt ws (timestamp_sec x))), ?(proj2 (Z.ltb_ge (timestamp_sec x) we)) by lia;
      cbn [andb]; rewrite ?IH; reflexivity.
  Qed.

  Lemma window_starts (ec : evaluation_config) k : 0 <= k -> ec_start_timestamp_sec ec <= window_start ec k.
  Proof.
    intros Hk. unfold window_start. destruct (Z.eq_dec k 0) as [->|N]; [rewrite TimeProps.C25_zero; lia|].
    pose proof (TimeProps.C25_strictly_increasing (ec_start_timestamp_sec ec) 0 k ltac:(lia)) as G. rewrite TimeProps.C25_zero in G. lia.
  Qed.

  Local Opaque AddMonthsToTimestampSec.

  (** A positive evaluation period: one line for every window of that many months, starting
      at successive months, that ends in the period and contains a tick; log files are
      refused. *)
  Theorem C73_windows env sort fuel sched f start end_ h side r :
    @trading_data lm as_ env f start end_ h side -> tf_evaluate_batch f = false ->
    0 < tf_evaluation_period_months f ->
    @trader_main lm as_ env sort fuel sched f = Done r -> t_exit r = EXIT_SUCCESS ->
    let ws k := AddMonthsToTimestampSec start k in
    let we k := AddMonthsToTimestampSec (ws k) (tf_evaluation_period_months f) in
    tf_exchange_log f = EmptyString /\ tf_trader_log f = EmptyString /\ t_logs r = [] /\
    exists te K lines,
      GetTrader (tf_trader f) = Done te /\ t_printed r = Some (Table (te_name te) lines) /\
      0 <= K /\ (forall k, 0 <= k -> (we k <= end_ <-> k < K)) /\
      Forall2 (fun k line => exists first rest rows (res : @execution_result I),
                 @ticks_in I h (ws k) (we k) = first :: rest /\
                 story (GetAccountConfig f) side te (first :: rest) rows /\
                 result_of (GetAccountConfig f) first (List.last (first :: rest) first) rows res /\
                 @row_shows lm as_ (ws k) (we k) res line)
              (filter (fun k => match ticks_in h (ws k) (we k) with [] => false | _ => true end) (offsets K)) lines.
  Proof.
    intros D Hb Hm H He ws we. pose proof D as [_ Hp (b & _ & _ & Ho) _].
    destruct (main_reads env sort fuel sched f start end_ h side D) as (si & Hs & E). rewrite E in H. clear E.
    unfold trading in H. rewrite Hb in H. apply bind_done in H as (te & Hte & H).
    assert (O : forall file x, OpenLogFile env f file = Some x -> file = EmptyString /\ x = None).
    { intros file x. unfold OpenLogFile, nonempty. destruct (String.eqb_spec file "") as [->|N]; cbn [negb]; [intros K; injection K as <-; auto|].
      rewrite Z.gtb_ltb, (proj2 (Z.ltb_lt 0 _) Hm). discriminate. }
    destruct (OpenLogFile env f (tf_exchange_log f)) as [ex|] eqn:O1; [|injection H as <-; discriminate He].
    destruct (OpenLogFile env f (tf_trader_log f)) as [tr|] eqn:O2; [|injection H as <-; discriminate He].
    apply O in O1 as [O1 ->]. apply O in O2 as [O2 ->]. split; [exact O1|]. split; [exact O2|].
    apply bind_done in H as ([er logs] & H & Hr). injection Hr as <-. cbn [t_logs t_printed].
    set (ec := eval_config_of f start end_ false) in *.
    pose proof (period_ordered start end_ h Ho) as Ho'.
    split.
    { destruct (C22_windows (GetAccountConfig f) ec (of_period timestamp_sec start end_ h) si te (@csv_logger I) true Ho' Hm ltac:(left; cbn; lia)) as (K & HK & _ & EW).
      assert (LN : forall fuel s x, snd s = (None, None) ->
         eval_loop (GetAccountConfig f) ec (of_period timestamp_sec start end_ h) si te (@csv_logger I) true fuel s = Done x -> snd x = (None, None)).
      { clear. intros fuel. induction fuel as [|fuel IH]; intros [[k ps] l] x El H; [discriminate|]. cbn [snd] in El. subst l.
        cbn [eval_loop] in H. apply bind_done in H as (y & Hy & H).
        assert (Ly : match y with inl s => snd s = (None, None) | inr x => snd x = (None, None) end).
        { unfold eval_step in Hy. destruct (eval_window ec k) as [w1 w2]. destruct (w2 >? _); [injection Hy as <-; reflexivity|].
          destruct (HistorySubset _ _ _ _) as [b0 e0]. destruct (b0 =? e0)%nat; [injection Hy as <-; reflexivity|].
          destruct (e0 <? b0)%nat; [discriminate|]. apply bind_done in Hy as ([res l1] & HX & Hy).
          assert (l1 = (None, None)).
          { eapply csv_silent. exact HX. }
          subst l1. apply bind_done in Hy as (u1 & _ & Hy). apply bind_done in Hy as (u2 & _ & Hy).
          destruct (_ =? 0); injection Hy as <-; reflexivity. }
        destruct y as [s'|x']; [eapply IH; eassumption|injection H as <-; exact Ly]. }
      unfold EvaluateTrader in H. apply bind_done in H as ([ps l1] & HL & H). apply bind_done in H as (r' & _ & H). injection H as _ <-.
      apply LN in HL; [|reflexivity]. cbn [snd] in HL. rewrite HL. rewrite O1, O2. reflexivity. }
    destruct (C22_periods (GetAccountConfig f) ec (of_period timestamp_sec start end_ h) si te (@csv_logger I) true fuel (None, None) er logs Ho' Hm ltac:(left; cbn; lia) H)
      as (K & HK & HKs & HF).
    exists te, K, (map table_row_of (er_period er)). split; [exact Hte|]. split; [reflexivity|]. split; [exact HK|]. split; [exact HKs|].
    assert (Hin : forall k, In k (offsets K) -> ticks_in (of_period timestamp_sec start end_ h) (ws k) (we k) = ticks_in h (ws k) (we k)).
    { intros k Hk. unfold offsets in Hk. apply in_map_iff in Hk as (i & <- & Hi). apply in_seq in Hi.
      apply ticks_in_period; [apply (window_starts ec); lia|]. apply HKs; lia. }
    clear H.
    rewrite (filter_ext_in _ (fun k => match ticks_in (of_period timestamp_sec start end_ h) (ws k) (we k) with [] => false | _ => true end))
      by (intros k Hk; rewrite (Hin k Hk); reflexivity).
    revert HF. clear He. generalize (er_period er). clear er.
    assert (HinF : forall k, In k (filter (fun k => match ticks_in (of_period timestamp_sec start end_ h) (ws k) (we k) with [] => false | _ => true end) (offsets K)) ->
      exists first rest, ticks_in (of_period timestamp_sec start end_ h) (ws k) (we k) = first :: rest /\ ticks_in h (ws k) (we k) = first :: rest).
    { intros k Hk. apply filter_In in Hk as [Hk Hk2]. rewrite <- (Hin k Hk). destruct (ticks_in _ (ws k) (we k)) as [|x q]; [discriminate|eauto]. }
    intros ps HF. revert HF HinF.
    change (window_start ec) with ws. change (window_end ec) with we.
    generalize (filter (fun k => match ticks_in (of_period timestamp_sec start end_ h) (ws k) (we k) with [] => false | _ => true end) (offsets K)).
    intros ks HF. induction HF as [|k p ks ps Hkp HF IH]; intros HinF; [constructor|]. cbn [map]. constructor.
    - destruct (HinF k (or_introl eq_refl)) as (first & rest & E1 & E2).
      destruct Hkp as (P1 & P2 & P3 & P4 & P5). change (window_start ec k) with (ws k) in *. change (window_end ec k) with (we k) in *.
      rewrite E1 in P3. unfold run_quietly in P3. apply omap_done in P3 as ([res l2] & HX & Eres). cbn in Eres.
      destruct (RunProps.C21_result _ side si _ te _ _ (first :: rest) _ _ _ Hs
        ltac:(right; rewrite <- E1; unfold ticks_in; apply ordered_filter; exact Ho') HX) as (rows & S0 & R0).
      exists first, rest, rows, res. split; [exact E2|]. split; [exact S0|]. split; [exact R0|].
      destruct p as [p1 p2 p3 p4 p5]. cbn in P1, P2, P4, P5, Eres. subst. apply row_of_period.
    - apply IH. intros k' Hk'. apply HinF. right. exact Hk'.
  Qed.

  Theorem C73_logs_refused env sort fuel sched f start end_ h side te :
    @trading_data lm as_ env f start end_ h side -> tf_evaluate_batch f = false ->
    0 < tf_evaluation_period_months f -> GetTrader (M := I) (tf_trader f) = Done te ->
    tf_exchange_log f <> EmptyString \/ tf_trader_log f <> EmptyString ->
    @trader_main lm as_ env sort fuel sched f = Done (TraderResult EXIT_FAILURE None []).
  Proof.
    intros D Hb Hm Ht Hl. destruct (main_reads env sort fuel sched f start end_ h side D) as (si & _ & ->).
    unfold trading. rewrite Hb, Ht. cbn [bind].
    assert (O : forall file, OpenLogFile env f file = if String.eqb file "" then Some None else None).
    { intros file. unfold OpenLogFile, nonempty. destruct (String.eqb file ""); cbn [negb]; [reflexivity|].
      rewrite Z.gtb_ltb, (proj2 (Z.ltb_lt 0 _) Hm). reflexivity. }
    rewrite !O. destruct (String.eqb_spec (tf_exchange_log f) "") as [E1|E1]; [|reflexivity].
    destruct (String.eqb_spec (tf_trader_log f) "") as [E2|E2]; [exfalso; destruct Hl; contradiction|]. rewrite E1. reflexivity.
  Qed.

  (** ** C74 The batch ranking *)

  Lemma best_first_split (a b : list (@evaluation_result I)) : best_first (a ++ b) ->
    best_first a /\ forall x y, In x a -> In y b -> better y x = false.
  Proof.
    intros H. split.
    - intros i j x y Hx Hy Hij. apply (H i j); auto; rewrite nth_error_app1; auto; apply nth_error_Some; congruence.
    - intros x y Hx Hy. apply In_nth_error in Hx as [i Hi]. apply In_nth_error in Hy as [j Hj].
      assert (i < List.length a)%nat by (apply nth_error_Some; congruence).
      apply (H i (List.length a + j)%nat); [rewrite nth_error_app1 by lia; exact Hi| |lia].
      rewrite nth_error_app2 by lia. replace (List.length a + j - List.length a)%nat with j by lia. exact Hj.
  Qed.

  Theorem C74_ranking env sort fuel sched f start end_ h side r :
    sorts sort -> @trading_data lm as_ env f start end_ h side -> tf_evaluate_batch f = true ->
    @trader_main lm as_ env sort fuel sched f = Done r ->
    let ec := {| ec_start_timestamp_sec := start; ec_end_timestamp_sec := end_;
                 evaluation_period_months := tf_evaluation_period_months f; fast_eval := true |} in
    exists si emitters results rows,
      side_matches side si /\ GetBatchOfTraders (tf_trader f) = Done emitters /\
      Forall2 (fun te res => exists n, evaluate_alone (GetAccountConfig f) ec (of_period timestamp_sec start end_ h) si n te = Done res)
              emitters results /\
      ranks results rows /\ r = TraderResult EXIT_SUCCESS (Some (Ranking rows)) [].
  Proof.
    intros Hsort D Hb H ec. destruct (main_reads env sort fuel sched f start end_ h side D) as (si & Hs & E). rewrite E in H. clear E.
    unfold trading in H. rewrite Hb in H. apply bind_done in H as (ems & He & H). apply bind_done in H as (rs & HR & H).
    apply bind_done in H as (srt & HS & H). injection H as <-.
    exists si, ems, rs, (PrintBatchEvalResults srt). split; [exact Hs|]. split; [exact He|]. split.
    - apply C27_any_schedule in HR. clear - HR. induction HR as [|te res ems rs (n & Hn)]; constructor; [exists n; apply Hn; lia|assumption].
    - split; [|reflexivity]. unfold std_sort in HS.
      destruct (2 <=? List.length rs)%nat eqn:E2; cbn [andb] in HS.
      + destruct (existsb _ rs) eqn:EN; [discriminate|]. injection HS as <-.
        destruct (Hsort rs) as [P B].
        { right. intros x Hx. destruct (feqb (er_score x) (er_score x)) eqn:Ex; [reflexivity|].
          assert (existsb (fun r => negb (feqb (machine := I) (er_score r) (er_score r))) rs = true); [|congruence].
          apply existsb_exists. exists x. split; [exact Hx|]. rewrite Ex. reflexivity. }
        exists (firstn 20 (sort rs)), (skipn 20 (sort rs)). rewrite firstn_skipn. split; [exact P|].
        split; [rewrite firstn_length, (Permutation_length P); reflexivity|]. split; [reflexivity|].
        apply best_first_split. rewrite firstn_skipn. exact B.
      + injection HS as <-. apply Nat.leb_gt in E2. destruct (Hsort rs) as [P B]; [left; lia|].
        exists (firstn 20 (sort rs)), (skipn 20 (sort rs)). rewrite firstn_skipn. split; [exact P|].
        split; [rewrite firstn_length, (Permutation_length P); reflexivity|]. split; [reflexivity|].
        apply best_first_split. rewrite firstn_skipn. exact B.
  Qed.

  (** A NaN among two or more scores: the comparison of scores is not a strict weak order, so
      sorting has undefined behaviour and nothing is promised about the ranking. *)
  Theorem C74_nan_undefined env sort fuel sched f start end_ h side :
    @trading_data lm as_ env f start end_ h side -> tf_evaluate_batch f = true ->
    let ec := {| ec_start_timestamp_sec := start; ec_end_timestamp_sec := end_;
                 evaluation_period_months := tf_evaluation_period_months f; fast_eval := true |} in
    exists si, side_matches side si /\
      forall emitters results, GetBatchOfTraders (tf_trader f) = Done emitters ->
        EvaluateBatchOfTraders (GetAccountConfig f) ec (of_period timestamp_sec start end_ h) si emitters sched = Done results ->
        (2 <= List.length results)%nat -> (exists r, In r results /\ BinarySingleNaN.is_nan (er_score r : f32) = true) ->
        @trader_main lm as_ env sort fuel sched f = Undefined.
  Proof.
    intros D Hb ec. destruct (main_reads env sort fuel sched f start end_ h side D) as (si & Hs & E).
    exists si. split; [exact Hs|]. intros ems rs He HR HL (r & Hr & Hn). rewrite E. unfold trading. rewrite Hb, He. cbn [bind].
    change (eval_config_of f start end_ true) with ec. rewrite HR. cbn [bind]. unfold std_sort.
    rewrite (proj2 (Nat.leb_le 2 _) HL). cbn [andb].
    replace (existsb _ rs) with true; [reflexivity|]. symmetry. apply existsb_exists. exists r. split; [exact Hr|].
    change (@flt I) with f32 in *. destruct (er_score r : f32); try discriminate Hn. reflexivity.
  Qed.

  (** The result does not depend on how the tasks are interleaved. *)
  Theorem C74_schedule env sort fuel1 fuel2 sched1 sched2 f r1 r2 :
    tf_evaluate_batch f = true ->
    @trader_main lm as_ env sort fuel1 sched1 f = Done r1 -> @trader_main lm as_ env sort fuel2 sched2 f = Done r2 -> r1 = r2.
  Proof.
    intros Hb H1 H2. unfold trader_main in H1, H2. rewrite Hb in H1, H2.
    destruct (ParseTime (tf_start_time f)) as [s|]; [|congruence]. destruct (ParseTime (tf_end_time f)) as [e|]; [|congruence].
    apply bind_done in H1 as (o1 & HO & H1). rewrite HO in H2. cbn [bind] in H2. destruct o1 as [ticks|]; [|congruence].
    apply bind_done in H1 as (s1 & HS & H1). rewrite HS in H2. cbn [bind] in H2. destruct s1 as [si|]; [|congruence].
    apply bind_done in H1 as (ems & He & H1). rewrite He in H2. cbn [bind] in H2.
    apply bind_done in H1 as (rs1 & R1 & H1). apply bind_done in H2 as (rs2 & R2 & H2).
    assert (rs1 = rs2) as ->.
    { apply C27_any_schedule in R1, R2. clear - R1 R2. revert rs2 R2. induction R1 as [|te x ems rs (n1 & H1) F IH]; intros rs2 R2; inversion R2; subst; [reflexivity|].
      match goal with K : exists n, _ |- _ => destruct K as (n2 & H2) end. f_equal; [|apply IH; assumption].
      specialize (H1 (n1 + n2)%nat ltac:(lia)). specialize (H2 (n1 + n2)%nat ltac:(lia)). congruence. }
    congruence.
  Qed.
End Trader.

(** ** Examples: a file of four ticks and a side file, the period holds three of them. *)

Definition tm_libm : libm := Libm (fun x => x) (fun x => x) (fun x _ => x).
Local Notation EM := (ieee tm_libm true).
Definition tm_tick (t c : Z) : @ohlc_tick EM :=
  @OhlcTick EM t (f32_of_Z c) (f32_of_Z (c + 1)) (f32_of_Z (c - 1)) (f32_of_Z c) (f32_of_Z 9).
Definition tm_ticks : list (@ohlc_tick EM) := [tm_tick 1 90; tm_tick 2 100; tm_tick 302 110; tm_tick 602 105].
Definition tm_side : list (@side_record EM) :=
  [@SideRecord EM 2 [f32_of_Z 5]; @SideRecord EM 400 [f32_of_Z 7]].
Definition tm_env : environment :=
  Environment (fun name => if String.eqb name "t.bin" then Some (tick_file tm_ticks)
                           else if String.eqb name "s.bin" then Some (side_file tm_side)
                           else if String.eqb name "cut.bin" then Some (firstn 20 (tick_file tm_ticks)) else None)
              (fun _ => true).
Definition tm_flags (ohlc elog : string) (batch : bool) : trader_flags :=
  TraderFlags ohlc "s.bin" elog "" "stop" "1970-01-01 00:00:02" "1970-01-01 00:12:00" 0
              (f64_of_Z 1) (f64_of_Z 0) (f64_of_Z 1) (f64_of_Z 1) batch.

Fixpoint tm_insert (x : @evaluation_result EM) (l : list (@evaluation_result EM)) : list (@evaluation_result EM) :=
  match l with
  | [] => [x]
  | y :: l' => if better y x then y :: tm_insert x l' else x :: l
  end.
Definition tm_sort (l : list (@evaluation_result EM)) : list (@evaluation_result EM) := fold_right tm_insert [] l.

Lemma C71_trading_data elog batch :
  trading_data tm_env (tm_flags "t.bin" elog batch) 2 720 tm_ticks (Some tm_side).
Proof.
  assert (G : good_side_history tm_side).
  { split.
    - discriminate.
    - intros r [<-|[<-|[]]]; reflexivity.
    - intros i j r r' H1 H2 L. destruct i as [|[|[|?]]], j as [|[|[|?]]]; cbn in H1, H2; try lia; try discriminate;
        injection H1 as <-; injection H2 as <-; reflexivity.
    - intros r r' [<-|[<-|[]]] [<-|[<-|[]]]; reflexivity.
    - reflexivity. }
  split.
  - split; vm_compute; reflexivity.
  - lia.
  - eexists. split; [reflexivity|]. split.
    + exists (map msg_of_tick tm_ticks). split; [apply tick_file_read; repeat constructor; cbn; lia|].
      symmetry. apply ticks_of_msgs.
    + intros i j r r' H1 H2 L. destruct i as [|[|[|[|[|?]]]]], j as [|[|[|[|[|?]]]]]; cbn in H1, H2; try lia; try discriminate;
        injection H1 as <-; injection H2 as <-; cbn; lia.
  - apply (with_side tm_env "s.bin" 2 720 tm_side); [discriminate| |exact G].
    eexists. split; [reflexivity|]. split.
    + exists (map msg_of_side tm_side). split; [apply side_file_read; repeat constructor; cbn; lia|].
      symmetry. apply sides_of_msgs.
    + intros i j r r' H1 H2 L. destruct i as [|[|[|?]]], j as [|[|[|?]]]; cbn in H1, H2; try lia; try discriminate;
        injection H1 as <-; injection H2 as <-; cbn; lia.
Qed.

Lemma C71_ex : broken tm_env OhlcTickType "cut.bin" /\ broken tm_env OhlcTickType "none.bin".
Proof. split; [|exact Logic.I]. unfold broken. cbn [readable tm_env]. intros ms. vm_compute. discriminate. Qed.

Lemma tm_insert_perm x l : Permutation (x :: l) (tm_insert x l).
Proof.
  induction l as [|y l IH]; [apply Permutation_refl|]. cbn [tm_insert]. destruct (better y x); [|apply Permutation_refl].
  eapply perm_trans; [apply perm_swap|]. apply perm_skip, IH.
Qed.

Definition tm_number (x : @evaluation_result EM) : Prop := feqb (machine := EM) (er_score x) (er_score x) = true.

Lemma number_num (x : @flt EM) : feqb (machine := EM) x x = true -> OrderLaws.num (OrderLaws.ieee_order tm_libm true) x = true.
Proof. destruct x; [reflexivity|reflexivity|discriminate|reflexivity]. Qed.

Lemma better_num x y : tm_number x -> tm_number y ->
  better x y = true <-> (OrderLaws.val (OrderLaws.ieee_order tm_libm true) (er_score y) < OrderLaws.val (OrderLaws.ieee_order tm_libm true) (er_score x))%R.
Proof.
  intros Hx Hy. unfold better. apply OrderLaws.ltb_spec; apply number_num; [exact Hy|exact Hx].
Qed.

Lemma best_first_cons x (l : list (@evaluation_result EM)) :
  best_first (x :: l) <-> (forall y, In y l -> better y x = false) /\ best_first l.
Proof.
  split.
  - intros H. split.
    + intros y Hy. apply In_nth_error in Hy as [j Hj]. apply (H O (S j)); [reflexivity|exact Hj|lia].
    + intros i j a b Ha Hb L. apply (H (S i) (S j)); [exact Ha|exact Hb|lia].
  - intros [H1 H2] i j a b Ha Hb L. destruct j as [|j]; [lia|]. cbn [nth_error] in Hb. destruct i as [|i].
    + injection Ha as <-. apply H1. eapply nth_error_In. exact Hb.
    + apply (H2 i j); [exact Ha|exact Hb|lia].
Qed.

Lemma tm_insert_best x l : tm_number x -> (forall y, In y l -> tm_number y) -> best_first l -> best_first (tm_insert x l).
Proof.
  intros Nx. induction l as [|y l IH]; intros Nl H.
  - apply best_first_cons. split; [intros y []|]. intros i j a b Ha. destruct i; discriminate.
  - assert (Ny : tm_number y) by (apply Nl; left; reflexivity).
    assert (Nl' : forall z, In z l -> tm_number z) by (intros z Hz; apply Nl; right; exact Hz).
    apply best_first_cons in H as H'. destruct H' as [H1 H2]. cbn [tm_insert]. destruct (better y x) eqn:E.
    + apply best_first_cons. split; [|apply IH; assumption]. intros z Hz.
      apply (Permutation_in _ (Permutation_sym (tm_insert_perm x l))) in Hz as [<-|Hz]; [|apply H1, Hz].
      destruct (better x y) eqn:E2; [|reflexivity]. apply better_num in E; try assumption. apply better_num in E2; try assumption. lra.
    + apply best_first_cons. split; [|exact H]. intros z [<-|Hz]; [exact E|]. specialize (H1 z Hz). specialize (Nl' z Hz).
      destruct (better z x) eqn:E2; [|reflexivity]. apply better_num in E2; try assumption.
      exfalso. apply (Bool.eq_true_false_abs _ (proj2 (better_num z y Nl' Ny) ltac:(
        destruct (Rlt_le_dec (OrderLaws.val (OrderLaws.ieee_order tm_libm true) (er_score y))
                             (OrderLaws.val (OrderLaws.ieee_order tm_libm true) (er_score z))) as [R|R]; [exact R|exfalso];
        apply (Bool.eq_true_false_abs _ (proj2 (better_num y x Ny Nx) ltac:(lra)) E))) H1).
Qed.

Lemma tm_sorts : sorts tm_sort.
Proof.
  assert (P : forall l, Permutation l (tm_sort l)).
  { induction l as [|x l IH]; [constructor|]. change (tm_sort (x :: l)) with (tm_insert x (tm_sort l)).
    eapply perm_trans; [apply perm_skip, IH|]. apply tm_insert_perm. }
  intros l H. split; [apply P|]. destruct H as [H|H].
  - destruct l as [|x [|y l]]; [| |cbn in H; lia]; intros i j a b Ha Hb L; cbn in Ha, Hb;
      repeat (destruct i as [|i], j as [|j]; cbn in Ha, Hb; try lia; try discriminate).
    destruct j; discriminate.
  - induction l as [|x l IH]; [intros [|i] j a b Ha; discriminate|].
    change (tm_sort (x :: l)) with (tm_insert x (tm_sort l)). apply tm_insert_best.
    + apply H. left. reflexivity.
    + intros y Hy. apply H. right. eapply Permutation_in; [apply Permutation_sym, P|exact Hy].
    + apply IH. intros y Hy. apply H. right. exact Hy.
Qed.

Lemma C73_ex : exists r, trader_main tm_env tm_sort 5 [] (tm_flags "t.bin" "e.csv" false) = Done r /\
  t_exit r = EXIT_SUCCESS /\ map fst (t_logs r) = ["e.csv"]%string.
Proof.
  assert (H : match trader_main tm_env tm_sort 5 [] (tm_flags "t.bin" "e.csv" false) with
              | Done r => (t_exit r, map fst (t_logs r)) = (EXIT_SUCCESS, ["e.csv"]%string)
              | _ => False
              end) by (vm_compute; reflexivity).
  destruct (trader_main tm_env tm_sort 5 [] (tm_flags "t.bin" "e.csv" false)) as [r| | | |]; try contradiction.
  exists r. split; [reflexivity|]. injection H as H1 H2. split; assumption.
Qed.

Definition tm_schedule : list nat := flat_map (fun i => repeat i 5) (seq 0 144).
Lemma C74_ex : exists rows, trader_main tm_env tm_sort 5 tm_schedule (tm_flags "t.bin" "" true)
  = Done (TraderResult EXIT_SUCCESS (Some (Ranking rows)) []) /\ List.length rows = 20%nat.
Proof.
  assert (H : match trader_main tm_env tm_sort 5 tm_schedule (tm_flags "t.bin" "" true) with
              | Done (TraderResult EXIT_SUCCESS (Some (Ranking rows)) []) => List.length rows = 20%nat
              | _ => False
              end) by (vm_compute; reflexivity).
  destruct (trader_main tm_env tm_sort 5 tm_schedule (tm_flags "t.bin" "" true)) as [[x [[rows|]|] l]| | | |]; try (destruct x; contradiction); try contradiction.
  destruct x; [|contradiction]. destruct l; [|contradiction]. exists rows. split; [reflexivity|exact H].
Qed.
