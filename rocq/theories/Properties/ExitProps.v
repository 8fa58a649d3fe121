(** C109: the exit code of convert. *)
From Coq Require Import ZArith Reals String Bool Lia Lra.
From Coq Require Import List.
From Verif.Model Require Import Outcome Machine Types History Convert Proto MachineIEEE TimeText Files Programs Scan.
From Verif.Spec Require Import SeriesSpec HistorySpec ReaderSpec SideInputSpec ProtoSpec ProgramSpec ConsoleMainSpec CsvTextSpec ExitSpec.
From Verif.Proofs Require Import Base ReaderProofs OrderLaws ConvertProofs ProgramProofs.
From Verif.Properties Require LogProps.
From Verif.Properties Require Import ReaderProps ProgramProps CsvTextProps.
Import ListNotations.
Local Open Scope Z_scope.

Lemma rows_in_range_map {A B} (g : A -> B) (ts : B -> Z) start end_ (l : list A) :
  rows_in_range ts start end_ (map g l) = map g (rows_in_range (fun a => ts (g a)) start end_ l).
Proof.
  unfold rows_in_range.
  assert (E : until (at_end ts start end_) (map g l) = map g (until (at_end (fun a => ts (g a)) start end_) l)).
  { induction l as [|a l IH]; [reflexivity|]. cbn [map until]. unfold at_end, too_early in *.
    match goal with |- (if ?b then _ else _) = _ => destruct b end; [reflexivity|]. cbn [map]. rewrite IH. reflexivity. }
  rewrite E. generalize (until (at_end (fun a => ts (g a)) start end_) l). clear. intros l.
  induction l as [|a l IH]; [reflexivity|]. cbn [map filter]. unfold too_early in *.
  match goal with |- (if ?b then _ else _) = _ => destruct b end; cbn [map]; rewrite IH; reflexivity.
Qed.

Section Exit.
  Context {lm : libm} {as_ : bool} (env : environment) (sc : @scanner (ieee lm as_)).
  Local Notation I := (ieee lm as_).

  (** C67 for the program: without an input file, or with more than one, convert fails and does nothing. *)
  Theorem C67_refused f : List.length (LogProps.input_files (cf_input f)) <> 1%nat ->
    convert_main env sc f = Done (ConvertResult EXIT_FAILURE [] []).
  Proof.
    intros H. unfold convert_main.
    destruct (ParseTime (cf_start_time f)) as [start|]; [|reflexivity]. destruct (ParseTime (cf_end_time f)) as [end_|]; [|reflexivity].
    destruct (check_input_flags (cf_input f)) eqn:E; [|reflexivity]. apply LogProps.C67_one_input in E. contradiction.
  Qed.

  Lemma write_iff T (h : list (msg T)) file files :
    write_history env T h file files = None <-> h <> [] /\ ~ can_write env file.
  Proof.
    unfold write_history, can_write. destruct h as [|m h]; [split; [discriminate|intros [H _]; contradiction]|].
    unfold nonempty. destruct (String.eqb_spec file ""); cbn [negb].
    - split; [discriminate|]. intros [_ H]. exfalso. apply H. left. assumption.
    - destruct (writable env file) eqn:W.
      + split; [discriminate|]. intros [_ H]. exfalso. apply H. right. reflexivity.
      + split; [|reflexivity]. intros _. split; [discriminate|]. intros [H|H]; [contradiction|discriminate].
  Qed.
  Lemma can_write_dec file : can_write env file \/ ~ can_write env file.
  Proof.
    unfold can_write. destruct (String.eqb_spec file ""); [left; left; assumption|].
    destruct (writable env file); [left; right; reflexivity|right; intros [H|H]; [contradiction|discriminate]].
  Qed.

  Lemma finish_iff f price ohlc side gaps :
    c_exit (finish env f price ohlc side gaps) = EXIT_SUCCESS <->
    (price = [] \/ can_write env (cf_output_price f)) /\ (ohlc = [] \/ can_write env (cf_output_ohlc f))
    /\ (side = [] \/ can_write env (cf_output_side f)).
  Proof.
    assert (K : forall T (h : list (msg T)) file files, write_history env T h file files <> None -> h = [] \/ can_write env file).
    { intros T h file files H. destruct h as [|m h]; [left; reflexivity|right].
      destruct (can_write_dec file) as [D|D]; [exact D|]. exfalso. apply H, write_iff. split; [discriminate|exact D]. }
    assert (K' : forall T (h : list (msg T)) file files, h = [] \/ can_write env file -> write_history env T h file files <> None).
    { intros T h file files [H|H] E; apply write_iff in E as [E1 E2]; contradiction. }
    unfold finish. split.
    - destruct (write_history env PriceRecordType price (cf_output_price f) []) as [f1|] eqn:E1; [|discriminate].
      destruct (write_history env OhlcTickType ohlc (cf_output_ohlc f) f1) as [f2|] eqn:E2; [|discriminate].
      destruct (write_history env SideInputRecordType side (cf_output_side f) f2) as [f3|] eqn:E3; [|discriminate].
      intros _. split; [apply (K PriceRecordType price _ []); rewrite E1; discriminate|].
      split; [apply (K OhlcTickType ohlc _ f1); rewrite E2; discriminate|apply (K SideInputRecordType side _ f2); rewrite E3; discriminate].
    - intros (H1 & H2 & H3).
      destruct (write_history env PriceRecordType price (cf_output_price f) []) as [f1|] eqn:E1; [|destruct (K' PriceRecordType _ _ _ H1 E1)].
      destruct (write_history env OhlcTickType ohlc (cf_output_ohlc f) f1) as [f2|] eqn:E2; [|destruct (K' OhlcTickType _ _ _ H2 E2)].
      destruct (write_history env SideInputRecordType side (cf_output_side f) f2) as [f3|] eqn:E3; [|destruct (K' SideInputRecordType _ _ _ H3 E3)].
      reflexivity.
  Qed.

  (** The sampled history is empty only if the prices are. *)
  Lemma to_ohlc_done f (h : list price_msg) :
    valid_history pr_timestamp_sec price_ok (map (@price_of_msg lm as_) h) ->
    0 < cf_sampling_rate_sec f ->
    (forall r, In r (map (@price_of_msg lm as_) h) -> cf_sampling_rate_sec f <= pr_timestamp_sec r) ->
    Z.of_nat (List.length h) < 2 ^ 63 ->
    exists o, to_ohlc (lm := lm) (as_ := as_) f h = Done o
      /\ (o = [] \/ can_write env (cf_output_ohlc f) <-> h = [] \/ can_write env (cf_output_ohlc f)).
  Proof.
    intros Hv Hr Hrt Hlen.
    destruct (convert_accepted (ieee_order lm as_) _ Hr (d2f (machine := I) (cf_max_price_deviation_per_min f))
                (cf_last_n_outliers f) _ Hv Hrt ltac:(rewrite map_length; exact Hlen)) as (ohlc & H1 & _ & mask & Hm & E).
    unfold to_ohlc. destruct h as [|m h]; [exists []; split; [reflexivity|tauto]|].
    unfold nonempty. destruct (String.eqb_spec (cf_output_ohlc f) "") as [En|En]; cbn [negb].
    - exists []. split; [reflexivity|]. unfold can_write. rewrite En. tauto.
    - exists (map msg_of_tick ohlc). split; [unfold omap; rewrite H1; reflexivity|].
      assert (N : map (@msg_of_tick lm as_) ohlc <> []).
      { intros E0. apply map_eq_nil in E0.
        assert (Hs : select mask (map (@price_of_msg lm as_) (m :: h)) <> []).
        { eapply first_selected; [discriminate| |exact Hm]. intros r Hin. apply Hv, Hin. }
        rewrite E0 in E. unfold series in E. destruct (select mask _) as [|r q]; [contradiction|]. discriminate E. }
      split; (intros [H|H]; [|right; exact H]); [contradiction|discriminate].
  Qed.

  Lemma price_exit f start end_ rows res :
    convert_times f start end_ ->
    check_input_flags (cf_input f) = true -> is_price_input (cf_input f) = true ->
    read_price env sc (cf_input f) start end_ = Done res ->
    (forall h, res = Some h -> map (@price_of_msg lm as_) h = rows_in_range pr_timestamp_sec start end_ rows
                 /\ valid_history pr_timestamp_sec price_ok (rows_in_range (@pr_timestamp_sec I) start end_ rows)) ->
    (res = None -> ~ valid_history pr_timestamp_sec price_ok (rows_in_range (@pr_timestamp_sec I) start end_ rows)) ->
    can_sample f (used start end_ (Prices rows)) ->
    exists r, convert_main env sc f = Done r /\
      (c_exit r = EXIT_SUCCESS <-> valid (used start end_ (Prices rows))
         /\ forall o, In o (outputs f (used start end_ (Prices rows))) -> can_write env o).
  Proof.
    intros [T1 T2] Hc Hi HR HS HN (S1 & S2 & S3). rewrite convert_main_cases, T1, T2. cbv zeta. rewrite Hc, Hi, HR. cbn [bind].
    unfold used in *. cbn [valid outputs] in *. set (h := rows_in_range pr_timestamp_sec start end_ rows) in *.
    destruct res as [p|].
    - destruct (HS p eq_refl) as [E V]. clear HS HN.
      destruct (to_ohlc_done f p) as (o & -> & Ho); [rewrite E; exact V|exact S1|rewrite E; exact S2|rewrite <- (map_length (@price_of_msg lm as_)), E; exact S3|].
      cbn [bind]. eexists. split; [reflexivity|]. rewrite finish_iff, Ho.
      destruct p as [|m p]; cbn [map] in E.
      + rewrite <- E. split; [intros _; split; [rewrite E; exact V|intros o' []]|auto].
      + destruct h as [|r h']; [discriminate E|]. split.
        * intros ([H1|H1] & [H2|H2] & _); try discriminate. split; [exact V|]. intros o' [<-|[<-|[]]]; assumption.
        * intros (_ & H). split; [right; apply H; left; reflexivity|]. split; [right; apply H; right; left; reflexivity|left; reflexivity].
    - eexists. split; [reflexivity|]. split; [discriminate|]. intros (V & _). destruct (HN eq_refl V).
  Qed.

  Lemma ohlc_exit f start end_ rows res :
    convert_times f start end_ ->
    check_input_flags (cf_input f) = true -> is_price_input (cf_input f) = false -> is_ohlc_input (cf_input f) = true ->
    read_ohlc env sc (cf_input f) start end_ = Done res ->
    (forall h, res = Some h -> map (@tick_of_msg lm as_) h = rows_in_range timestamp_sec start end_ rows
                 /\ valid_history timestamp_sec ohlc_ok (rows_in_range (@timestamp_sec I) start end_ rows)) ->
    (res = None -> ~ valid_history timestamp_sec ohlc_ok (rows_in_range (@timestamp_sec I) start end_ rows)) ->
    exists r, convert_main env sc f = Done r /\
      (c_exit r = EXIT_SUCCESS <-> valid (used start end_ (Ticks rows))
         /\ forall o, In o (outputs f (used start end_ (Ticks rows))) -> can_write env o).
  Proof.
    intros [T1 T2] Hc Hi Hi' HR HS HN. rewrite convert_main_cases, T1, T2. cbv zeta. rewrite Hc, Hi, Hi', HR. cbn [bind].
    unfold used in *. cbn [valid outputs] in *. set (h := rows_in_range timestamp_sec start end_ rows) in *.
    destruct res as [p|].
    - destruct (HS p eq_refl) as [E V]. clear HS HN.
      eexists. split; [reflexivity|]. rewrite finish_iff.
      destruct p as [|m p]; cbn [map] in E.
      + rewrite <- E. split; [intros _; split; [rewrite E; exact V|intros o' []]|auto].
      + destruct h as [|r h']; [discriminate E|]. split.
        * intros (_ & [H2|H2] & _); try discriminate. split; [exact V|]. intros o' [<-|[]]; assumption.
        * intros (_ & H). split; [left; reflexivity|]. split; [right; apply H; left; reflexivity|left; reflexivity].
    - eexists. split; [reflexivity|]. split; [discriminate|]. intros (V & _). destruct (HN eq_refl V).
  Qed.

  Lemma one_flag i file : file <> EmptyString ->
    (i = InputFlags file "" "" "" "" \/ i = InputFlags "" file "" "" "" -> check_input_flags i = true /\ is_price_input i = true) /\
    (i = InputFlags "" "" file "" "" \/ i = InputFlags "" "" "" file "" ->
       check_input_flags i = true /\ is_price_input i = false /\ is_ohlc_input i = true) /\
    (i = InputFlags "" "" "" "" file -> check_input_flags i = true /\ is_price_input i = false /\ is_ohlc_input i = false).
  Proof.
    intros N. unfold check_input_flags, is_price_input, is_ohlc_input.
    split; [|split]; [intros [-> | ->]|intros [-> | ->]|intros ->]; cbn [price_csv price_proto ohlc_csv ohlc_proto side_csv];
      rewrite (nonempty_ne _ N); auto.
  Qed.

  (** With parsed times and a readable input, convert exits with success exactly if the
      records it uses are valid and the files it has to write can be opened. *)
  Theorem C109_exit f start end_ (h : @history lm as_) :
    reads_numbers sc -> consuming sc -> convert_times f start end_ -> input_says env f h ->
    can_sample f (used start end_ h) ->
    exists r, convert_main env sc f = Done r /\
      (c_exit r = EXIT_SUCCESS <->
       valid (used start end_ h) /\ forall o, In o (outputs f (used start end_ h)) -> can_write env o).
  Proof.
    intros Hsc Hc Ht Hi Hs. destruct Hi as [file lines rows [N E] Hf Hl H|file b rows [N E] Hf H|file lines rows [N E] Hf Hl H|file b rows [N E] Hf H|file lines rows [N E] Hf Hl H];
      destruct (one_flag (cf_input f) file N) as (F1 & F2 & F3).
    - destruct F1 as [C1 C2]; [left; exact E|].
      eapply price_exit; eauto.
      + rewrite E. unfold read_price. cbn [price_csv]. rewrite (nonempty_ne _ N). unfold ReadPriceHistoryFromCsvFile.
        rewrite (C70_lines env file lines Hl Hf). reflexivity.
      + intros p Hp. destruct (ReadPriceHistoryFromCsv sc lines start end_) as [q|] eqn:R; [|discriminate Hp].
        injection Hp as <-. apply (C104_price sc Hsc lines rows start end_ q H) in R as [-> V]. rewrite prices_of_msgs. auto.
      + intros Hp V. destruct (ReadPriceHistoryFromCsv sc lines start end_) as [q|] eqn:R; [discriminate Hp|].
        assert (K := proj2 (C104_price sc Hsc lines rows start end_ _ H) (conj eq_refl V)). congruence.
    - destruct F1 as [C1 C2]; [right; exact E|]. destruct H as (ms & Hv & ->).
      assert (SP : forall hm, ReadHistoryFromMessages (fun m => get_int (pm_timestamp m))
        (fun m => @valid_price_volume I (get_float (pm_price m)) (get_float (pm_volume m))) ms start end_ = Some hm <->
        hm = rows_in_range (fun m => get_int (pm_timestamp m)) start end_ ms
        /\ valid_history (fun m => get_int (pm_timestamp m)) (fun m => price_ok (@price_of_msg lm as_ m)) hm).
      { intros hm. apply read_history_spec. intros m. apply (@price_valid_iff I (price_of_msg m)). }
      eapply price_exit; eauto.
      + rewrite E. unfold read_price. cbn [price_csv price_proto nonempty String.eqb negb].
        unfold ReadPriceHistoryFromDelimitedProtoFile. apply (read_file_intact env PriceRecordType _ _ file b ms start end_ Hf Hv).
      + intros p Hp. apply SP in Hp as [-> V]. rewrite rows_in_range_map. split; [reflexivity|]. apply valid_map_iff. exact V.
      + intros Hp V. rewrite rows_in_range_map in V. apply (proj1 (valid_map_iff _ _ _ _)) in V.
        pose proof (eq_trans (eq_sym Hp) (proj2 (SP _) (conj eq_refl V))) as K. discriminate K.
    - destruct F2 as (C1 & C2 & C3); [left; exact E|].
      eapply ohlc_exit; eauto.
      + rewrite E. unfold read_ohlc. cbn [ohlc_csv]. rewrite (nonempty_ne _ N). unfold ReadOhlcHistoryFromCsvFile.
        rewrite (C70_lines env file lines Hl Hf). reflexivity.
      + intros p Hp. destruct (ReadOhlcHistoryFromCsv sc lines start end_) as [q|] eqn:R; [|discriminate Hp].
        injection Hp as <-. apply (C104_ohlc sc Hsc lines rows start end_ q H) in R as [-> V]. rewrite ticks_of_msgs. auto.
      + intros Hp V. destruct (ReadOhlcHistoryFromCsv sc lines start end_) as [q|] eqn:R; [discriminate Hp|].
        assert (K := proj2 (C104_ohlc sc Hsc lines rows start end_ _ H) (conj eq_refl V)). congruence.
    - destruct F2 as (C1 & C2 & C3); [right; exact E|]. destruct H as (ms & Hv & ->).
      assert (SP : forall hm, ReadHistoryFromMessages (fun m => get_int (tm_timestamp m))
        (fun m => @valid_ohlc I (get_float (tm_open m)) (get_float (tm_high m)) (get_float (tm_low m))
                            (get_float (tm_close m)) (get_float (tm_volume m))) ms start end_ = Some hm <->
        hm = rows_in_range (fun m => get_int (tm_timestamp m)) start end_ ms
        /\ valid_history (fun m => get_int (tm_timestamp m)) (fun m => ohlc_ok (@tick_of_msg lm as_ m)) hm).
      { intros hm. apply read_history_spec. intros m. apply (@ohlc_valid_iff I (tick_of_msg m)). }
      eapply ohlc_exit; eauto.
      + rewrite E. unfold read_ohlc. cbn [ohlc_csv ohlc_proto nonempty String.eqb negb].
        unfold ReadOhlcHistoryFromDelimitedProtoFile. apply (read_file_intact env OhlcTickType _ _ file b ms start end_ Hf Hv).
      + intros p Hp. apply SP in Hp as [-> V]. rewrite rows_in_range_map. split; [reflexivity|]. apply valid_map_iff. exact V.
      + intros Hp V. rewrite rows_in_range_map in V. apply (proj1 (valid_map_iff _ _ _ _)) in V.
        pose proof (eq_trans (eq_sym Hp) (proj2 (SP _) (conj eq_refl V))) as K. discriminate K.
    - destruct F3 as (C1 & C2 & C3); [exact E|]. destruct Ht as [T1 T2].
      rewrite convert_main_cases, T1, T2. cbv zeta. rewrite C1, C2, C3. rewrite E. cbn [side_csv].
      unfold ReadSideHistoryFromCsvFile. rewrite (C70_lines env file lines Hl Hf).
      unfold used. cbn [valid outputs].
      destruct (ReadSideHistoryFromCsv sc lines start end_) as [q|] eqn:R; cbn [option_map].
      + eexists. split; [reflexivity|]. rewrite finish_iff. apply (C104_side sc Hsc lines rows start end_ q Hc H) in R as [-> V].
        set (l := rows_in_range sr_timestamp_sec start end_ rows) in *. destruct l as [|r l]; cbn [map].
        * split; [intros _; split; [exact V|intros o []]|auto].
        * split.
          -- intros (_ & _ & [K|K]); [discriminate|]. split; [exact V|]. intros o [<-|[]]. exact K.
          -- intros (_ & K). split; [left; reflexivity|]. split; [left; reflexivity|]. right. apply K. left. reflexivity.
      + eexists. split; [reflexivity|]. split; [discriminate|]. intros (V & _).
        assert (K := proj2 (C104_side sc Hsc lines rows start end_ _ Hc H) (conj eq_refl V)). congruence.
  Qed.

  (** Without parsed times, or with no or several input files, or with an input file that
      cannot be read, it fails and writes nothing. *)
  Theorem C109_refused f :
    ParseTime (cf_start_time f) = None \/ ParseTime (cf_end_time f) = None
    \/ List.length (inputs (cf_input f)) <> 1%nat
    \/ (exists file, In file (inputs (cf_input f)) /\ readable env file = None) ->
    convert_main env sc f = Done (ConvertResult EXIT_FAILURE [] []).
  Proof.
    intros H. rewrite convert_main_cases.
    destruct (ParseTime (cf_start_time f)) as [start|]; [|reflexivity].
    destruct (ParseTime (cf_end_time f)) as [end_|]; [|reflexivity]. cbv zeta.
    destruct H as [H|[H|H]]; try discriminate.
    unfold check_input_flags, is_price_input, is_ohlc_input, read_price, read_ohlc,
      ReadPriceHistoryFromCsvFile, ReadOhlcHistoryFromCsvFile, ReadSideHistoryFromCsvFile, read_lines,
      ReadPriceHistoryFromDelimitedProtoFile, ReadOhlcHistoryFromDelimitedProtoFile.
    destruct (cf_input f) as [a b c d e]. unfold inputs, given in H. cbn [price_csv price_proto ohlc_csv ohlc_proto side_csv filter] in *.
    unfold nonempty.
    destruct (String.eqb_spec a ""), (String.eqb_spec b ""), (String.eqb_spec c ""), (String.eqb_spec d ""), (String.eqb_spec e "");
      cbn [negb orb andb List.length app Nat.add Nat.ltb Nat.leb Nat.eqb In] in *; try reflexivity;
      (destruct H as [H|(file & [<-|[]] & Hf)]; [congruence|]); rewrite ?Hf; try reflexivity.
    - rewrite (read_file_missing env OhlcTickType _ _ _ start end_ Hf). reflexivity.
    - rewrite (read_file_missing env PriceRecordType _ _ _ start end_ Hf). reflexivity.
  Qed.
End Exit.

(** ** The hypotheses are met: the file of C108_ex; and with an output that cannot be opened
    the same run fails. *)
From Verif.Spec Require Import CsvTradeSpec.
From Verif.Properties Require Import TraderMainProps PipelineProps CsvTradeProps.
Local Notation EM := (ieee tm_libm true).
Definition cx_env (open : bool) : environment := Environment (fun _ => Some (text_file ct_lines)) (fun _ => open).

Lemma tradable_ok (r : @price_record EM) : PipelineSpec.tradable r -> price_ok r.
Proof.
  intros [[F1 V1] [F2 V2]]. destruct (FloatLemmas.ofZ_finite 0 ltac:(lia)) as [F0 V0].
  assert (P0 : (0 < Raux.bpow Zaux.radix2 (-19))%R) by apply Raux.bpow_gt_0.
  split; cbn [fleb fltb fofZ ieee]; change (@flt EM) with f32 in *.
  - rewrite FloatLemmas.Bleb_ext by (apply FloatLemmas.finite_num; assumption).
    rewrite !FloatLemmas.ext_finite, V0 by assumption. apply Raux.Rle_bool_false. lra.
  - rewrite FloatLemmas.Bltb_ext by (apply FloatLemmas.finite_num; assumption).
    rewrite !FloatLemmas.ext_finite, V0 by assumption. apply Raux.Rlt_bool_false. lra.
Qed.

Lemma C109_ex open : exists rows : list (@price_record EM),
  map pr_timestamp_sec rows = [2; 4] /\ input_says (cx_env open) pl_convert (Prices rows) /\
  can_sample pl_convert (used 2 9 (Prices rows)) /\ valid (used 2 9 (Prices rows)).
Proof.
  destruct C108_ex as [F L].
  destruct (market_rows _ _ _ _ (market_price_row tm_libm true) ct_lines _ F) as (rows & H1 & H2 & H3 & H4).
  exists rows. split; [exact H2|]. split; [|split].
  - apply (price_csv_says _ _ "in.csv" ct_lines rows); [split; [discriminate|reflexivity]|reflexivity|exact L|exact H1].
  - unfold can_sample, used. split; [reflexivity|]. split.
    + intros r Hr. apply C63_in_interval in Hr as [Hr _]. apply (in_map pr_timestamp_sec) in Hr. rewrite H2 in Hr.
      change (cf_sampling_rate_sec pl_convert) with 1. destruct Hr as [Hr|[Hr|[]]]; rewrite <- Hr; lia.
    + apply Z.le_lt_trans with (Z.of_nat (List.length rows)).
      * apply Nat2Z.inj_le. apply rows_length.
      * rewrite <- (map_length pr_timestamp_sec), H2. reflexivity.
  - assert (O : ordered pr_timestamp_sec rows).
    { intros i j x y Hx Hy L'. apply (map_nth_error pr_timestamp_sec) in Hx, Hy. rewrite H2 in Hx, Hy.
      destruct i as [|[|i]], j as [|[|j]]; cbn [nth_error] in Hx, Hy; try lia; try (destruct i; discriminate Hx); try (destruct j; discriminate Hy);
        injection Hx as <-; injection Hy as <-; lia. }
    unfold valid, used. rewrite C63_interval by exact O. split; [apply EvalProofs.ordered_filter; exact O|].
    intros r Hr. apply filter_In in Hr as [Hr _]. rewrite Forall_forall in H4. specialize (H4 r Hr).
    split.
    + apply (in_map pr_timestamp_sec) in Hr. rewrite H2 in Hr. destruct Hr as [Hr|[Hr|[]]]; rewrite <- Hr; lia.
    + apply tradable_ok. exact H4.
Qed.
Lemma C109_run : exists r1 r2,
  convert_main (cx_env true) (decimal_scanner tm_libm true) pl_convert = Done r1 /\ c_exit r1 = EXIT_SUCCESS /\
  convert_main (cx_env false) (decimal_scanner tm_libm true) pl_convert = Done r2 /\ c_exit r2 = EXIT_FAILURE.
Proof.
  destruct (C109_ex true) as (rows & _ & S & C & V).
  destruct (C109_ex false) as (rows' & T' & S' & C' & V').
  assert (W : convert_times pl_convert 2 9) by (split; vm_compute; reflexivity).
  destruct (C109_exit (cx_env true) (decimal_scanner tm_libm true) pl_convert 2 9 _ (ScanProofs.decimal_scanner_reads _ _) (decimal_scanner_consuming _ _) W S C) as (r1 & E1 & I1).
  destruct (C109_exit (cx_env false) (decimal_scanner tm_libm true) pl_convert 2 9 _ (ScanProofs.decimal_scanner_reads _ _) (decimal_scanner_consuming _ _) W S' C') as (r2 & E2 & I2).
  exists r1, r2. split; [exact E1|]. split; [apply I1; split; [exact V|intros o _; right; reflexivity]|]. split; [exact E2|].
  destruct (c_exit r2); [|reflexivity]. exfalso. destruct (proj1 I2 eq_refl) as [_ K].
  destruct (K "p.bin"%string) as [D|D]; try discriminate D.
  unfold used, outputs. destruct (rows_in_range pr_timestamp_sec 2 9 rows') as [|r l] eqn:R; [|left; reflexivity].
  exfalso. destruct rows' as [|a [|b [|c q]]]; try discriminate T'. injection T' as Ta Tb.
  unfold rows_in_range in R. cbn [until] in R. unfold at_end, too_early in R. rewrite Ta, Tb in R. cbn in R. rewrite Ta in R. discriminate R.
Qed.

Print Assumptions C109_exit.
Print Assumptions C109_refused.
