(** C69 - C72: the converter, from flags and files to files. *)
From Coq Require Import ZArith String Ascii Bool Lia.
From Coq Require Import List.
From Flocq Require Import Core BinarySingleNaN.
From Verif.Model Require Import Outcome Machine Types Account History SideInput TimeUtil Eval
  Traders CsvLogger Proto Convert TimeText MachineIEEE Files Programs.
From Verif.Spec Require Import SeriesSpec HistorySpec ReaderSpec SideInputSpec ProtoSpec ProgramSpec.
From Verif.Proofs Require Import Base ProtoProofs ReaderProofs SeriesProofs OrderLaws OutlierProofs
  ConvertProofs ProgramProofs.
From Verif.Proofs Require LogProofs EvalProofs.
From Verif.Properties Require Import ReaderProps HistoryProps.
Import ListNotations.
Local Open Scope Z_scope.

Section Convert.
  Context {lm : libm} {as_ : bool}.
  Local Notation I := (ieee lm as_).
  Implicit Types (env : environment) (sc : @scanner I) (f : convert_flags).

  (** ** C69 Output files *)

  (** Every run that stops stops with an exit code; on failure nothing has been written
      (unless an output file itself could not be opened). *)
  Theorem C69_failure env sc f r :
    outputs_writable env f -> convert_main env sc f = Done r -> c_exit r = EXIT_FAILURE ->
    c_files r = [] /\ c_gaps r = [].
  Proof.
    intros Hw H He. rewrite convert_main_cases in H.
    assert (N : forall price ohlc side gaps, r = finish env f price ohlc side gaps -> False).
    { intros price ohlc side gaps ->. rewrite (finish_ok env f price ohlc side gaps Hw) in He. discriminate. }
    destruct (ParseTime (cf_start_time f)) as [start|]; [|injection H as <-; auto].
    destruct (ParseTime (cf_end_time f)) as [end_|]; [|injection H as <-; auto]. cbv zeta in H.
    destruct (check_input_flags (cf_input f)); [|injection H as <-; auto].
    destruct (is_price_input (cf_input f)); [|destruct (is_ohlc_input (cf_input f))].
    - apply bind_done in H as ([price|] & _ & H); [|injection H as <-; auto].
      apply bind_done in H as (ohlc & _ & H). injection H as <-. exfalso. eapply N. reflexivity.
    - apply bind_done in H as ([ohlc|] & _ & H); [|injection H as <-; auto].
      injection H as <-. exfalso. eapply N. reflexivity.
    - destruct (ReadSideHistoryFromCsvFile env sc _ start end_) as [side|]; [|injection H as <-; auto].
      injection H as <-. exfalso. eapply N. reflexivity.
  Qed.

  (** Every file written by the converter is an undamaged, non-empty, valid history whose
      records lie in the requested period (a converted tick may start up to one sampling
      period earlier). *)
  Definition in_period (start end_ : Z) (t : Z) : Prop := start <= t /\ (0 < end_ -> t < end_).

  Lemma interval_period start end_ t : 0 < start -> in_interval start end_ t = true -> in_period start end_ t.
  Proof.
    unfold in_interval, in_period. destruct (Z.leb_spec start 0), (Z.leb_spec start t); destruct (Z.leb_spec end_ 0), (Z.ltb_spec t end_);
      cbn [orb andb]; intros; try discriminate; lia.
  Qed.

  Lemma in_written T h file name b : In (name, b) (written T h file) ->
    h <> [] /\ name = file /\ name <> EmptyString /\ b = WriteDelimitedMessages T h.
  Proof.
    unfold written. destruct h as [|m h]; [intros []|]. destruct (nonempty file) eqn:E; [|intros []].
    intros [H|[]]. injection H as <- <-. repeat split; [discriminate|]. intros ->. discriminate.
  Qed.

  Theorem C69_written env sc f r start end_ name b :
    real_files env -> int64_scanner sc -> consuming sc ->
    convert_times f start end_ -> 0 < cf_sampling_rate_sec f <= start ->
    convert_main env sc f = Done r -> In (name, b) (c_files r) ->
    name <> EmptyString /\
    ((name = cf_output_price f /\ exists h : list (@price_record I), h <> [] /\ holds_prices b h /\
        valid_history pr_timestamp_sec price_ok h /\
        forall x, In x h -> in_period start end_ (pr_timestamp_sec x)) \/
     (name = cf_output_ohlc f /\ exists h : list (@ohlc_tick I), h <> [] /\ holds_ticks b h /\
        valid_history timestamp_sec ohlc_ok h /\
        forall x, In x h -> in_period (start - cf_sampling_rate_sec f + 1) end_ (timestamp_sec x)) \/
     (name = cf_output_side f /\ exists h : list (@side_record I), h <> [] /\ b = side_file h /\
        valid_side_history h /\
        forall x, In x h -> is_int64 (sr_timestamp_sec x) /\ in_period start end_ (sr_timestamp_sec x))).
  Proof.
    intros Hf Hs Hc [Ht1 Ht2] [Hr Hrs] H Hin. rewrite convert_main_cases, Ht1, Ht2 in H. cbv zeta in H.
    assert (Hp : 0 < start) by lia.
    destruct (check_input_flags (cf_input f)); [|injection H as <-; destruct Hin].
    assert (OH : forall h : list tick_msg, @tick_history lm as_ start end_ h -> In (name, b) (written OhlcTickType h (cf_output_ohlc f)) ->
      name <> EmptyString /\ name = cf_output_ohlc f /\ exists h : list (@ohlc_tick I), h <> [] /\ holds_ticks b h /\
        valid_history timestamp_sec ohlc_ok h /\
        forall x, In x h -> in_period (start - cf_sampling_rate_sec f + 1) end_ (timestamp_sec x)).
    { intros h Hh Hw. apply in_written in Hw as (N & -> & N2 & ->). split; [exact N2|]. split; [reflexivity|].
      exists (map tick_of_msg h). split; [destruct h; [contradiction|discriminate]|]. split.
      - exists h. split; [apply (tick_history_read start end_ h Hh)|reflexivity].
      - destruct Hh as (V & Hi & _). split; [exact V|]. intros x Hx. apply in_map_iff in Hx as (m & <- & Hm).
        specialize (Hi m Hm). apply interval_period in Hi; [|exact Hp]. unfold in_period in *. cbn. lia. }
    destruct (is_price_input (cf_input f)); [|destruct (is_ohlc_input (cf_input f))].
    - apply bind_done in H as ([price|] & HR & H); [|injection H as <-; destruct Hin].
      apply bind_done in H as (ohlc & Ho & H). injection H as <-.
      pose proof (price_input_ok env sc _ _ _ _ Hf Hs HR) as Hpi.
      pose proof (price_input_length env sc _ _ _ _ Hf HR) as Hlen.
      apply finish_written in Hin as [Hin|[Hin|[]]].
      + apply in_written in Hin as (N & -> & N2 & ->). split; [exact N2|]. left. split; [reflexivity|].
        exists (map price_of_msg price). split; [destruct price; [contradiction|discriminate]|]. split.
        * exists price. split; [apply (price_history_read start end_ price Hpi)|reflexivity].
        * destruct Hpi as (V & Hi & _). split; [exact V|]. intros x Hx. apply in_map_iff in Hx as (m & <- & Hm).
          apply interval_period; [exact Hp|]. exact (Hi m Hm).
      + pose proof (in_written _ _ _ _ _ Hin) as (N & En & N2 & ->). split; [exact N2|].
        unfold to_ohlc in Ho. destruct price as [|m price]; [injection Ho as <-; contradiction|].
        destruct (nonempty (cf_output_ohlc f)) eqn:Ene; [|injection Ho as <-; contradiction].
        apply omap_done in Ho as (ticks & Hcv & <-).
        set (h := map price_of_msg (m :: price)) in *. pose proof Hpi as (V & Hi & Hm).
        assert (Hh : forall x, In x h -> in_period start end_ (pr_timestamp_sec x) /\ is_int64 (pr_timestamp_sec x)).
        { intros x Hx. apply in_map_iff in Hx as (m' & <- & Hm'). split; [apply interval_period; [exact Hp|exact (Hi m' Hm')]|].
          rewrite Forall_forall in Hm. specialize (Hm m' Hm'). destruct m' as [[t|] q v]; destruct Hm as [Hm _]; cbn in *; [exact Hm|].
          unfold is_int64. lia. }
        destruct (converted (cf_sampling_rate_sec f) (d2f (machine := I) (cf_max_price_deviation_per_min f)) (cf_last_n_outliers f) h)
          as (ohlc & Hcv' & Hne & HV & HS & HB); try assumption; try (unfold h; discriminate).
        { intros x Hx. destruct (Hh x Hx) as [[? _] _]. lia. }
        { intros x Hx. apply Hh, Hx. }
        { unfold h. rewrite map_length. exact Hlen. }
        rewrite Hcv in Hcv'. injection Hcv' as ->.
        right. left. split; [exact En|]. exists ohlc. split; [exact Hne|]. split.
        * exists (map msg_of_tick ohlc). split; [|symmetry; apply ticks_of_msgs].
          apply (tick_file_read ohlc). apply Forall_forall. intros t Ht. apply HB, Ht.
        * split; [exact HV|]. intros t Ht. destruct (HB t Ht) as (_ & _ & r1 & r2 & Hr1 & Hr2 & B1 & B2).
          destruct (Hh r1 Hr1) as [[P1 _] _]. destruct (Hh r2 Hr2) as [[_ P2] _]. unfold in_period. lia.
    - apply bind_done in H as ([ohlc|] & HR & H); [|injection H as <-; destruct Hin].
      injection H as <-. apply finish_written in Hin as [[]|[Hin|[]]].
      destruct (OH ohlc (ohlc_input_ok env sc _ _ _ _ Hf Hs HR) Hin) as (N & K). auto.
    - destruct (ReadSideHistoryFromCsvFile env sc _ start end_) as [side|] eqn:HR; [|injection H as <-; destruct Hin].
      injection H as <-. apply finish_written in Hin as [[]|[[]|Hin]].
      apply in_written in Hin as (N & -> & N2 & ->). split; [exact N2|]. right. right. split; [reflexivity|].
      unfold ReadSideHistoryFromCsvFile in HR. destruct (read_lines env _) as [lines|]; [|discriminate].
      destruct (ReadSideHistoryFromCsv sc lines start end_) as [h|] eqn:E; [|discriminate]. injection HR as <-.
      apply (read_side_csv_spec sc Hc) in E as (rows & Hrows & E & V).
      exists h. split; [destruct h; [contradiction|discriminate]|]. split; [reflexivity|]. split; [exact V|].
      intros x Hx. rewrite E in Hx. apply filter_In in Hx as [Hx Hte].
      clear - Hrows Hx Hte Hs Hp. induction Hrows as [|line lines r Hl Ha|line lines r rows Hl Ha Hrows IH]; [destruct Hx..|].
      destruct Hx as [<-|Hx]; [|exact (IH Hx)]. split.
      + destruct Hl as (s & Hl & _). exact (Hs _ _ _ Hl).
      + unfold at_end, too_early in *. unfold in_period.
        destruct (Z.ltb_spec 0 start), (Z.ltb_spec (sr_timestamp_sec r) start),
          (Z.ltb_spec 0 end_), (Z.leb_spec end_ (sr_timestamp_sec r)); cbn in *; try discriminate; lia.
  Qed.

  (** The converter always stops with an exit code, whatever bytes its input files hold. *)
  Theorem C69_total env sc f :
    real_files env -> int64_scanner sc ->
    (forall start, ParseTime (cf_start_time f) = Some start -> 0 < cf_sampling_rate_sec f <= start) ->
    exists r, convert_main env sc f = Done r.
  Proof.
    intros Hf Hs Hst. rewrite convert_main_cases.
    destruct (ParseTime (cf_start_time f)) as [start|]; [|eauto]. specialize (Hst start eq_refl).
    destruct (ParseTime (cf_end_time f)) as [end_|]; [|eauto]. cbv zeta.
    destruct (check_input_flags (cf_input f)); [|eauto].
    destruct (is_price_input (cf_input f)); [|destruct (is_ohlc_input (cf_input f))].
    - assert (D : exists p, read_price env sc (cf_input f) start end_ = Done p).
      { unfold read_price. destruct (nonempty (price_csv _)); [eauto|exact (read_file_done env PriceRecordType _ _ _ _ _)]. }
      destruct D as ([price|] & HR); rewrite HR; cbn [bind]; [|eauto].
      pose proof (price_input_ok env sc _ _ _ _ Hf Hs HR) as Hpi.
      pose proof (price_input_length env sc _ _ _ _ Hf HR) as Hlen.
      assert (O : exists o, to_ohlc (lm := lm) (as_ := as_) f price = Done o).
      { unfold to_ohlc. destruct price as [|m price]; [eauto|]. destruct (nonempty (cf_output_ohlc f)); [|eauto].
        destruct Hpi as (V & Hi & Hm). set (h := map price_of_msg (m :: price)) in *.
        destruct (converted (cf_sampling_rate_sec f) (d2f (machine := I) (cf_max_price_deviation_per_min f)) (cf_last_n_outliers f) h)
          as (ohlc & Hcv & _); try assumption; try (unfold h; discriminate); try lia.
        - intros x Hx. apply in_map_iff in Hx as (m' & <- & Hm'). specialize (Hi m' Hm'). apply interval_period in Hi; [|lia].
          destruct Hi as [Hi _]. cbn. lia.
        - intros x Hx. apply in_map_iff in Hx as (m' & <- & Hm'). rewrite Forall_forall in Hm. specialize (Hm m' Hm').
          destruct m' as [[t|] q v]; destruct Hm as [Hm _]; cbn in *; [exact Hm|]. unfold is_int64. lia.
        - unfold h. rewrite map_length. exact Hlen.
        - unfold omap. rewrite Hcv. eexists. reflexivity. }
      destruct O as (o & ->). cbn [bind]. eauto.
    - assert (D : exists p, read_ohlc env sc (cf_input f) start end_ = Done p).
      { unfold read_ohlc. destruct (nonempty (ohlc_csv _)); [eauto|exact (read_file_done env OhlcTickType _ _ _ _ _)]. }
      destruct D as ([ohlc|] & ->); cbn [bind]; eauto.
    - destruct (ReadSideHistoryFromCsvFile env sc _ start end_); eauto.
  Qed.

  (** ** C70 What is written is what was read *)

  (** The lines of a text file. *)
  Lemma string_of_bytes_app a b : string_of_bytes (a ++ b) = (string_of_bytes a ++ string_of_bytes b)%string.
  Proof. induction a; cbn; congruence. Qed.
  Lemma string_of_bytes_of s : string_of_bytes (bytes_of_string s) = s.
  Proof.
    induction s as [|c s IH]; [reflexivity|]. cbn [bytes_of_string string_of_bytes]. rewrite IH.
    rewrite N2Z.id, ascii_N_embedding. reflexivity.
  Qed.
  Lemma getlines_line line s : no_line_feed line ->
    getlines (line ++ String (ascii_of_nat 10) s)%string = line :: getlines s.
  Proof.
    induction line as [|c line IH]; intros H; [reflexivity|]. destruct H as [H1 H2].
    cbn [append getlines]. destruct (Ascii.eqb_spec c (ascii_of_nat 10)); [contradiction|].
    rewrite (IH H2). reflexivity.
  Qed.
  Theorem C70_lines env file lines : Forall no_line_feed lines -> readable env file = Some (text_file lines) ->
    read_lines env file = Some lines.
  Proof.
    intros Hl Hf. unfold read_lines. rewrite Hf. cbn [option_map]. f_equal. clear Hf.
    induction Hl as [|line lines H _ IH]; [reflexivity|]. unfold text_file. cbn [flat_map].
    rewrite !string_of_bytes_app, string_of_bytes_of. cbn [string_of_bytes].
    change (string_of_bytes (flat_map (fun line => bytes_of_string line ++ [10]) lines)) with (string_of_bytes (text_file lines)).
    change (ascii_of_N (Z.to_N 10)) with (ascii_of_nat 10).
    rewrite ?LogProofs.append_assoc_s. cbn [append]. rewrite getlines_line by exact H. f_equal. exact IH.
  Qed.

  Lemma nonempty_ne s : s <> EmptyString -> nonempty s = true.
  Proof. intros H. unfold nonempty. destruct (String.eqb_spec s ""); [contradiction|reflexivity]. Qed.
  Lemma written_output T (h : list (msg T)) file b : b = WriteDelimitedMessages T h -> written T h file = output file b h.
  Proof.
    intros ->. unfold written, output, nonempty. destruct h; [reflexivity|].
    destruct (String.eqb file ""); reflexivity.
  Qed.
  Lemma output_map {A B} (g : A -> B) file b h : output file b (map g h) = output file b h.
  Proof. destruct h; reflexivity. Qed.

  (** An OHLC CSV file in which every line has its numbers, and these are a valid history:
      exactly the ticks of the period are written. *)
  Theorem C70_ohlc_csv env sc f file lines (rows : list (@ohlc_tick I)) start end_ :
    input_ohlc_csv f file -> convert_times f start end_ -> outputs_writable env f ->
    readable env file = Some (text_file lines) -> Forall no_line_feed lines ->
    map (line_numbers sc 5) lines
      = map Some (map (fun t => (timestamp_sec t, [open t; high t; low t; close t; volume t])) rows) ->
    valid_history timestamp_sec ohlc_ok rows ->
    let h := filter (fun t => in_interval start end_ (timestamp_sec t)) rows in
    convert_main env sc f = Done (ConvertResult EXIT_SUCCESS (output (cf_output_ohlc f) (tick_file h) h) []).
  Proof.
    intros [Hne Hi] [Ht1 Ht2] Hw Hf Hl Hn Hv h. rewrite convert_main_cases, Ht1, Ht2. cbv zeta.
    unfold is_price_input, is_ohlc_input, read_ohlc, check_input_flags. rewrite Hi.
    cbn [price_csv price_proto ohlc_csv ohlc_proto side_csv]. rewrite (nonempty_ne _ Hne). cbn [nonempty String.eqb negb orb andb plus Nat.ltb Nat.leb Nat.eqb].
    unfold ReadOhlcHistoryFromCsvFile. rewrite (C70_lines env file lines Hl Hf).
    assert (E : ReadOhlcHistoryFromCsv sc lines start end_ = Some h).
    { apply read_ohlc_csv_spec.
      assert (ER : map ohlc_row (scanned sc (0, [fofZ 0; fofZ 0; fofZ 0; fofZ 0; fofZ 0]) lines) = rows).
      { rewrite (scanned_all sc (0, [fofZ 0; fofZ 0; fofZ 0; fofZ 0; fofZ 0]) _ _ Hn), map_map.
        rewrite <- map_id. apply map_ext. intros [t o hh l c v]. reflexivity. }
      rewrite ER. destruct Hv as [Ho Hv]. split; [symmetry; apply in_range_interval; exact Ho|].
      split; [apply EvalProofs.ordered_filter; exact Ho|]. intros r Hr. apply filter_In in Hr as [Hr _]. apply Hv, Hr. }
    rewrite E. cbn [option_map bind].
    rewrite finish_success by (apply finish_ok, Hw).
    cbn [written app]. rewrite app_nil_r. rewrite (written_output _ _ _ (tick_file h)) by reflexivity.
    rewrite output_map. reflexivity.
  Qed.

  Lemma output_nonempty {A B} file b (h : list A) (h' : list B) : (h = [] <-> h' = []) -> output file b h = output file b h'.
  Proof. intros H. destruct h, h'; try reflexivity; exfalso; destruct H as [H1 H2]; [discriminate (H1 eq_refl)|discriminate (H2 eq_refl)]. Qed.

  (** A price history read by the converter: the price output is that history, the OHLC
      output is its resampling without outliers, the gaps are those of the history. *)
  Lemma price_run env sc f (h : list price_msg) start end_ :
    outputs_writable env f -> convert_times f start end_ ->
    check_input_flags (cf_input f) = true -> is_price_input (cf_input f) = true ->
    read_price env sc (cf_input f) start end_ = Done (Some h) ->
    valid_history pr_timestamp_sec price_ok (map (@price_of_msg lm as_) h) ->
    0 < cf_sampling_rate_sec f ->
    (forall m, In m h -> cf_sampling_rate_sec f <= get_int (pm_timestamp m)) ->
    Z.of_nat (List.length h) < 2 ^ 63 ->
    exists mask,
      right_mask (d2f (machine := I) (cf_max_price_deviation_per_min f)) (map price_of_msg h) mask /\
      convert_main env sc f = Done (ConvertResult EXIT_SUCCESS
        (output (cf_output_price f) (WriteDelimitedMessages PriceRecordType h) h
         ++ output (cf_output_ohlc f)
              (tick_file (series (cf_sampling_rate_sec f) (map price_tick (select mask (map (@price_of_msg lm as_) h))))) h)
        (map gap_line (GetPriceHistoryGaps (map (@price_of_msg lm as_) h) 0 0 (Z.to_nat (size_t_wrap (cf_top_n_gaps f)))))).
  Proof.
    intros Hw [Ht1 Ht2] Hc Hi HR Hv Hr Hrt Hlen.
    assert (Hrt' : forall r, In r (map (@price_of_msg lm as_) h) -> cf_sampling_rate_sec f <= pr_timestamp_sec r).
    { intros r Hin. apply in_map_iff in Hin as (m & <- & Hm). apply (Hrt m Hm). }
    destruct (convert_accepted (ieee_order lm as_) _ Hr (d2f (machine := I) (cf_max_price_deviation_per_min f))
                (cf_last_n_outliers f) _ Hv Hrt' ltac:(rewrite map_length; exact Hlen)) as (ohlc & H1 & _ & mask & Hm & E).
    exists mask. split; [exact Hm|]. rewrite convert_main_cases, Ht1, Ht2. cbv zeta. rewrite Hc, Hi, HR. cbn [bind].
    assert (EO : exists o, to_ohlc (lm := lm) (as_ := as_) f h = Done o /\
              written OhlcTickType o (cf_output_ohlc f) = output (cf_output_ohlc f) (tick_file ohlc) h).
    { unfold to_ohlc. destruct h as [|m h]; [exists []; split; reflexivity|].
      destruct (nonempty (cf_output_ohlc f)) eqn:En.
      - exists (map msg_of_tick ohlc). split; [unfold omap; rewrite H1; reflexivity|].
        rewrite (written_output _ _ _ (tick_file ohlc)) by reflexivity. rewrite output_map.
        apply output_nonempty. split; [|discriminate]. intros E0. exfalso.
        assert (Hs : select mask (map (@price_of_msg lm as_) (m :: h)) <> []).
        { eapply first_selected; [discriminate| |exact Hm]. intros r Hin. apply Hv, Hin. }
        rewrite E0 in E. unfold series in E. destruct (select mask _) as [|r q]; [contradiction|]. discriminate E.
      - exists []. split; [reflexivity|]. unfold output, nonempty in *. destruct (String.eqb (cf_output_ohlc f) ""); [reflexivity|discriminate]. }
    destruct EO as (o & -> & EW). cbn [bind]. rewrite finish_success by (apply finish_ok, Hw).
    rewrite EW, (written_output PriceRecordType h _ (WriteDelimitedMessages PriceRecordType h)) by reflexivity. cbn [written]. rewrite app_nil_r, E.
    f_equal. f_equal. unfold printed_gaps, PrintPriceHistoryGaps. destruct h; reflexivity.
  Qed.

  Theorem C70_price_csv env sc f file lines (rows : list (@price_record I)) start end_ :
    input_price_csv f file -> convert_times f start end_ -> outputs_writable env f ->
    readable env file = Some (text_file lines) -> Forall no_line_feed lines ->
    map (line_numbers sc 2) lines
      = map Some (map (fun r => (pr_timestamp_sec r, [pr_price r; pr_volume r])) rows) ->
    valid_history pr_timestamp_sec price_ok rows ->
    0 < cf_sampling_rate_sec f -> (forall r, In r rows -> cf_sampling_rate_sec f <= pr_timestamp_sec r) ->
    Z.of_nat (List.length rows) < 2 ^ 63 ->
    let h := filter (fun r => in_interval start end_ (pr_timestamp_sec r)) rows in
    exists mask,
      right_mask (d2f (machine := I) (cf_max_price_deviation_per_min f)) h mask /\
      convert_main env sc f = Done (ConvertResult EXIT_SUCCESS
        (output (cf_output_price f) (price_file h) h
         ++ output (cf_output_ohlc f) (tick_file (series (cf_sampling_rate_sec f) (map price_tick (select mask h)))) h)
        (map gap_line (GetPriceHistoryGaps h 0 0 (Z.to_nat (size_t_wrap (cf_top_n_gaps f)))))).
  Proof.
    intros [Hne Hi] Ht Hw Hf Hl Hn Hv Hr Hrt Hlen h.
    assert (Hvh : valid_history pr_timestamp_sec price_ok h).
    { destruct Hv as [Ho Hv]. split; [apply EvalProofs.ordered_filter; exact Ho|]. intros r Hin.
      apply filter_In in Hin as [Hin _]. apply Hv, Hin. }
    destruct (price_run env sc f (map msg_of_price h) start end_) as (mask & Hm & E); try assumption.
    - rewrite Hi. unfold check_input_flags. cbn. rewrite (nonempty_ne _ Hne). reflexivity.
    - rewrite Hi. unfold is_price_input. cbn. rewrite (nonempty_ne _ Hne). reflexivity.
    - rewrite Hi. unfold read_price. cbn [price_csv]. rewrite (nonempty_ne _ Hne). f_equal.
      unfold ReadPriceHistoryFromCsvFile. rewrite (C70_lines env file lines Hl Hf).
      rewrite (C64_price_csv_exact sc lines rows start end_ Hn Hv). reflexivity.
    - rewrite prices_of_msgs. exact Hvh.
    - intros m Hin. apply in_map_iff in Hin as (r & <- & Hin). apply filter_In in Hin as [Hin _]. apply (Hrt r Hin).
    - rewrite map_length. unfold h. pose proof (filter_short (fun r => in_interval start end_ (pr_timestamp_sec r)) rows). lia.
    - rewrite prices_of_msgs in *. exists mask. split; [exact Hm|]. rewrite E. rewrite !output_map. reflexivity.
  Qed.

  (** A side history of valid lines is written as it is. *)
  Lemma side_rows_all sc start end_ lines rows :
    Forall2 (side_line sc) lines rows -> (forall i j (r r' : @side_record I), nth_error rows i = Some r -> nth_error rows j = Some r' -> (i < j)%nat ->
                      sr_timestamp_sec r < sr_timestamp_sec r') ->
    side_rows sc start end_ lines (until (at_end sr_timestamp_sec start end_) rows).
  Proof.
    intros H Hs. induction H as [|line r lines rows Hl H IH]; [constructor|]. cbn [until].
    destruct (at_end sr_timestamp_sec start end_ r) eqn:E.
    - eapply side_rows_stop; eauto.
    - apply side_rows_next; [exact Hl|exact E|]. apply IH. intros i j r1 r2 H1 H2 Hij. apply (Hs (S i) (S j)); auto. lia.
  Qed.

  Lemma increasing_ordered {A} (ts : A -> Z) l :
    (forall i j r r', nth_error l i = Some r -> nth_error l j = Some r' -> (i < j)%nat -> ts r < ts r') -> ordered ts l.
  Proof. intros H i j x y Hx Hy Hij. destruct (Nat.eq_dec i j) as [->|N]; [rewrite Hx in Hy; injection Hy as ->; lia|]. apply Z.lt_le_incl, (H i j x y Hx Hy). lia. Qed.

  Lemma increasing_filter {A} (ts : A -> Z) (p : A -> bool) l :
    (forall i j r r', nth_error l i = Some r -> nth_error l j = Some r' -> (i < j)%nat -> ts r < ts r') ->
    forall i j r r', nth_error (filter p l) i = Some r -> nth_error (filter p l) j = Some r' -> (i < j)%nat -> ts r < ts r'.
  Proof.
    intros H. induction l as [|x l IH]; [intros [|i] j r r' Hi; discriminate Hi|].
    assert (H' : forall i j r r', nth_error l i = Some r -> nth_error l j = Some r' -> (i < j)%nat -> ts r < ts r').
    { intros i j r r' Hi Hj Hij. apply (H (S i) (S j)); auto. lia. }
    cbn [filter]. destruct (p x); [|apply IH; exact H'].
    intros [|i] [|j] r r' Hi Hj Hij; try lia; [|apply (IH H' i j r r' Hi Hj); lia].
    cbn in Hi. injection Hi as <-. cbn in Hj. apply nth_error_In, filter_In in Hj as [Hj _].
    apply In_nth_error in Hj as [k Hk]. apply (H 0%nat (S k)); [reflexivity|exact Hk|lia].
  Qed.

  Theorem C70_side_csv env sc f file lines (rows : list (@side_record I)) start end_ :
    consuming sc -> input_side_csv f file -> convert_times f start end_ -> outputs_writable env f ->
    readable env file = Some (text_file lines) -> Forall no_line_feed lines ->
    Forall2 (side_line sc) lines rows -> valid_side_history rows ->
    let h := filter (fun r => in_interval start end_ (sr_timestamp_sec r)) rows in
    convert_main env sc f = Done (ConvertResult EXIT_SUCCESS (output (cf_output_side f) (side_file h) h) []).
  Proof.
    intros Hc [Hne Hi] [Ht1 Ht2] Hw Hf Hl Hn Hv h. rewrite convert_main_cases, Ht1, Ht2. cbv zeta.
    unfold is_price_input, is_ohlc_input, check_input_flags. rewrite Hi.
    cbn [price_csv price_proto ohlc_csv ohlc_proto side_csv]. rewrite (nonempty_ne _ Hne).
    cbn [nonempty String.eqb negb orb andb plus Nat.ltb Nat.leb Nat.eqb].
    unfold ReadSideHistoryFromCsvFile. rewrite (C70_lines env file lines Hl Hf).
    destruct Hv as (V1 & V2 & V3).
    assert (E : ReadSideHistoryFromCsv sc lines start end_ = Some h).
    { apply (read_side_csv_spec sc Hc). exists (until (at_end sr_timestamp_sec start end_) rows).
      split; [apply side_rows_all; assumption|]. split.
      - symmetry. apply (in_range_interval sr_timestamp_sec). apply increasing_ordered. exact V2.
      - split; [|split].
        + intros r Hr. apply filter_In in Hr as [Hr _]. apply V1, Hr.
        + apply increasing_filter. exact V2.
        + intros r r' Hr Hr'. apply filter_In in Hr as [Hr _]. apply filter_In in Hr' as [Hr' _]. apply V3; assumption. }
    rewrite E. cbn [option_map].
    rewrite finish_success by (apply finish_ok, Hw). cbn [written app].
    rewrite (written_output _ _ _ (side_file h)) by reflexivity. rewrite output_map. reflexivity.
  Qed.

  (** Copying a complete valid OHLC file (or price file) gives the same bytes. *)
  Theorem C70_ohlc_copy env sc f file (h : list (@ohlc_tick I)) start end_ :
    input_ohlc_proto f file -> convert_times f start end_ -> outputs_writable env f ->
    readable env file = Some (tick_file h) ->
    valid_history timestamp_sec ohlc_ok h ->
    (forall t, In t h -> is_int64 (timestamp_sec t) /\ in_interval start end_ (timestamp_sec t) = true) ->
    convert_main env sc f = Done (ConvertResult EXIT_SUCCESS (output (cf_output_ohlc f) (tick_file h) h) []).
  Proof.
    intros [Hne Hi] [Ht1 Ht2] Hw Hf Hv Hin. rewrite convert_main_cases, Ht1, Ht2. cbv zeta.
    unfold is_price_input, is_ohlc_input, read_ohlc, check_input_flags. rewrite Hi.
    cbn [price_csv price_proto ohlc_csv ohlc_proto side_csv]. rewrite (nonempty_ne _ Hne).
    cbn [nonempty String.eqb negb orb andb plus Nat.ltb Nat.leb Nat.eqb].
    assert (HH : @tick_history lm as_ start end_ (map msg_of_tick h)).
    { split; [rewrite ticks_of_msgs; exact Hv|]. split.
      - intros m Hm. apply in_map_iff in Hm as (t & <- & Hm). apply (Hin t Hm).
      - apply Forall_forall. intros m Hm. apply in_map_iff in Hm as (t & <- & Hm). apply tick_msg_ok, (Hin t Hm). }
    unfold ReadOhlcHistoryFromDelimitedProtoFile.
    rewrite (read_file_intact env OhlcTickType _ _ file (tick_file h) (map msg_of_tick h) start end_ Hf)
      by (apply tick_file_read; apply Forall_forall; intros t Ht; apply (Hin t Ht)).
    match goal with |- context [ReadHistoryFromMessages ?a ?b ?c ?d ?e] =>
      replace (ReadHistoryFromMessages a b c d e) with (Some (map (@msg_of_tick lm as_) h))
        by (symmetry; exact (tick_history_again start end_ _ HH)) end.
    cbn [bind].
    rewrite finish_success by (apply finish_ok, Hw). cbn [written app]. rewrite app_nil_r.
    rewrite (written_output _ _ _ (tick_file h)) by reflexivity. rewrite output_map. reflexivity.
  Qed.

  (** Converting in two steps (prices to a price file, the price file to an OHLC file) is
      converting in one step, whatever the input is. *)
  Theorem C70_two_steps env sc f1 f2 src mid r1 b start end_ :
    real_files env -> int64_scanner sc ->
    input_price_csv f1 src \/ input_price_proto f1 src ->
    cf_output_price f1 = mid -> cf_output_ohlc f1 = EmptyString ->
    convert_times f1 start end_ -> convert_times f2 start end_ ->
    convert_main env sc f1 = Done r1 -> content (c_files r1) mid = Some b ->
    input_price_proto f2 mid ->
    convert_main (after env (c_files r1)) sc f2 = convert_main env sc (with_input f2 (cf_input f1)).
  Proof.
    intros Hf Hs Hsrc Ho1 Ho2 [Ht1 Ht2] [Ht3 Ht4] H Hb [Hne Hi2].
    assert (Hi : is_price_input (cf_input f1) = true).
    { unfold is_price_input. destruct Hsrc as [[N E]|[N E]]; rewrite E; cbn [price_csv price_proto];
        rewrite (nonempty_ne _ N); [|rewrite orb_true_r]; reflexivity. }
    rewrite convert_main_cases, Ht1, Ht2 in H. cbv zeta in H. rewrite Hi in H.
    destruct (check_input_flags (cf_input f1)) eqn:Hc; [|injection H as <-; discriminate Hb].
    apply bind_done in H as ([price|] & HR & H); [|injection H as <-; discriminate Hb].
    apply bind_done in H as (ohlc & HO & H). injection H as <-.
    assert (ohlc = []) as ->.
    { unfold to_ohlc in HO. rewrite Ho2 in HO. destruct price; injection HO as <-; reflexivity. }
    pose proof (price_input_ok env sc _ _ _ _ Hf Hs HR) as Hh.
    assert (EF : c_files (finish env f1 price [] [] (printed_gaps (lm := lm) (as_ := as_) f1 price)) = [(mid, WriteDelimitedMessages PriceRecordType price)]).
    { revert Hb. unfold finish. rewrite Ho1. unfold write_history. destruct price as [|m price]; [discriminate|].
      rewrite (nonempty_ne _ Hne). destruct (writable env mid); [reflexivity|discriminate]. }
    rewrite EF in Hb |- *. clear Hb.
    rewrite !convert_main_cases. cbn [cf_start_time cf_end_time with_input cf_input]. rewrite Ht3, Ht4. cbv zeta. rewrite Hc, Hi.
    rewrite Hi2. unfold is_price_input, check_input_flags.
    cbn [price_csv price_proto ohlc_csv ohlc_proto side_csv]. rewrite (nonempty_ne _ Hne).
    cbn [nonempty String.eqb negb orb andb plus Nat.ltb Nat.leb Nat.eqb].
    rewrite HR. unfold read_price. cbn [price_csv price_proto nonempty String.eqb negb].
    unfold ReadPriceHistoryFromDelimitedProtoFile.
    rewrite (read_file_intact _ PriceRecordType _ _ mid (WriteDelimitedMessages PriceRecordType price) price start end_);
      [|cbn; rewrite String.eqb_refl; reflexivity|apply (price_history_read start end_ price Hh)].
    match goal with |- context [ReadHistoryFromMessages ?a ?b ?c ?d ?e] =>
      replace (ReadHistoryFromMessages a b c d e) with (Some price)
        by (symmetry; exact (price_history_again start end_ _ Hh)) end.
    cbn [bind].
    apply bind_ext. intros o _. reflexivity.
  Qed.
End Convert.


(** ** The hypotheses are met. *)
Definition ex_env : environment :=
  Environment (fun name => if String.eqb name "in.csv" then Some (text_file ["1,5,1"; "2,7,2"; "4,8,1"]%string)
                           else if String.eqb name "side.csv" then Some (text_file ["1,5,1"; "3,7,2"]%string) else None)
              (fun _ => true).
Definition ex_flags (i : input_flags) (start end_ : string) : convert_flags :=
  ConvertFlags i "p.bin" "o.bin" "s.bin" start end_ (f64_of_Z 1) 1 5 5.

Lemma C69_ex (lm : libm) (as_ : bool) :
  real_files ex_env /\ int64_scanner (@digits (ieee lm as_)) /\ consuming (@digits (ieee lm as_)) /\
  let f := ex_flags (InputFlags "in.csv" "" "" "" "") "1970-01-01 00:00:02" "1970-01-01 00:00:09" in
  convert_times f 2 9 /\ input_price_csv f "in.csv" /\ outputs_writable ex_env f /\
  0 < cf_sampling_rate_sec f <= 2 /\
  exists r, convert_main ex_env (@digits (ieee lm as_)) f = Done r /\ c_exit r = EXIT_SUCCESS /\
    map fst (c_files r) = ["p.bin"; "o.bin"]%string /\
    content (c_files r) "p.bin" = Some (@price_file lm as_ [@PriceRecord (ieee lm as_) 2 (f32_of_Z 7) (f32_of_Z 2);
                                                            @PriceRecord (ieee lm as_) 4 (f32_of_Z 8) (f32_of_Z 1)]) /\
    c_gaps r = ["2 [1970-01-01 00:00:02] - 4 [1970-01-01 00:00:04]: 0:00:02"]%string.
Proof.
  split; [|split; [|split; [apply digits_consuming|]]].
  - intros file b H. unfold ex_env in H. cbn [readable] in H.
    destruct (String.eqb file "in.csv"); [|destruct (String.eqb file "side.csv"); [|discriminate]]; injection H as <-;
      (split; [|reflexivity]); repeat constructor; discriminate.
  - intros s t rest H. cbn in H. unfold digit in H. destruct (skip_spaces s) as [|c s']; [discriminate|].
    destruct (_ && _) eqn:E; [|discriminate]. injection H as <- <-. apply andb_true_iff in E as [E1 E2].
    apply Z.leb_le in E1, E2. unfold is_int64. lia.
  - cbv zeta. split; [split; vm_compute; reflexivity|]. split; [split; [discriminate|reflexivity]|].
    split; [intros o _; right; reflexivity|]. split; [cbn; lia|].
    eexists. split; [clear; destruct as_; vm_compute; reflexivity|]. split; [reflexivity|].
    split; [reflexivity|]. split; [clear; destruct as_; vm_compute; reflexivity|reflexivity].
Qed.

Lemma C70_ex (lm : libm) (as_ : bool) :
  let sc := @digits (ieee lm as_) in
  let f1 := ConvertFlags (InputFlags "in.csv" "" "" "" "") "p.bin" "" "" "1970-01-01 00:00:02" "1970-01-01 00:00:09" (f64_of_Z 1) 1 5 5 in
  let f2 := ConvertFlags (InputFlags "" "p.bin" "" "" "") "" "o.bin" "" "1970-01-01 00:00:02" "1970-01-01 00:00:09" (f64_of_Z 1) 1 5 5 in
  map (line_numbers sc 2) ["1,5,1"; "2,7,2"; "4,8,1"]%string
    = map Some [(1, [f32_of_Z 5; f32_of_Z 1]); (2, [f32_of_Z 7; f32_of_Z 2]); (4, [f32_of_Z 8; f32_of_Z 1])] /\
  (exists b r1 r2, convert_main ex_env sc f1 = Done r1 /\ content (c_files r1) "p.bin" = Some b /\
     input_price_proto f2 "p.bin" /\
     convert_main (after ex_env (c_files r1)) sc f2 = Done r2 /\ map fst (c_files r2) = ["o.bin"]%string) /\
  Forall2 (side_line sc) ["1,5,1"; "3,7,2"]%string
     [@SideRecord (ieee lm as_) 1 [f32_of_Z 5; f32_of_Z 1]; @SideRecord (ieee lm as_) 3 [f32_of_Z 7; f32_of_Z 2]] /\
  Forall no_line_feed ["1,5,1"; "2,7,2"; "4,8,1"]%string.
Proof.
  cbv zeta. split; [reflexivity|]. split; [|split].
  - do 3 eexists. split; [clear; destruct as_; vm_compute; reflexivity|]. split; [reflexivity|].
    split; [split; [discriminate|reflexivity]|]. split; [clear; destruct as_; vm_compute; reflexivity|reflexivity].
  - repeat apply Forall2_cons; try apply Forall2_nil;
      (eexists; split; [reflexivity|]; eapply (@numbers_more (ieee lm as_)); [reflexivity|]; eapply (@numbers_more (ieee lm as_)); [reflexivity|]; apply (@numbers_end (ieee lm as_)); reflexivity).
  - repeat constructor; discriminate.
Qed.
