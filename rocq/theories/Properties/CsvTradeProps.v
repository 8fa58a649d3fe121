(** C108: from the text of a CSV file to the results trader prints. *)
From Coq Require Import ZArith Reals String Ascii Bool Lia Lra.
From Coq Require Import List.
From Flocq Require Import Core BinarySingleNaN.
From Verif.Model Require Import Outcome Machine Types History MachineIEEE Eval Convert TimeText Files Programs Scan.
From Verif.Spec Require Import SeriesSpec HistorySpec ReaderSpec ProtoSpec ProgramSpec AccountIEEESpec ProgressSpec PipelineSpec CsvTextSpec CsvTradeSpec.
From Verif.Proofs Require Import Base FloatLemmas SeriesProofs ReaderProofs ScanProofs EvalProofs.
From Verif.Properties Require Import ReaderProps ProgramProps TraderMainProps PipelineProps CsvTextProps.
Import ListNotations.
Local Open Scope R_scope.

(** Rounding keeps a number between two floats. *)
Lemma nearest_range lo hi r (x : f32) : (-149 <= lo)%Z -> (-149 <= hi)%Z -> nearest r x ->
  bpow radix2 lo <= r <= bpow radix2 hi -> in_range (bpow radix2 lo) (bpow radix2 hi) x.
Proof.
  intros Hl Hh [F E] [H1 H2]. split; [exact F|]. rewrite E. split.
  - apply round_ge_generic; [apply FLT_exp_valid; reflexivity|apply valid_rnd_N|apply format_bpow; lia|exact H1].
  - apply round_le_generic; [apply FLT_exp_valid; reflexivity|apply valid_rnd_N|apply format_bpow; lia|exact H2].
Qed.
Lemma nearest_range0 hi r (x : f32) : (-149 <= hi)%Z -> nearest r x ->
  0 <= r <= bpow radix2 hi -> in_range 0 (bpow radix2 hi) x.
Proof.
  intros Hh [F E] [H1 H2]. split; [exact F|]. rewrite E. split.
  - rewrite <- (round_0 radix2 (FLT_exp (-149) 24) ZnearestE).
    apply round_le; [apply FLT_exp_valid; reflexivity|apply valid_rnd_N|exact H1].
  - apply round_le_generic; [apply FLT_exp_valid; reflexivity|apply valid_rnd_N|apply format_bpow; lia|exact H2].
Qed.
Lemma nearest_leR r r' (x y : f32) : nearest r x -> nearest r' y -> r <= r' -> B2R x <= B2R y.
Proof.
  intros [F E] [F' E'] H. rewrite E, E'. apply round_le; [apply FLT_exp_valid; reflexivity|apply valid_rnd_N|exact H].
Qed.

Section IEEE.
  Context (lm : libm) (as_ : bool).
  Local Notation I := (ieee lm as_).

  Lemma market_price_row line t : market_price_line line t ->
    exists r : @price_record I, price_line line r /\ pr_timestamp_sec r = t /\ is_int64 t /\ tradable r.
  Proof.
    intros (p & v & Hl & Hp & Hv). destruct (line_written _ _ _ Hl) as (xs & Hx & Hn).
    inversion Hn as [|? x ? xs1 N1 Hn1]; subst. inversion Hn1 as [|? y ? xs2 N2 Hn2]; subst. inversion Hn2; subst.
    exists (PriceRecord (M := I) t x y). split; [exact Hx|]. split; [reflexivity|]. split; [inversion Hl; assumption|].
    split; [apply (nearest_range _ _ p x); [lia|lia|exact N1|exact Hp]|apply (nearest_range0 _ v y); [lia|exact N2|exact Hv]].
  Qed.

  Lemma market_ohlc_row line t : market_ohlc_line line t ->
    exists r : @ohlc_tick I, ohlc_line line r /\ timestamp_sec r = t /\ is_int64 t /\
      (quoted r /\ B2R (low r : f32) <= B2R (close r : f32) <= B2R (high r : f32)).
  Proof.
    intros (o & h & l & c & v & Hl & Hlow & Hhigh & [Ho1 Ho2] & [Hc1 Hc2] & Hv). destruct (line_written _ _ _ Hl) as (xs & Hx & Hn).
    inversion Hn as [|? x1 ? xs1 N1 Hn1]; subst. inversion Hn1 as [|? x2 ? xs2 N2 Hn2]; subst.
    inversion Hn2 as [|? x3 ? xs3 N3 Hn3]; subst. inversion Hn3 as [|? x4 ? xs4 N4 Hn4]; subst.
    inversion Hn4 as [|? x5 ? xs5 N5 Hn5]; subst. inversion Hn5; subst.
    exists (OhlcTick (M := I) t x1 x2 x3 x4 x5). split; [exact Hx|]. split; [reflexivity|]. split; [inversion Hl; assumption|].
    destruct Hlow as [L1 L2], Hhigh as [H1 H2].
    assert (W1 : bpow radix2 (-26) <= bpow radix2 (-19)) by (apply bpow_le; lia).
    assert (W2 : bpow radix2 19 <= bpow radix2 26) by (apply bpow_le; lia).
    assert (W3 : bpow radix2 16 <= bpow radix2 40) by (apply bpow_le; lia).
    unfold quoted. cbn [open high low close volume]. split; [split|].
    - constructor; cbn [open high low close volume].
      + apply (nearest_range (-26) 26 o x1); [lia|lia|exact N1|lra].
      + apply (nearest_range (-26) 26 h x2); [lia|lia|exact N2|lra].
      + apply (nearest_range (-26) 26 l x3); [lia|lia|exact N3|lra].
      + apply (nearest_range (-26) 26 c x4); [lia|lia|exact N4|lra].
      + destruct Hv. apply (nearest_range0 40 v x5); [lia|exact N5|lra].
      + apply (nearest_leR l o); assumption.
      + apply (nearest_leR o h); assumption.
    - apply (nearest_range (-19) 19 c x4); [lia|lia|exact N4|lra].
    - split; [apply (nearest_leR l c)|apply (nearest_leR c h)]; assumption.
  Qed.

  Lemma market_rows {T} (line_of : string -> T -> Prop) (ts : T -> Z) (ok : T -> Prop) (fine : string -> Z -> Prop) :
    (forall line t, fine line t -> exists r, line_of line r /\ ts r = t /\ is_int64 t /\ ok r) ->
    forall lines times, Forall2 fine lines times ->
    exists rows, Forall2 line_of lines rows /\ map ts rows = times /\ Forall (fun r => is_int64 (ts r)) rows /\ Forall ok rows.
  Proof.
    intros H lines times F. induction F as [|line t lines times H1 F (rows & IH1 & IH2 & IH3 & IH4)].
    - exists []. repeat split; constructor.
    - destruct (H _ _ H1) as (r & R1 & R2 & R3 & R4). exists (r :: rows). split; [constructor; assumption|].
      split; [cbn [map]; congruence|]. split; constructor; auto. rewrite R2. exact R3.
  Qed.

  Theorem C108_prices env (sc : @scanner I) cf tf file lines times start end_ s2 e2 side :
    reads_numbers sc ->
    input_price_csv cf file -> convert_times cf start end_ -> outputs_writable env cf ->
    readable env file = Some (text_file lines) -> Forall no_line_feed lines ->
    Forall2 market_price_line lines times -> ordered (fun t => t) times ->
    (0 < cf_sampling_rate_sec cf)%Z -> (forall t, In t times -> cf_sampling_rate_sec cf <= t)%Z ->
    (Z.of_nat (List.length lines) < 2 ^ 63)%Z ->
    cf_output_ohlc cf <> EmptyString -> tf_input_ohlc tf = cf_output_ohlc cf ->
    (exists t, In t times /\ in_interval start end_ t = true) ->
    exists (rows : list (@price_record I)) mask r1,
      Forall2 price_line lines rows /\ map pr_timestamp_sec rows = times /\
      let h := filter (fun r => in_interval start end_ (pr_timestamp_sec r)) rows in
      right_mask (d2f (machine := I) (cf_max_price_deviation_per_min cf)) h mask /\
      convert_main env sc cf = Done r1 /\ c_exit r1 = EXIT_SUCCESS /\
      let ticks := series (cf_sampling_rate_sec cf) (map price_tick (select mask h)) in
      trader_setup (after env (c_files r1)) tf s2 e2 side -> evaluates tf s2 e2 ticks ->
      trades (after env (c_files r1)) tf s2 e2 ticks side.
  Proof.
    intros Hsc Hi Ht Hw Hf Hl F O Hr Hrt Hlen Ho1 Ho2 (t0 & Ht0 & Hin0).
    destruct (market_rows _ _ _ _ market_price_row lines times F) as (rows & H1 & H2 & H3 & H4).
    assert (L : List.length rows = List.length lines) by (clear - H1; induction H1; cbn [List.length]; congruence).
    destruct (C84_prices lm as_ env sc cf tf file lines rows start end_ s2 e2 side) as (mask & r1 & M & E & X & T); auto.
    - apply (price_lines sc Hsc lines rows H1).
    - eapply ordered_times; eassumption.
    - intros r Hin. split; [apply Hrt; rewrite <- H2; apply in_map, Hin|]. rewrite Forall_forall in H3. specialize (H3 r Hin). unfold is_int64 in H3. lia.
    - rewrite L. exact Hlen.
    - rewrite <- H2 in Ht0. apply in_map_iff in Ht0 as (r & <- & Hin). intros K.
      assert (K' : In r []) by (rewrite <- K; apply filter_In; auto). exact K'.
    - exists rows, mask, r1. split; [exact H1|]. split; [exact H2|]. split; [exact M|]. split; [exact E|]. split; [exact X|exact T].
  Qed.

  Theorem C108_ohlc env (sc : @scanner I) cf tf file lines times start end_ s2 e2 side :
    reads_numbers sc ->
    input_ohlc_csv cf file -> convert_times cf start end_ -> outputs_writable env cf ->
    readable env file = Some (text_file lines) -> Forall no_line_feed lines ->
    Forall2 market_ohlc_line lines times ->
    (forall t, In t times -> (0 < t)%Z) ->
    (forall i j t u, nth_error times i = Some t -> nth_error times j = Some u -> (i < j)%nat -> (t < u)%Z) ->
    cf_output_ohlc cf <> EmptyString -> tf_input_ohlc tf = cf_output_ohlc cf ->
    (exists t, In t times /\ in_interval start end_ t = true) ->
    exists (rows : list (@ohlc_tick I)) r1,
      Forall2 ohlc_line lines rows /\ map timestamp_sec rows = times /\
      convert_main env sc cf = Done r1 /\ c_exit r1 = EXIT_SUCCESS /\
      let ticks := filter (fun t => in_interval start end_ (timestamp_sec t)) rows in
      trader_setup (after env (c_files r1)) tf s2 e2 side -> evaluates tf s2 e2 ticks ->
      trades (after env (c_files r1)) tf s2 e2 ticks side.
  Proof.
    intros Hsc Hi Ht Hw Hf Hl F Hpos O Ho1 Ho2 (t0 & Ht0 & Hin0).
    destruct (market_rows _ _ _ _ market_ohlc_row lines times F) as (rows & H1 & H2 & H3 & H4).
    rewrite Forall_forall in H3, H4.
    destruct (C84_ohlc lm as_ env sc cf tf file lines rows start end_ s2 e2 side) as (r1 & E & X & T); auto.
    - apply (ohlc_lines sc Hsc lines rows H1).
    - split.
      + intros t Hin. apply Hpos. rewrite <- H2. apply in_map. exact Hin.
      + intros i j x y Hx Hy Hij. apply (O i j); [rewrite <- H2; apply map_nth_error, Hx|rewrite <- H2; apply map_nth_error, Hy|exact Hij].
    - apply Forall_forall. intros r Hin. apply (H4 r Hin).
    - apply Forall_forall. intros r Hin. apply (H4 r Hin).
    - intros t Hin. specialize (H3 t Hin). unfold is_int64 in H3. lia.
    - rewrite <- H2 in Ht0. apply in_map_iff in Ht0 as (r & <- & Hin). intros K.
      assert (K' : In r []) by (rewrite <- K; apply filter_In; auto). exact K'.
    - exists rows, r1. split; [exact H1|]. split; [exact H2|]. split; [exact E|]. split; [exact X|exact T].
  Qed.

  (** A side file: what convert writes is the side data of a trader that is run later. *)
  Theorem C108_side env (sc : @scanner I) cf file lines (rows : list (@side_record I)) start end_ s2 e2 :
    reads_numbers sc -> consuming sc ->
    input_side_csv cf file -> convert_times cf start end_ -> outputs_writable env cf ->
    readable env file = Some (text_file lines) -> Forall no_line_feed lines ->
    Forall2 signals_line lines rows -> valid_side_history rows ->
    (forall r, In r rows -> (11 + 5 * Z.of_nat (List.length (sr_signal r)) < 2 ^ 31)%Z) ->
    (Z.of_nat (List.length rows) < 2 ^ 31)%Z ->
    cf_output_side cf <> EmptyString ->
    let h := filter (fun r => in_interval start end_ (sr_timestamp_sec r)) rows in
    of_period sr_timestamp_sec s2 e2 h <> [] ->
    exists r1, convert_main env sc cf = Done r1 /\ c_exit r1 = EXIT_SUCCESS /\
      forall env2, readable env2 (cf_output_side cf) = readable (after env (c_files r1)) (cf_output_side cf) ->
        side_data env2 (cf_output_side cf) s2 e2 (Some (of_period sr_timestamp_sec s2 e2 h)).
  Proof.
    intros Hsc Hc Hi Ht Hw Hf Hl F V Hz Hlen Ho h Hh.
    apply (C84_side lm as_ env sc cf file lines rows start end_ s2 e2); auto.
    - clear - Hsc F. induction F; constructor; auto. apply (signals_side_line sc Hsc). assumption.
    - intros r Hin. split; [|auto].
      assert (K : Forall (fun r => is_int64 (sr_timestamp_sec r)) rows).
      { clear - F. induction F as [|l r0 ls rs H F IH]; constructor; [|exact IH]. inversion H; assumption. }
      rewrite Forall_forall in K. specialize (K r Hin). unfold is_int64 in K. lia.
  Qed.
End IEEE.

(** ** The hypotheses are met: a price file with two lines, one with a DOS line end. *)
Local Notation EM := (ieee tm_libm true).
Local Open Scope string_scope.
Definition ct_lines : list string := ["2,7.25,2"; ("4, 8.5e0,0.125" ++ String (ascii_of_nat 13) "")%string].
Definition ct_env : environment := Environment (fun _ => Some (text_file ct_lines)) (fun _ => true).

Lemma decimal_says text minus n e r : decimal_text text minus n e -> decimal_real minus n e = r ->
  0 <= r <= 1000000 -> says_number text r.
Proof.
  intros H E Hr. exists minus, n, e. split; [exact H|]. split; [symmetry; exact E|].
  rewrite Rabs_pos_eq by apply Hr. apply Rle_trans with (1 := proj2 Hr).
  replace 128%Z with (104 + 24)%Z by reflexivity. rewrite bpow_plus.
  assert (1 <= bpow radix2 104) by (apply (bpow_le radix2 0 104); lia).
  replace (bpow radix2 24) with 16777216 by (cbn; lra). nra.
Qed.
Lemma ct_market r : 1 <= r <= 100 -> market_price r.
Proof.
  intros H. unfold market_price.
  assert (bpow radix2 (-19) <= 1) by (change 1 with (bpow radix2 0); apply bpow_le; lia).
  assert (100 <= bpow radix2 19) by (change (bpow radix2 19) with (IZR 524288); apply IZR_le; lia). lra.
Qed.
Lemma ct_volume r : 0 <= r <= 100 -> market_volume r.
Proof.
  intros H. unfold market_volume.
  assert (100 <= bpow radix2 16) by (change (bpow radix2 16) with (IZR 65536); apply IZR_le; lia). lra.
Qed.

Lemma C108_ex : Forall2 market_price_line ct_lines [2; 4]%Z /\ Forall no_line_feed ct_lines.
Proof.
  split; [|repeat constructor; discriminate].
  constructor; [|constructor; [|constructor]].
  - exists 7.25, 2. split; [|split; [apply ct_market; lra|apply ct_volume; lra]].
    apply (CsvLine says_number "" "2" 2 [7.25; 2] ",7.25,2" Logic.I).
    + apply (IntegerText "" false "2" 2); [constructor|reflexivity].
    + split; reflexivity || lia.
    + apply (column_more says_number "" "7.25" 7.25 [2] ",2" Logic.I).
      * apply (decimal_says _ false 725 (-2)); [|unfold decimal_real; cbn [signed powerRZ]; unfold Pos.to_nat; cbn [Pos.iter_op Nat.add Init.Nat.add pow]; lra|lra].
        apply (point_text "" false "7" "25" 725 "" 0); [constructor|reflexivity|constructor].
      * apply (column_more says_number "" "2" 2 [] "" Logic.I); [apply says_whole; [reflexivity|lra]|]. constructor. exact Logic.I.
  - exists 8.5, 0.125. split; [|split; [apply ct_market; lra|apply ct_volume; lra]].
    apply (CsvLine says_number "" "4" 4 [8.5; 0.125] (", 8.5e0,0.125" ++ String (ascii_of_nat 13) "") Logic.I).
    + apply (IntegerText "" false "4" 4); [constructor|reflexivity].
    + split; reflexivity || lia.
    + apply (column_more says_number " " "8.5e0" 8.5 [0.125] (",0.125" ++ String (ascii_of_nat 13) "")); [split; [left; reflexivity|exact Logic.I]| |].
      * apply (decimal_says _ false 85 (-1)); [|unfold decimal_real; cbn [signed powerRZ]; unfold Pos.to_nat; cbn [Pos.iter_op Nat.add Init.Nat.add pow]; lra|lra].
        apply (point_text "" false "8" "5" 85 "e0" 0); [constructor|reflexivity|].
        apply some_exponent; [left; reflexivity|]. apply (IntegerText "" false "0" 0); [constructor|reflexivity].
      * apply (column_more says_number "" "0.125" 0.125 [] (String (ascii_of_nat 13) "") Logic.I).
        -- apply (decimal_says _ false 125 (-3)); [|unfold decimal_real; cbn [signed powerRZ]; unfold Pos.to_nat; cbn [Pos.iter_op Nat.add Init.Nat.add pow]; lra|lra].
           apply (point_text "" false "0" "125" 125 "" 0); [constructor|reflexivity|constructor].
        -- constructor. right. right. cbn. lia.
Qed.

(** What the two programs then do: one line in the table. *)
Lemma C108_run : exists r1 name row logs,
  convert_main ct_env (decimal_scanner tm_libm true) pl_convert = Done r1 /\
  @trader_main tm_libm true (after ct_env (c_files r1)) tm_sort 100 [] pl_flags
    = Done (TraderResult EXIT_SUCCESS (Some (Table name [row])) logs).
Proof.
  assert (H : bind (convert_main ct_env (decimal_scanner tm_libm true) pl_convert) (fun r1 =>
     bind (@trader_main tm_libm true (after ct_env (c_files r1)) tm_sort 100 [] pl_flags) (fun r =>
       Done (t_exit r, match t_printed r with Some (Table _ rows) => List.length rows | _ => 0%nat end))) = Done (EXIT_SUCCESS, 1%nat)) by (vm_compute; reflexivity).
  apply bind_done in H as (r1 & E1 & H). apply bind_done in H as ([ex out logs] & E2 & H). cbn [t_exit t_printed] in H.
  destruct out as [[rows|name rows]|]; [discriminate| |discriminate]. destruct rows as [|row [|row2 rows]]; [discriminate H| |discriminate H].
  injection H as ->. exists r1, name, row, logs. auto.
Qed.

Print Assumptions C108_prices.
