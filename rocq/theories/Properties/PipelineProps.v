(** C84: what convert writes, trader trades on. *)
From Coq Require Import Reals ZArith Lra Lia Bool String Classical.
From Coq Require Import List.
From Flocq Require Import Core BinarySingleNaN.
From Verif.Model Require Import Outcome Machine Types Account SideInput MachineR MachineIEEE TimeUtil Eval Traders CsvLogger Proto Convert TimeText Files Programs.
From Verif.Spec Require Import SeriesSpec HistorySpec ReaderSpec SideInputSpec AccountSpec AccountIEEESpec OrderSpec RunSpec TraderSpec EvalSpec ProtoSpec ProgramSpec ProgressSpec ReturnSpec PipelineSpec.
From Verif.Proofs Require Import Base FloatLemmas SeriesProofs ConvertProofs RunProofs EvalProofs EvalFloat ProgramProofs TraderMain PipelineProofs.
From Verif.Properties Require Import ReaderProps ProgramProps TraderMainProps ReturnProps.
Import ListNotations.
Local Open Scope R_scope.

Section IEEE.
  Context (lm : libm) (as_ : bool).
  Local Notation I := (ieee lm as_).

  (** A tick file with supported ticks at increasing times. *)
  Lemma trades_on env f start end_ (ticks : list (@ohlc_tick I)) side :
    trader_setup env f start end_ side -> evaluates f start end_ ticks ->
    readable env (tf_input_ohlc f) = Some (tick_file ticks) ->
    strictly_ordered ticks -> Forall quoted ticks -> Forall (fun t => is_int64 (timestamp_sec t)) ticks ->
    trades env f start end_ ticks side.
  Proof.
    intros [T P F N S] E R O Q Z.
    assert (RD : ready lm as_ env f start end_ ticks side).
    { constructor.
      - constructor; auto. exists (tick_file ticks). split; [exact R|]. split.
        + exists (map msg_of_tick ticks). split; [apply tick_file_read; exact Z|]. symmetry. apply ticks_of_msgs.
        + intros i j x y Hx Hy L. apply Z.lt_le_incl, (proj2 O i j x y Hx Hy L).
      - exact F.
      - exact N.
      - apply strictly_filter. exact O.
      - apply Forall_filter. exact Q.
      - exact E. }
    unfold trades. destruct (tf_evaluate_batch f) eqn:B.
    - intros sort fuel sched Hr Hn. apply C82_ranking; auto.
    - intros sort fuel sched L1 L2 Hf. eapply C82_table; eauto.
  Qed.

  Lemma content_printed {A} (files : list (string * bytes)) name b (h : list A) : h <> [] -> name <> EmptyString ->
    content (files ++ output name b h) name = Some b.
  Proof.
    intros Hh Hn. destruct h as [|x h]; [contradiction|]. cbn [output]. destruct (String.eqb_spec name "") as [->|_]; [contradiction|].
    induction files as [|[n c] files IH]; cbn [app content]; [rewrite String.eqb_refl; reflexivity|]. rewrite IH. reflexivity.
  Qed.

  (** A price history, sampled by convert. *)
  Theorem C84_prices env sc cf tf file lines (rows : list (@price_record I)) start end_ s2 e2 side :
    input_price_csv cf file -> convert_times cf start end_ -> outputs_writable env cf ->
    readable env file = Some (text_file lines) -> Forall no_line_feed lines ->
    map (line_numbers sc 2) lines
      = map Some (map (fun r => (pr_timestamp_sec r, [pr_price r; pr_volume r])) rows) ->
    ordered pr_timestamp_sec rows -> Forall tradable rows ->
    (0 < cf_sampling_rate_sec cf)%Z ->
    (forall r, In r rows -> cf_sampling_rate_sec cf <= pr_timestamp_sec r < 2 ^ 63)%Z ->
    (Z.of_nat (List.length rows) < 2 ^ 63)%Z ->
    cf_output_ohlc cf <> EmptyString -> tf_input_ohlc tf = cf_output_ohlc cf ->
    let h := filter (fun r => in_interval start end_ (pr_timestamp_sec r)) rows in
    h <> [] ->
    exists mask r1,
      right_mask (d2f (machine := I) (cf_max_price_deviation_per_min cf)) h mask /\
      convert_main env sc cf = Done r1 /\ c_exit r1 = EXIT_SUCCESS /\
      let ticks := series (cf_sampling_rate_sec cf) (map price_tick (select mask h)) in
      trader_setup (after env (c_files r1)) tf s2 e2 side -> evaluates tf s2 e2 ticks ->
      trades (after env (c_files r1)) tf s2 e2 ticks side.
  Proof.
    intros Hi Ht Hw Hf Hl Hn Ho Htr Hr Hrt Hlen Ho1 Ho2 h Hh.
    assert (P0 : 0 < bpow radix2 (-19)) by apply bpow_gt_0.
    assert (Hv : valid_history pr_timestamp_sec price_ok rows).
    { split; [exact Ho|]. intros r Hin. specialize (Hrt r Hin). split; [lia|]. rewrite Forall_forall in Htr.
      destruct (Htr r Hin) as [[F1 V1] [F2 V2]]. destruct (ofZ_finite 0 ltac:(lia)) as [F0 V0].
      split; cbn [fleb fltb fofZ ieee]; change (@flt I) with f32 in *.
      - rewrite Bleb_ext by (apply finite_num; assumption). rewrite !ext_finite, V0 by assumption. apply Rle_bool_false. lra.
      - rewrite Bltb_ext by (apply finite_num; assumption). rewrite !ext_finite, V0 by assumption. apply Rlt_bool_false. lra. }
    destruct (C70_price_csv env sc cf file lines rows start end_ Hi Ht Hw Hf Hl Hn Hv Hr) as (mask & Hm & E); [intros r Hin; apply (Hrt r Hin)|exact Hlen|].
    exists mask. eexists. split; [exact Hm|]. split; [exact E|]. cbn [c_files c_exit]. split; [reflexivity|].
    fold h in Hm, E |- *. cbv zeta. intros Hs He.
    assert (Os : ordered pr_timestamp_sec (select mask h)) by (apply select_ordered, ordered_filter, Ho).
    assert (Is : forall r, In r (select mask h) -> In r rows).
    { intros r Hin. apply select_in in Hin. apply filter_In in Hin. apply Hin. }
    assert (Ou : ordered timestamp_sec (map price_tick (select mask h))) by (apply ordered_map; exact Os).
    assert (Bu : forall u, In u (map price_tick (select mask h)) -> (cf_sampling_rate_sec cf <= timestamp_sec u < 2 ^ 63)%Z).
    { intros u Hu. apply in_map_iff in Hu as (r & <- & Hin). apply (Hrt r), Is, Hin. }
    apply trades_on; auto.
    - cbn [after readable]. rewrite Ho2, (content_printed _ _ _ h Hh Ho1). reflexivity.
    - apply series_strict; auto. intros u Hu. apply (Bu u Hu).
    - apply series_quoted; auto. apply Forall_forall. intros r Hin. rewrite Forall_forall in Htr. apply Htr, Is, Hin.
    - apply Forall_forall. intros t Hin. apply in_map_iff in Hin as (b & <- & Hb). rewrite period_tick_ts.
      destruct (grid_bounds _ _ _ Hr Ou (fun u Hu => proj1 (Bu u Hu)) Hb) as (B1 & u & Hu & B2).
      specialize (Bu u Hu). unfold is_int64. lia.
  Qed.

  (** An OHLC history, copied by convert. *)
  Theorem C84_ohlc env sc cf tf file lines (rows : list (@ohlc_tick I)) start end_ s2 e2 side :
    input_ohlc_csv cf file -> convert_times cf start end_ -> outputs_writable env cf ->
    readable env file = Some (text_file lines) -> Forall no_line_feed lines ->
    map (line_numbers sc 5) lines
      = map Some (map (fun t => (timestamp_sec t, [open t; high t; low t; close t; volume t])) rows) ->
    strictly_ordered rows -> Forall quoted rows ->
    Forall (fun t : @ohlc_tick I => B2R (low t : f32) <= B2R (close t : f32) <= B2R (high t : f32)) rows ->
    (forall t, In t rows -> (timestamp_sec t < 2 ^ 63)%Z) ->
    cf_output_ohlc cf <> EmptyString -> tf_input_ohlc tf = cf_output_ohlc cf ->
    let ticks := filter (fun t => in_interval start end_ (timestamp_sec t)) rows in
    ticks <> [] ->
    exists r1, convert_main env sc cf = Done r1 /\ c_exit r1 = EXIT_SUCCESS /\
      (trader_setup (after env (c_files r1)) tf s2 e2 side -> evaluates tf s2 e2 ticks ->
       trades (after env (c_files r1)) tf s2 e2 ticks side).
  Proof.
    intros Hi Ht Hw Hf Hl Hn Ho Hq Hc Hz Ho1 Ho2 ticks Hh.
    assert (P0 : 0 < bpow radix2 (-26)) by apply bpow_gt_0.
    assert (Hv : valid_history timestamp_sec ohlc_ok rows).
    { split; [intros i j x y Hx Hy L; apply Z.lt_le_incl, (proj2 Ho i j x y Hx Hy L)|].
      intros t Hin. split; [apply Ho, Hin|]. rewrite Forall_forall in Hq, Hc. specialize (Hc t Hin).
      destruct (Hq t Hin) as [[[A1 A2] [B1 B2] [C1 C2] [D1 D2] [E1 E2] L1 L2] _]. destruct (ofZ_finite 0 ltac:(lia)) as [F0 V0].
      assert (LE : forall x y : f32, is_finite x = true -> is_finite y = true -> B2R y < B2R x -> Bleb x y = false).
      { intros x y Fx Fy L. rewrite Bleb_ext by (apply finite_num; assumption). rewrite !ext_finite by assumption. apply Rle_bool_false. lra. }
      assert (LT : forall x y : f32, is_finite x = true -> is_finite y = true -> B2R y <= B2R x -> Bltb x y = false).
      { intros x y Fx Fy L. rewrite Bltb_ext by (apply finite_num; assumption). rewrite !ext_finite by assumption. apply Rlt_bool_false. lra. }
      unfold ohlc_ok. cbn [fleb fltb fofZ ieee]. change (@flt I) with f32 in *.
      repeat split; first [apply LE|apply LT]; auto; rewrite ?V0; lra. }
    eexists. split; [apply (C70_ohlc_csv env sc cf file lines rows start end_); auto|]. cbn [c_files c_exit]. split; [reflexivity|].
    fold ticks. intros Hs He. apply trades_on; auto.
    - cbn [after readable]. rewrite Ho2. rewrite <- (app_nil_l (output _ _ _)). rewrite (content_printed _ _ _ ticks Hh Ho1). reflexivity.
    - apply strictly_filter. exact Ho.
    - apply Forall_filter. exact Hq.
    - apply Forall_filter. apply Forall_forall. intros t Hin. specialize (Hz t Hin). pose proof (proj1 Ho t Hin). unfold is_int64. lia.
  Qed.

  (** A side history, converted: its records of the trader's period, if there are any, are
      the side data of that period, in every later state of the file system that keeps the
      file. *)
  Theorem C84_side env sc cf file lines (rows : list (@side_record I)) start end_ s2 e2 :
    consuming sc -> input_side_csv cf file -> convert_times cf start end_ -> outputs_writable env cf ->
    readable env file = Some (text_file lines) -> Forall no_line_feed lines ->
    Forall2 (side_line sc) lines rows -> valid_side_history rows ->
    (forall r, In r rows -> (sr_timestamp_sec r < 2 ^ 63)%Z /\ (11 + 5 * Z.of_nat (List.length (sr_signal r)) < 2 ^ 31)%Z) ->
    (Z.of_nat (List.length rows) < 2 ^ 31)%Z ->
    cf_output_side cf <> EmptyString ->
    let h := filter (fun r => in_interval start end_ (sr_timestamp_sec r)) rows in
    of_period sr_timestamp_sec s2 e2 h <> [] ->
    exists r1, convert_main env sc cf = Done r1 /\ c_exit r1 = EXIT_SUCCESS /\
      forall env2, readable env2 (cf_output_side cf) = readable (after env (c_files r1)) (cf_output_side cf) ->
        side_data env2 (cf_output_side cf) s2 e2 (Some (of_period sr_timestamp_sec s2 e2 h)).
  Proof.
    intros Hc Hi Ht Hw Hf Hl Hn Hv Hz Hlen Ho h Hh.
    eexists. split; [apply (C70_side_csv env sc cf file lines rows start end_); auto|]. cbn [c_files c_exit]. split; [reflexivity|].
    fold h. intros env2 He.
    destruct Hv as (V1 & V2 & V3).
    assert (Hin : forall r, In r h -> In r rows) by (intros r Hr; apply filter_In in Hr; apply Hr).
    assert (Hne : h <> []) by (intros ->; apply Hh; reflexivity).
    apply with_side; [exact Ho| |].
    - exists (side_file h). split.
      + rewrite He. cbn [after readable]. rewrite <- (app_nil_l (output _ _ _)). rewrite (content_printed _ _ _ h Hne Ho). reflexivity.
      + split.
        * exists (map msg_of_side h). split; [|symmetry; apply sides_of_msgs]. apply side_file_read. apply Forall_forall.
          intros r Hr. destruct (Hz r (Hin r Hr)), (V1 r (Hin r Hr)). unfold is_int64. split; [lia|assumption].
        * apply ordered_filter, increasing_ordered. exact V2.
    - constructor.
      + exact Hh.
      + intros r Hr. apply filter_In in Hr as [Hr _]. apply V1, Hin, Hr.
      + apply increasing_filter, increasing_filter. exact V2.
      + intros r r' Hr Hr'. apply filter_In in Hr as [Hr _]. apply filter_In in Hr' as [Hr' _]. apply V3; auto.
      + unfold of_period, h. pose proof (filter_short (fun r => (s2 <=? sr_timestamp_sec r)%Z && (sr_timestamp_sec r <? e2)%Z) h).
        pose proof (filter_short (fun r => in_interval start end_ (sr_timestamp_sec r)) rows). unfold h in *. lia.
  Qed.

  (** The period must contain a side record: otherwise trader reads the first record of an
      empty list, which is undefined behaviour in C++. *)
  Theorem C84_side_refuted env sort fuel sched f start end_ h hs :
    trader_times f start end_ -> (0 < start <= end_)%Z ->
    @tick_input lm as_ env (tf_input_ohlc f) h -> tf_input_side f <> EmptyString ->
    @side_input_file lm as_ env (tf_input_side f) hs -> of_period sr_timestamp_sec start end_ hs = [] ->
    @trader_main lm as_ env sort fuel sched f = Undefined.
  Proof.
    intros [T1 T2] Hp (b & Hb & (ms & Hv & ->) & Ho) Hne (bs & Hbs & (mss & Hvs & ->) & Hos) He. unfold trader_main. rewrite T1, T2.
    rewrite (read_history_file env OhlcTickType (@tick_of_msg lm as_) (@timestamp_sec I) _ b ms start end_ Hp Hb Hv Ho). cbn [bind].
    unfold nonempty. destruct (String.eqb_spec (tf_input_side f) ""); [contradiction|]. cbn [negb].
    rewrite (read_history_file env SideInputRecordType (@side_of_msg lm as_) (@sr_timestamp_sec I) _ bs mss start end_ Hp Hbs Hvs Hos).
    cbn [bind]. match goal with |- context [NewSideInput ?l] => replace (NewSideInput l) with (@Undefined (@side_input I)) end; [reflexivity|].
    symmetry. match goal with |- NewSideInput ?l = _ => replace l with (@nil (@side_record I)) by (symmetry; exact He) end. reflexivity.
  Qed.
End IEEE.

(** ** The hypotheses are met: the files of C69_ex, converted and then traded on. *)
Local Notation EM := (ieee tm_libm true).
Definition pl_convert : convert_flags :=
  ex_flags (InputFlags "in.csv" "" "" "" "") "1970-01-01 00:00:02" "1970-01-01 00:00:09".
Definition pl_flags : trader_flags :=
  TraderFlags "o.bin" "" "" "" "rebalancing" "1970-01-01 00:00:02" "1970-01-01 00:00:09" 0
              (f64_of_Z 1) (f64_of_Z 0) (f64_of_Z 1) (f64_of_Z 1) false.

Lemma pl_number k : (1 <= k <= 100)%Z -> in_range (bpow radix2 (-19)) (bpow radix2 19) (f32_of_Z k) /\ in_range 0 (bpow radix2 16) (f32_of_Z k).
Proof.
  intros H. destruct (ofZ_finite k ltac:(lia)) as [F V].
  assert (1 <= IZR k <= 100) by (split; apply IZR_le; lia).
  assert (bpow radix2 (-19) <= 1) by (change 1 with (bpow radix2 0); apply bpow_le; lia).
  assert (100 <= bpow radix2 16) by (change (bpow radix2 16) with (IZR 65536); apply IZR_le; lia).
  assert (bpow radix2 16 <= bpow radix2 19) by (apply bpow_le; lia).
  split; (split; [exact F|rewrite V; lra]).
Qed.

Lemma pl_setup env : trader_setup (lm := tm_libm) (as_ := true) env pl_flags 2 9 None.
Proof.
  destruct (C82_ex "" false) as [R _]. destruct R as [_ F _ _ _ _].
  constructor.
  - split; vm_compute; reflexivity.
  - lia.
  - destruct F as [F1 F2 F3 F4 F5]. constructor; assumption.
  - left. reflexivity.
  - apply no_side. reflexivity.
Qed.

Lemma C84_ex : exists r1 ticks, convert_main ex_env (@digits EM) pl_convert = Done r1 /\ c_exit r1 = EXIT_SUCCESS /\
  evaluates pl_flags 2 9 ticks /\ trades (lm := tm_libm) (as_ := true) (after ex_env (c_files r1)) pl_flags 2 9 ticks None.
Proof.
  set (rows := [@PriceRecord EM 1 (f32_of_Z 5) (f32_of_Z 1); @PriceRecord EM 2 (f32_of_Z 7) (f32_of_Z 2); @PriceRecord EM 4 (f32_of_Z 8) (f32_of_Z 1)]).
  set (h := filter (fun r => in_interval 2 9 (pr_timestamp_sec r)) rows).
  destruct (C84_prices tm_libm true ex_env (@digits EM) pl_convert pl_flags "in.csv" ["1,5,1"; "2,7,2"; "4,8,1"]%string rows 2 9 2 9 None) as (mask & r1 & Hm & E & X & T).
  - split; [discriminate|reflexivity].
  - split; vm_compute; reflexivity.
  - intros o _. right. reflexivity.
  - reflexivity.
  - repeat constructor; discriminate.
  - reflexivity.
  - intros i j x y Hx Hy L. apply (f_equal (option_map pr_timestamp_sec)) in Hx, Hy. rewrite <- nth_error_map in Hx, Hy.
    change (map pr_timestamp_sec rows) with [1; 2; 4]%Z in Hx, Hy.
    destruct i as [|[|[|i]]], j as [|[|[|j]]]; cbn [nth_error option_map] in Hx, Hy; try lia; try (destruct i; discriminate Hx); try (destruct j; discriminate Hy);
      injection Hx as <-; injection Hy as <-; lia.
  - repeat (apply Forall_cons; [split; apply pl_number; lia|]). apply Forall_nil.
  - reflexivity.
  - intros r Hr. unfold rows in Hr. repeat (destruct Hr as [<-|Hr]; [cbn [pr_timestamp_sec pl_convert ex_flags cf_sampling_rate_sec]; lia|]). destruct Hr.
  - reflexivity.
  - discriminate.
  - reflexivity.
  - discriminate.
  - exists r1. eexists. split; [exact E|]. split; [exact X|].
    assert (EV : evaluates (lm := tm_libm) (as_ := true) pl_flags 2 9 (series (cf_sampling_rate_sec pl_convert) (map price_tick (select mask h)))).
    { right. split; [reflexivity|]. destruct Hm as [L Hm]. change (List.length _) with 2%nat in L at 2.
      specialize (Hm 0%nat (@PriceRecord EM 2 (f32_of_Z 7) (f32_of_Z 2)) eq_refl). cbn [firstn] in Hm.
      destruct mask as [|b0 [|b1 [|b2 mask]]]; try discriminate L. cbn [nth_error select rev] in Hm.
      assert (b0 = true) as -> by (injection Hm as ->; vm_compute; reflexivity). clear Hm.
      intros K. apply (f_equal (@List.length _)) in K. revert K. destruct b1; vm_compute; discriminate. }
    split; [exact EV|]. apply T; [apply pl_setup|exact EV].
Qed.

(** What the two programs then do: one line in the table. *)
Lemma C84_run : exists r1 name row logs, convert_main ex_env (@digits EM) pl_convert = Done r1 /\
  @trader_main tm_libm true (after ex_env (c_files r1)) tm_sort 100 [] pl_flags = Done (TraderResult EXIT_SUCCESS (Some (Table name [row])) logs).
Proof.
  assert (H : bind (convert_main ex_env (@digits EM) pl_convert) (fun r1 =>
     bind (@trader_main tm_libm true (after ex_env (c_files r1)) tm_sort 100 [] pl_flags) (fun r =>
       Done (t_exit r, match t_printed r with Some (Table _ rows) => List.length rows | _ => 0%nat end))) = Done (EXIT_SUCCESS, 1%nat)) by (vm_compute; reflexivity).
  apply bind_done in H as (r1 & E1 & H). apply bind_done in H as ([ex out logs] & E2 & H). cbn [t_exit t_printed] in H.
  destruct out as [[rows|name rows]|]; [discriminate| |discriminate]. destruct rows as [|row [|row2 rows]]; [discriminate H| |discriminate H].
  injection H as ->. exists r1, name, row, logs. auto.
Qed.
