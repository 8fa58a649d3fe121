(** C118: records with missing fields in a history file. *)
From Coq Require Import ZArith Reals Lra String Ascii Bool Lia.
From Coq Require Import List.
From Flocq Require Import Core BinarySingleNaN.
From Verif.Model Require Import Outcome Machine Types Account History SideInput TimeUtil Eval
  Traders CsvLogger Proto Convert TimeText MachineIEEE Files Programs.
From Verif.Spec Require Import SeriesSpec HistorySpec ReaderSpec SideInputSpec RunSpec EvalSpec ProtoSpec ProgramSpec MissingSpec.
From Verif.Proofs Require Import Base ProtoProofs ReaderProofs EvalProofs ProgramProofs TraderMain.
From Verif.Properties Require Import ReaderProps ProtoProps ProgramProps TraderMainProps ExitProps.
Import ListNotations.
Local Open Scope Z_scope.

Lemma zero_bits : f32_of_bits 0 = f32_of_Z 0.
Proof. apply B2SF_inj. vm_compute. reflexivity. Qed.
Lemma get_float_or_zero x : get_float x = f32_of_bits (or_zero x).
Proof. destruct x; [reflexivity|]. symmetry. apply zero_bits. Qed.

Section Missing.
  Context {lm : libm} {as_ : bool}.
  Local Notation I := (ieee lm as_).

  Lemma price_filled m : @price_of_msg lm as_ (filled_price m) = price_of_msg m.
  Proof. unfold price_of_msg, filled_price. cbn [pm_timestamp pm_price pm_volume]. rewrite !get_float_or_zero. reflexivity. Qed.
  Lemma tick_filled m : @tick_of_msg lm as_ (filled_tick m) = tick_of_msg m.
  Proof.
    unfold tick_of_msg, filled_tick. cbn [tm_timestamp tm_open tm_high tm_low tm_close tm_volume].
    rewrite !get_float_or_zero. reflexivity.
  Qed.
  Lemma side_filled m : @side_of_msg lm as_ (filled_side m) = side_of_msg m.
  Proof. reflexivity. Qed.

  Lemma read_history_same env1 env2 T {R} (record : msg T -> R) ts g file ms start end_ :
    (forall m, record (g m) = record m) -> file_has env1 file T ms -> file_has env2 file T (map g ms) ->
    ReadHistory env1 T record ts file start end_ = ReadHistory env2 T record ts file start end_.
  Proof.
    intros Hg (b & Hb & Hv) (b' & Hb' & Hv'). unfold ReadHistory. rewrite Hb, Hb', Hv, Hv'.
    rewrite map_map. rewrite (map_ext _ _ Hg). reflexivity.
  Qed.

  (** ** The trader: a field that is not set is zero, in both files. *)
  Theorem C118_trader env1 env2 sort fuel sched (f : trader_flags) ticks signals :
    writable env1 = writable env2 ->
    file_has env1 (tf_input_ohlc f) OhlcTickType ticks ->
    file_has env2 (tf_input_ohlc f) OhlcTickType (map filled_tick ticks) ->
    (tf_input_side f <> ""%string ->
       file_has env1 (tf_input_side f) SideInputRecordType signals
       /\ file_has env2 (tf_input_side f) SideInputRecordType (map filled_side signals)) ->
    @trader_main lm as_ env1 sort fuel sched f = trader_main env2 sort fuel sched f.
  Proof.
    intros Hw H1 H2 Hs. unfold trader_main.
    destruct (ParseTime (tf_start_time f)) as [s|]; [|reflexivity].
    destruct (ParseTime (tf_end_time f)) as [e|]; [|reflexivity].
    rewrite (read_history_same env1 env2 OhlcTickType (@tick_of_msg lm as_) (@timestamp_sec I) filled_tick _ ticks s e tick_filled H1 H2).
    apply bind_ext. intros [h|] _; [|reflexivity].
    replace (if nonempty (tf_input_side f)
             then do h0 <- ReadHistory env1 SideInputRecordType (@side_of_msg lm as_) (@sr_timestamp_sec I) (tf_input_side f) s e ;
                  match h0 with
                  | None => Done None
                  | Some h1 => omap (fun si => Some (Some si)) (NewSideInput h1)
                  end
             else Done (Some None))
      with (if nonempty (tf_input_side f)
             then do h0 <- ReadHistory env2 SideInputRecordType (@side_of_msg lm as_) (@sr_timestamp_sec I) (tf_input_side f) s e ;
                  match h0 with
                  | None => Done None
                  | Some h1 => omap (fun si => Some (Some si)) (NewSideInput h1)
                  end
             else Done (Some None)).
    2:{ unfold nonempty. destruct (String.eqb_spec (tf_input_side f) "") as [E|N]; cbn [negb]; [reflexivity|].
        destruct (Hs N) as [S1 S2].
        rewrite (read_history_same env1 env2 SideInputRecordType (@side_of_msg lm as_) (@sr_timestamp_sec I) filled_side _ signals s e side_filled S1 S2).
        reflexivity. }
    apply bind_ext. intros [side|] _; [|reflexivity]. unfold OpenLogFile. rewrite Hw. reflexivity.
  Qed.

  (** ** convert refuses records without a price. *)
  Theorem C118_price_refused env (sc : @scanner I) f start end_ file ms m :
    input_price_proto f file -> convert_times f start end_ -> file_has env file PriceRecordType ms ->
    In m (rows_in_range (fun m => or_zero (pm_timestamp m)) start end_ ms) -> lacks_price m ->
    convert_main env sc f = Done (ConvertResult EXIT_FAILURE [] []).
  Proof.
    intros [N E] [T1 T2] (b & Hb & Hv) Hm Hl. rewrite convert_main_cases, T1, T2. cbv zeta.
    destruct (one_flag (cf_input f) file N) as (F1 & _). destruct F1 as [C1 C2]; [right; exact E|].
    rewrite C1, C2, E. unfold read_price. cbn [price_csv price_proto nonempty String.eqb negb].
    unfold ReadPriceHistoryFromDelimitedProtoFile.
    rewrite (read_file_intact env PriceRecordType _ _ file b ms start end_ Hb Hv). cbn [bind].
    destruct (ReadHistoryFromMessages _ _ ms start end_) as [h|] eqn:R; [|reflexivity]. exfalso.
    apply (read_history_spec (fun m => get_int (pm_timestamp m)) _ (fun m => price_ok (@price_of_msg lm as_ m))) in R;
      [|intros m'; apply (@price_valid_iff I (price_of_msg m'))].
    destruct R as [-> [_ V]].    destruct (V m Hm) as [_ [V1 _]]. unfold price_of_msg in V1. cbn [pr_price] in V1. rewrite Hl in V1.
    vm_compute in V1. discriminate V1.
  Qed.

  Theorem C118_ohlc_refused env (sc : @scanner I) f start end_ file ms m :
    input_ohlc_proto f file -> convert_times f start end_ -> file_has env file OhlcTickType ms ->
    In m (rows_in_range (fun m => or_zero (tm_timestamp m)) start end_ ms) -> lacks_ohlc m ->
    convert_main env sc f = Done (ConvertResult EXIT_FAILURE [] []).
  Proof.
    intros [N E] [T1 T2] (b & Hb & Hv) Hm Hl. rewrite convert_main_cases, T1, T2. cbv zeta.
    destruct (one_flag (cf_input f) file N) as (_ & F1 & _). destruct F1 as (C1 & C2 & C3); [right; exact E|].
    rewrite C1, C2, C3, E. unfold read_ohlc. cbn [ohlc_csv ohlc_proto nonempty String.eqb negb].
    unfold ReadOhlcHistoryFromDelimitedProtoFile.
    rewrite (read_file_intact env OhlcTickType _ _ file b ms start end_ Hb Hv). cbn [bind].
    destruct (ReadHistoryFromMessages _ _ ms start end_) as [h|] eqn:R; [|reflexivity]. exfalso.
    apply (read_history_spec (fun m => get_int (tm_timestamp m)) _ (fun m => ohlc_ok (@tick_of_msg lm as_ m))) in R;
      [|intros m'; apply (@ohlc_valid_iff I (tick_of_msg m'))].
    destruct R as [-> [_ V]].    destruct (V m Hm) as [_ (V1 & V2 & V3 & V4 & _)]. unfold tick_of_msg in V1, V2, V3, V4.
    cbn [open high low close] in V1, V2, V3, V4.
    destruct Hl as [L|[L|[L|L]]].
    - rewrite L in V1. vm_compute in V1. discriminate V1.
    - rewrite L in V2. vm_compute in V2. discriminate V2.
    - rewrite L in V3. vm_compute in V3. discriminate V3.
    - rewrite L in V4. vm_compute in V4. discriminate V4.
  Qed.

  (** ** convert: a volume that is not set counts as zero. *)
  Lemma read_filled {T} (ts : T -> Z) v (g : T -> T) ms start end_ :
    (forall m, ts (g m) = ts m) -> (forall m, v (g m) = v m) ->
    ReadHistoryFromMessages ts v (map g ms) start end_
    = option_map (map g) (ReadHistoryFromMessages ts v ms start end_).
  Proof.
    intros Ht Hv.
    assert (SP : forall l h, ReadHistoryFromMessages ts v l start end_ = Some h <->
      h = rows_in_range ts start end_ l /\ valid_history ts (fun m => v m = true) h).
    { intros l h. apply read_history_spec. intros r. tauto. }
    assert (ER : rows_in_range ts start end_ (map g ms) = map g (rows_in_range ts start end_ ms)).
    { rewrite rows_in_range_map. unfold rows_in_range. f_equal. clear SP.
      assert (EA : forall m, at_end (fun a => ts (g a)) start end_ m = at_end ts start end_ m).
      { intros m. unfold at_end, too_early. rewrite Ht. reflexivity. }
      assert (EU : until (at_end (fun a => ts (g a)) start end_) ms = until (at_end ts start end_) ms).
      { induction ms as [|a l IH]; [reflexivity|]. cbn [until]. rewrite EA. destruct (at_end ts start end_ a); [reflexivity|].
        rewrite IH. reflexivity. }
      rewrite EU. apply filter_ext. intros m. unfold too_early. rewrite Ht. reflexivity. }
    assert (EV : forall h, valid_history ts (fun m => v m = true) (map g h) <-> valid_history ts (fun m => v m = true) h).
    { intros h. rewrite (valid_map_iff g ts (fun m => v m = true) h). unfold valid_history. split; intros [O V]; split.
      - intros i j x y A B C. rewrite <- (Ht x), <- (Ht y). exact (O i j x y A B C).
      - intros r Hr. destruct (V r Hr) as [V1 V2]. rewrite Ht in V1. rewrite Hv in V2. auto.
      - intros i j x y A B C. rewrite (Ht x), (Ht y). exact (O i j x y A B C).
      - intros r Hr. rewrite Ht, Hv. apply V. exact Hr. }
    destruct (ReadHistoryFromMessages ts v ms start end_) as [h|] eqn:R; cbn [option_map].
    - apply SP in R as [-> V]. apply SP. rewrite ER. split; [reflexivity|]. apply EV. exact V.
    - destruct (ReadHistoryFromMessages ts v (map g ms) start end_) as [h|] eqn:R'; [|reflexivity]. exfalso.
      apply SP in R' as [-> V]. rewrite ER, EV in V. assert (K := proj2 (SP ms _) (conj eq_refl V)). congruence.
  Qed.

  Theorem C118_convert env1 env2 (sc : @scanner I) f file ms :
    writable env1 = writable env2 -> input_price_proto f file -> cf_output_price f = ""%string ->
    file_has env1 file PriceRecordType ms -> file_has env2 file PriceRecordType (map filled_price ms) ->
    convert_main env1 sc f = convert_main env2 sc f.
  Proof.
    intros Hw [N E] Hp (b & Hb & Hv) (b' & Hb' & Hv'). rewrite !convert_main_cases.
    destruct (ParseTime (cf_start_time f)) as [start|]; [|reflexivity].
    destruct (ParseTime (cf_end_time f)) as [end_|]; [|reflexivity]. cbv zeta.
    destruct (one_flag (cf_input f) file N) as (F1 & _). destruct F1 as [C1 C2]; [right; exact E|].
    rewrite C1, C2, E. unfold read_price. cbn [price_csv price_proto nonempty String.eqb negb].
    unfold ReadPriceHistoryFromDelimitedProtoFile.
    rewrite (read_file_intact env1 PriceRecordType _ _ file b ms start end_ Hb Hv).
    rewrite (read_file_intact env2 PriceRecordType _ _ file b' _ start end_ Hb' Hv'). cbn [bind].
    rewrite (read_filled (T := msg PriceRecordType) (fun m => get_int (pm_timestamp m)) _ filled_price ms start end_);
      [|reflexivity|intros m; cbn [filled_price pm_price pm_volume]; rewrite !get_float_or_zero; reflexivity].
    destruct (ReadHistoryFromMessages _ _ ms start end_) as [h|]; cbn [option_map]; [|reflexivity].
    assert (EM : map (@price_of_msg lm as_) (map filled_price h) = map price_of_msg h).
    { rewrite map_map. apply map_ext. exact price_filled. }
    assert (EO : @to_ohlc lm as_ f (map filled_price h) = @to_ohlc lm as_ f h).
    { unfold to_ohlc. rewrite EM. destruct h; reflexivity. }
    assert (EG : @printed_gaps lm as_ f (map filled_price h) = @printed_gaps lm as_ f h).
    { unfold printed_gaps. rewrite EM. destruct h; reflexivity. }
    change (msg PriceRecordType) with price_msg in *. rewrite EO, EG. apply bind_ext. intros ohlc _. f_equal.
    assert (WH : forall T l name fs, write_history env1 T l name fs = write_history env2 T l name fs).
    { intros T l name fs. unfold write_history. rewrite Hw. reflexivity. }
    unfold finish. rewrite Hp.
    assert (WP : forall env l, write_history env PriceRecordType l "" [] = Some []).
    { intros env [|? ?]; reflexivity. }
    rewrite !WP, !WH. destruct (write_history env2 OhlcTickType ohlc _ []) as [fs|]; [|reflexivity].
    rewrite WH. reflexivity.
  Qed.
End Missing.

(** ** Example: two records without volume; a record without price *)
Definition mi_flags : convert_flags :=
  ConvertFlags (InputFlags "" "p.bin" "" "" "") "" "o.bin" "" "1970-01-01 00:00:02" "1970-01-01 00:00:09"
               (f64_of_Z 1) 1 0 0.
Definition mi_tick_flags : convert_flags :=
  ConvertFlags (InputFlags "" "" "" "p.bin" "") "" "o.bin" "" "1970-01-01 00:00:02" "1970-01-01 00:00:09"
               (f64_of_Z 1) 1 0 0.
Definition mi_records : list price_msg :=
  [PriceMsg (Some 2) (Some (f32_bits (f32_of_Z 1))) None; PriceMsg (Some 4) (Some (f32_bits (f32_of_Z 2))) None].
Definition mi_lacking : list price_msg := mi_records ++ [PriceMsg (Some 5) None (Some 0)].
Definition mi_ticks : list tick_msg :=
  [TickMsg (Some 5) (Some (f32_bits (f32_of_Z 1))) None (Some (f32_bits (f32_of_Z 1))) (Some (f32_bits (f32_of_Z 1))) None].
Definition mi_env T (ms : list (msg T)) : environment :=
  Environment (fun _ => Some (WriteDelimitedMessages T ms)) (fun _ => true).

Lemma mi_has : file_has (mi_env PriceRecordType mi_records) "p.bin" PriceRecordType mi_records
  /\ file_has (mi_env PriceRecordType (map filled_price mi_records)) "p.bin" PriceRecordType (map filled_price mi_records)
  /\ file_has (mi_env PriceRecordType mi_lacking) "p.bin" PriceRecordType mi_lacking
  /\ file_has (mi_env OhlcTickType mi_ticks) "p.bin" OhlcTickType mi_ticks
  /\ file_has (mi_env OhlcTickType (map filled_tick mi_ticks)) "p.bin" OhlcTickType (map filled_tick mi_ticks).
Proof. repeat split; eexists; (split; [reflexivity|vm_compute; reflexivity]). Qed.

Lemma C118_ex :
  omap (fun r => (c_exit r, map fst (c_files r)))
    (convert_main (mi_env PriceRecordType mi_records) (@digits (ieee tm_libm true)) mi_flags)
  = Done (EXIT_SUCCESS, ["o.bin"%string])
  /\ convert_main (mi_env PriceRecordType mi_records) (@digits (ieee tm_libm true)) mi_flags
     = convert_main (mi_env PriceRecordType (map filled_price mi_records)) (@digits (ieee tm_libm true)) mi_flags
  /\ map filled_price mi_records <> mi_records
  /\ convert_main (mi_env PriceRecordType mi_lacking) (@digits (ieee tm_libm true)) mi_flags
     = Done (ConvertResult EXIT_FAILURE [] [])
  /\ convert_main (mi_env OhlcTickType mi_ticks) (@digits (ieee tm_libm true)) mi_tick_flags
     = Done (ConvertResult EXIT_FAILURE [] []).
Proof.
  destruct mi_has as (H1 & H2 & H3 & H4 & _). split; [vm_compute; reflexivity|].
  split; [apply (C118_convert _ _ _ mi_flags "p.bin" mi_records); auto; split; [discriminate|reflexivity]|].
  split; [discriminate|]. split.
  - apply (C118_price_refused _ _ mi_flags 2 9 "p.bin" mi_lacking (PriceMsg (Some 5) None (Some 0))); auto.
    + split; [discriminate|reflexivity].
    + split; vm_compute; reflexivity.
    + vm_compute. auto.
    + reflexivity.
  - apply (C118_ohlc_refused _ _ mi_tick_flags 2 9 "p.bin" mi_ticks (hd (TickMsg None None None None None None) mi_ticks)); auto.
    + split; [discriminate|reflexivity].
    + split; vm_compute; reflexivity.
    + vm_compute. auto.
    + right. left. reflexivity.
Qed.

Definition mi_trader : trader_flags :=
  TraderFlags "p.bin" "" "" "" "rebalancing" "1970-01-01 00:00:02" "1970-01-01 00:00:09" 0
              (f64_of_Z 1) (f64_of_Z 0) (f64_of_Z 1) (f64_of_Z 1) false.
Lemma C118_trader_ex sort fuel sched :
  @trader_main tm_libm true (mi_env OhlcTickType mi_ticks) sort fuel sched mi_trader
  = trader_main (mi_env OhlcTickType (map filled_tick mi_ticks)) sort fuel sched mi_trader.
Proof.
  destruct mi_has as (_ & _ & _ & H4 & H5).
  apply (C118_trader _ _ sort fuel sched mi_trader mi_ticks []); auto.
  intros N. destruct N. reflexivity.
Qed.

Print Assumptions C118_trader.
Print Assumptions C118_price_refused.
Print Assumptions C118_ohlc_refused.
Print Assumptions C118_convert.
