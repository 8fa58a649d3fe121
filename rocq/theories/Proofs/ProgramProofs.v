(** The programs: reading, writing, and what is evaluated. *)
From Coq Require Import ZArith String Ascii Bool Lia.
From Coq Require Import List.
From Flocq Require Import Core BinarySingleNaN.
From Flocq Require Binary Bits.
From Verif.Model Require Import Outcome Machine Types Account History SideInput TimeUtil Eval
  Traders CsvLogger Proto Convert TimeText MachineIEEE Files Programs.
From Verif.Spec Require Import SeriesSpec HistorySpec ReaderSpec ProtoSpec ProgramSpec.
From Verif.Proofs Require Import Base ProtoProofs ReaderProofs.
Import ListNotations.

(** ** Floats in files *)
Lemma f32_file x : f32_of_bits (f32_bits x) = x.
Proof.
  unfold f32_of_bits, f32_bits, Bits.b32_of_bits, Bits.bits_of_b32.
  rewrite Bits.binary_float_of_bits_of_binary_float. apply Binary.B2BSN_BSN2B.
Qed.

Lemma f32_bits_range x : is_bits32 (f32_bits x).
Proof.
  unfold f32_bits, Bits.bits_of_b32, is_bits32.
  pose proof (Bits.bits_of_binary_float_range 23 8 eq_refl eq_refl) as H. apply H.
Qed.

Section Records.
  Context {lm : libm} {as_ : bool}.
  Local Notation I := (ieee lm as_).

  Lemma price_of_msg_of (r : @price_record I) : price_of_msg (msg_of_price r) = r.
  Proof. destruct r as [t p v]. unfold price_of_msg, msg_of_price. cbn. rewrite !f32_file. reflexivity. Qed.
  Lemma tick_of_msg_of (t : @ohlc_tick I) : tick_of_msg (msg_of_tick t) = t.
  Proof. destruct t. unfold tick_of_msg, msg_of_tick. cbn. rewrite !f32_file. reflexivity. Qed.
  Lemma side_of_msg_of (r : @side_record I) : side_of_msg (msg_of_side r) = r.
  Proof.
    destruct r as [t s]. unfold side_of_msg, msg_of_side. cbn. f_equal. rewrite map_map.
    rewrite <- map_id. apply map_ext, f32_file.
  Qed.

  Lemma prices_of_msgs (h : list (@price_record I)) : map price_of_msg (map msg_of_price h) = h.
  Proof. rewrite map_map, <- map_id. apply map_ext, price_of_msg_of. Qed.
  Lemma ticks_of_msgs (h : list (@ohlc_tick I)) : map tick_of_msg (map msg_of_tick h) = h.
  Proof. rewrite map_map, <- map_id. apply map_ext, tick_of_msg_of. Qed.
  Lemma sides_of_msgs (h : list (@side_record I)) : map side_of_msg (map msg_of_side h) = h.
  Proof. rewrite map_map, <- map_id. apply map_ext, side_of_msg_of. Qed.

  Lemma price_msg_ok (r : @price_record I) : is_int64 (pr_timestamp_sec r) -> price_message (msg_of_price r).
  Proof. intros H. split; [exact H|]. split; apply f32_bits_range. Qed.
  Lemma tick_msg_ok (t : @ohlc_tick I) : is_int64 (timestamp_sec t) -> tick_message (msg_of_tick t).
  Proof. intros H. split; [exact H|]. repeat split; apply f32_bits_range. Qed.
  Lemma side_msg_ok (r : @side_record I) : is_int64 (sr_timestamp_sec r) ->
    (11 + 5 * Z.of_nat (List.length (sr_signal r)) < 2 ^ 31)%Z -> side_message (msg_of_side r).
  Proof.
    intros H Hl. split; [exact H|]. split.
    - apply Forall_forall. intros x Hx. apply in_map_iff in Hx as (y & <- & _). apply f32_bits_range.
    - cbn [msg_of_side sm_signal]. rewrite map_length. exact Hl.
  Qed.

  Lemma price_file_read (h : list (@price_record I)) :
    Forall (fun r => is_int64 (pr_timestamp_sec r)) h ->
    ReadDelimitedVector PriceRecordType (price_file h) = Some (map msg_of_price h, Ok).
  Proof.
    intros H. apply read_vector.
    pose proof (contents_written _ _ price_codec (map msg_of_price h) [] [] Ok) as C. rewrite !app_nil_r in C.
    apply C; [|apply contents_eof; reflexivity]. apply Forall_forall. intros m Hm. apply in_map_iff in Hm as (r & <- & Hr).
    apply price_msg_ok. rewrite Forall_forall in H. apply H, Hr.
  Qed.
  Lemma tick_file_read (h : list (@ohlc_tick I)) :
    Forall (fun r => is_int64 (timestamp_sec r)) h ->
    ReadDelimitedVector OhlcTickType (tick_file h) = Some (map msg_of_tick h, Ok).
  Proof.
    intros H. apply read_vector.
    pose proof (contents_written _ _ tick_codec (map msg_of_tick h) [] [] Ok) as C. rewrite !app_nil_r in C.
    apply C; [|apply contents_eof; reflexivity]. apply Forall_forall. intros m Hm. apply in_map_iff in Hm as (r & <- & Hr).
    apply tick_msg_ok. rewrite Forall_forall in H. apply H, Hr.
  Qed.
  Lemma side_file_read (h : list (@side_record I)) :
    Forall (fun r => is_int64 (sr_timestamp_sec r)
                     /\ (11 + 5 * Z.of_nat (List.length (sr_signal r)) < 2 ^ 31)%Z) h ->
    ReadDelimitedVector SideInputRecordType (side_file h) = Some (map msg_of_side h, Ok).
  Proof.
    intros H. apply read_vector.
    pose proof (contents_written _ _ side_codec (map msg_of_side h) [] [] Ok) as C. rewrite !app_nil_r in C.
    apply C; [|apply contents_eof; reflexivity]. apply Forall_forall. intros m Hm. apply in_map_iff in Hm as (r & <- & Hr).
    rewrite Forall_forall in H. apply side_msg_ok; apply H, Hr.
  Qed.
End Records.

(** ** convert's reader on the bytes of a file *)
Lemma streamed_messages {A S} (reader : S -> A -> S * reader_status) s ms s' st :
  streamed reader Ok s ms s' st -> read_messages reader s ms = (s', st).
Proof.
  intros H. remember Ok as e. induction H; subst; cbn [read_messages]; [reflexivity|..]; rewrite H; auto.
Qed.

Lemma read_file_intact env T ts v file b ms start end_ :
  readable env file = Some b -> ReadDelimitedVector T b = Some (ms, Ok) ->
  ReadHistoryFromDelimitedProtoFile env T ts v file start end_ = Done (ReadHistoryFromMessages ts v ms start end_).
Proof.
  intros Hf Hv. unfold ReadHistoryFromDelimitedProtoFile, ReadHistoryFromMessages. rewrite Hf.
  destruct (contents_total T b) as (ms' & ending & Hc).
  pose proof (read_vector T b ms' ending Hc) as RV. rewrite Hv in RV. injection RV as <- <-.
  destruct (read_streamed T (history_reader ts v start end_) b ms Ok Hc (S (List.length b)) (0%Z, [])) as (s' & st & R & Hs); [lia|].
  unfold ReadDelimited. rewrite R. rewrite (streamed_messages _ _ _ _ _ Hs).
  destruct s' as [q h]. destruct st; reflexivity.
Qed.

(** A file that does not end at a message boundary is accepted only if a record at or after
    the end was met before the damage. *)
Lemma read_file_damaged env T ts v file b ms e start end_ :
  readable env file = Some b -> ReadDelimitedVector T b = Some (ms, e) -> e <> Ok ->
  (forall m, In m ms -> at_end ts start end_ m = false) ->
  ReadHistoryFromDelimitedProtoFile env T ts v file start end_ = Done None.
Proof.
  intros Hf Hv He Hno. unfold ReadHistoryFromDelimitedProtoFile. rewrite Hf.
  destruct (contents_total T b) as (ms' & ending & Hc).
  pose proof (read_vector T b ms' ending Hc) as RV. rewrite Hv in RV. injection RV as <- <-.
  destruct (read_streamed T (history_reader ts v start end_) b ms e Hc (S (List.length b)) (0%Z, [])) as (s' & st & R & Hs); [lia|].
  unfold ReadDelimited. rewrite R.
  assert (st <> Ok); [|destruct s' as [q h], st; congruence]. clear R Hc Hv.
  induction Hs as [s|s m ms s1 s2 st H _ IH|s m ms s1 H|s m ms s1 H]; [exact He|..].
  - apply IH. intros m' Hm'. apply Hno. right. exact Hm'.
  - exfalso. specialize (Hno m (or_introl eq_refl)). unfold history_reader, row_action_of in H.
    unfold at_end, too_early in Hno. rewrite !Z.gtb_ltb in H. rewrite Z.geb_leb in H.
    destruct ((0 <? start) && (ts m <? start))%Z; [discriminate|]. cbn [negb andb] in Hno. rewrite Hno in H.
    destruct ((ts m <=? 0) || (ts m <? fst s))%Z; [discriminate|]. destruct (v m); discriminate.
  - discriminate.
Qed.

Lemma read_file_missing env T ts v file start end_ : readable env file = None ->
  ReadHistoryFromDelimitedProtoFile env T ts v file start end_ = Done None.
Proof. intros H. unfold ReadHistoryFromDelimitedProtoFile. rewrite H. reflexivity. Qed.

(** ** Messages read from the bytes of a file have fields of their C++ types *)
Section Parsed.
  Local Open Scope Z_scope.

  Lemma varint_loop_ok fuel : forall s acc b v rest, 0 <= acc < 2 ^ 64 -> Forall is_byte b ->
    read_varint_loop fuel s acc b = Some (v, rest) -> 0 <= v < 2 ^ 64 /\ Forall is_byte rest.
  Proof.
    induction fuel as [|fuel IH]; intros s acc b v rest Ha Hb H; cbn [read_varint_loop] in H; [discriminate|].
    destruct b as [|x b]; [discriminate|]. inversion Hb as [|? ? Hx Hb']; subst. cbv zeta in H.
    assert (A : 0 <= (acc + x mod 128 * 2 ^ s) mod 2 ^ 64 < 2 ^ 64) by (apply Z.mod_pos_bound; reflexivity).
    destruct (x <? 128).
    - injection H as <- <-. auto.
    - eapply IH; eauto.
  Qed.

  Lemma varint_ok b v rest : Forall is_byte b -> read_varint b = Some (v, rest) -> 0 <= v < 2 ^ 64 /\ Forall is_byte rest.
  Proof. apply varint_loop_ok. lia. Qed.

  Lemma fixed32_ok b v rest : Forall is_byte b -> read_fixed32 b = Some (v, rest) -> is_bits32 v /\ Forall is_byte rest.
  Proof.
    intros Hb H. destruct b as [|b0 [|b1 [|b2 [|b3 b]]]]; try discriminate. cbn [read_fixed32] in H. injection H as <- <-.
    repeat match goal with H : Forall _ (_ :: _) |- _ => inversion H; clear H; subst end.
    split; [|assumption]. unfold is_byte, is_bits32 in *. lia.
  Qed.

  Lemma Forall_firstn {A} (P : A -> Prop) n l : Forall P l -> Forall P (firstn n l).
  Proof. intros H. rewrite <- (firstn_skipn n l) in H. apply Forall_app in H. apply H. Qed.
  Lemma Forall_skipn {A} (P : A -> Prop) n l : Forall P l -> Forall P (skipn n l).
  Proof. intros H. rewrite <- (firstn_skipn n l) in H. apply Forall_app in H. apply H. Qed.

  Definition wire_ok (v : wire_value) : Prop :=
    match v with
    | WVarint x => 0 <= x < 2 ^ 64
    | WFixed32 x => is_bits32 x
    | WFixed64 => True
    | WBytes b => Forall is_byte b
    end.

  Lemma read_field_ok b field v rest : Forall is_byte b -> read_field b = Some (field, v, rest) ->
    wire_ok v /\ Forall is_byte rest.
  Proof.
    intros Hb H. unfold read_field in H. destruct (read_varint b) as [[tag b1]|] eqn:E; [|discriminate].
    destruct (varint_ok _ _ _ Hb E) as [_ Hb1]. cbv zeta in H.
    destruct (tag / 8 =? 0); [discriminate|].
    destruct (tag mod 8 =? WT_VARINT).
    { destruct (read_varint b1) as [[x b2]|] eqn:E1; [|discriminate]. injection H as _ <- <-. exact (varint_ok _ _ _ Hb1 E1). }
    destruct (tag mod 8 =? WT_FIXED32).
    { destruct (read_fixed32 b1) as [[x b2]|] eqn:E1; [|discriminate]. injection H as _ <- <-. exact (fixed32_ok _ _ _ Hb1 E1). }
    destruct (tag mod 8 =? WT_FIXED64).
    { destruct (_ <=? _); [|discriminate]. injection H as _ <- <-. split; [exact Logic.I|]. apply (Forall_skipn is_byte 8), Hb1. }
    destruct (tag mod 8 =? WT_LENGTH); [|discriminate].
    destruct (read_varint b1) as [[n b2]|] eqn:E1; [|discriminate]. destruct (varint_ok _ _ _ Hb1 E1) as [_ Hb2].
    destruct (_ <=? _); [|discriminate]. injection H as _ <- <-.
    split; [apply Forall_firstn|apply Forall_skipn]; exact Hb2.
  Qed.

  Lemma to_int64_ok x : 0 <= x < 2 ^ 64 -> is_int64 (to_int64 x).
  Proof. unfold to_int64, is_int64. intros H. destruct (Z.ltb_spec x (2 ^ 63)); lia. Qed.

  Definition merge_ok (T : message_type) (ok : msg T -> Prop) : Prop :=
    ok (msg_empty T) /\
    forall m field v m', ok m -> wire_ok v -> msg_merge T m field v = Some m' -> ok m'.

  Lemma price_merge_ok : merge_ok PriceRecordType price_message.
  Proof.
    split; [repeat split|]. intros [t p v] field w m' (H1 & H2 & H3) Hw H.
    cbn [msg_merge PriceRecordType] in H. unfold price_merge in H. injection H as <-.
    unfold price_message in *. cbn [pm_timestamp pm_price pm_volume] in *.
    destruct w as [x|x| |b]; cbn [wire_ok] in Hw; [pose proof (to_int64_ok x Hw)| | |];
    repeat match goal with |- context [if ?c then _ else _] => destruct c end;
      cbn [pm_timestamp pm_price pm_volume if_present]; auto 10.
  Qed.

  Lemma tick_merge_ok : merge_ok OhlcTickType tick_message.
  Proof.
    split; [repeat split|]. intros [t o h l c u] field w m' (H1 & H2 & H3 & H4 & H5 & H6) Hw H.
    cbn [msg_merge OhlcTickType] in H. unfold tick_merge in H. injection H as <-.
    unfold tick_message in *. cbn [tm_timestamp tm_open tm_high tm_low tm_close tm_volume] in *.
    destruct w as [x|x| |b]; cbn [wire_ok] in Hw; [pose proof (to_int64_ok x Hw)| | |];
    repeat match goal with |- context [if ?c then _ else _] => destruct c end;
      cbn [tm_timestamp tm_open tm_high tm_low tm_close tm_volume if_present]; auto 10.
  Qed.

  Lemma parse_fields_ok T ok : merge_ok T ok -> forall fuel m b m', ok m -> Forall is_byte b ->
    parse_fields T fuel m b = Some m' -> ok m'.
  Proof.
    intros [_ HM]. induction fuel as [|fuel IH]; intros m b m' Hm Hb H; cbn [parse_fields] in H.
    - destruct b; [injection H as <-; exact Hm|discriminate].
    - destruct b as [|x b]; [injection H as <-; exact Hm|].
      destruct (read_field (x :: b)) as [[[field v] b']|] eqn:E; [|discriminate].
      destruct (read_field_ok _ _ _ _ Hb E) as [Hv Hb'].
      destruct (msg_merge T m field v) as [m1|] eqn:E1; [|discriminate].
      apply (IH m1 b' m'); eauto.
  Qed.

  Lemma contents_ok T ok b ms st : merge_ok T ok -> Forall is_byte b -> contents T b ms st -> Forall ok ms.
  Proof.
    intros HM Hb Hc. induction Hc as [b Hp|b Hp|b m rest ms st Hp Hc IH]; [constructor..|].
    unfold parse_delimited in Hp. destruct b as [|x b]; [discriminate|].
    destruct (read_varint (x :: b)) as [[size b1]|] eqn:E; [|discriminate].
    destruct (varint_ok _ _ _ Hb E) as [_ Hb1]. cbv zeta in Hp.
    destruct (_ <=? _); [|discriminate].
    destruct (parse_message T _) as [m1|] eqn:E1; [|discriminate]. injection Hp as <- <-.
    constructor; [|apply IH, Forall_skipn, Hb1].
    unfold parse_message in E1. eapply parse_fields_ok; [exact HM|apply HM|apply Forall_firstn, Hb1|exact E1].
  Qed.

  Lemma read_vector_ok T ok b ms st : merge_ok T ok -> Forall is_byte b ->
    ReadDelimitedVector T b = Some (ms, st) -> Forall ok ms.
  Proof.
    intros HM Hb H. destruct (contents_total T b) as (ms' & e & Hc).
    rewrite (read_vector T b ms' e Hc) in H. injection H as <- _. eapply contents_ok; eauto.
  Qed.
End Parsed.

(** ** The runs of convert *)
Section ConvertRuns.
  Context {lm : libm} {as_ : bool}.
  Local Notation I := (ieee lm as_).
  Context (env : environment) (sc : @scanner I).
  Local Open Scope Z_scope.

  (** The three writes at the end of main. *)
  Definition finish (f : convert_flags) (price : list price_msg) (ohlc : list tick_msg)
             (side : list side_msg) (gaps : list string) : convert_result :=
    match write_history env PriceRecordType price (cf_output_price f) [] with
    | None => ConvertResult EXIT_FAILURE [] gaps
    | Some files =>
      match write_history env OhlcTickType ohlc (cf_output_ohlc f) files with
      | None => ConvertResult EXIT_FAILURE files gaps
      | Some files =>
        match write_history env SideInputRecordType side (cf_output_side f) files with
        | None => ConvertResult EXIT_FAILURE files gaps
        | Some files => ConvertResult EXIT_SUCCESS files gaps
        end
      end
    end.

  Definition read_price (i : input_flags) (start end_ : Z) : outcome (option (list price_msg)) :=
    if nonempty (price_csv i) then Done (ReadPriceHistoryFromCsvFile env sc (price_csv i) start end_)
    else @ReadPriceHistoryFromDelimitedProtoFile lm as_ env (price_proto i) start end_.
  Definition read_ohlc (i : input_flags) (start end_ : Z) : outcome (option (list tick_msg)) :=
    if nonempty (ohlc_csv i) then Done (ReadOhlcHistoryFromCsvFile env sc (ohlc_csv i) start end_)
    else @ReadOhlcHistoryFromDelimitedProtoFile lm as_ env (ohlc_proto i) start end_.

  Definition to_ohlc (f : convert_flags) (price : list price_msg) : outcome (list tick_msg) :=
    match price with
    | [] => Done []
    | _ => if nonempty (cf_output_ohlc f)
           then omap (map (@msg_of_tick lm as_))
                     (ConvertPriceHistoryToOhlcHistory
                        (M := I) (d2f (machine := I) (cf_max_price_deviation_per_min f))
                        (cf_last_n_outliers f) (cf_sampling_rate_sec f)
                        (map (@price_of_msg lm as_) price))
           else Done []
    end.
  Definition printed_gaps (f : convert_flags) (price : list price_msg) : list string :=
    match price with
    | [] => []
    | _ => PrintPriceHistoryGaps (map (@price_of_msg lm as_) price) (cf_top_n_gaps f)
    end.

  Definition is_price_input (i : input_flags) : bool := nonempty (price_csv i) || nonempty (price_proto i).
  Definition is_ohlc_input (i : input_flags) : bool := nonempty (ohlc_csv i) || nonempty (ohlc_proto i).

  (** main, by the kind of its input. *)
  Lemma convert_main_cases f :
    convert_main env sc f =
    match ParseTime (cf_start_time f), ParseTime (cf_end_time f) with
    | Some start, Some end_ =>
      let i := cf_input f in
      if check_input_flags i then
        if is_price_input i then
          do price <- read_price i start end_ ;
          match price with
          | None => Done (ConvertResult EXIT_FAILURE [] [])
          | Some price =>
            do ohlc <- to_ohlc f price ; Done (finish f price ohlc [] (printed_gaps f price))
          end
        else if is_ohlc_input i then
          do ohlc <- read_ohlc i start end_ ;
          match ohlc with
          | None => Done (ConvertResult EXIT_FAILURE [] [])
          | Some ohlc => Done (finish f [] ohlc [] [])
          end
        else
          match ReadSideHistoryFromCsvFile env sc (side_csv i) start end_ with
          | None => Done (ConvertResult EXIT_FAILURE [] [])
          | Some side => Done (finish f [] [] side [])
          end
      else Done (ConvertResult EXIT_FAILURE [] [])
    | _, _ => Done (ConvertResult EXIT_FAILURE [] [])
    end.
  Proof.
    unfold convert_main. destruct (ParseTime (cf_start_time f)) as [start|]; [|reflexivity].
    destruct (ParseTime (cf_end_time f)) as [end_|]; [|reflexivity]. cbv zeta.
    destruct (check_input_flags (cf_input f)) eqn:C; cbn [negb]; [|reflexivity].
    assert (K : forall gaps price ohlc side,
      match write_history env PriceRecordType price (cf_output_price f) [] with
      | None => Done (ConvertResult EXIT_FAILURE [] gaps)
      | Some files =>
        match write_history env OhlcTickType ohlc (cf_output_ohlc f) files with
        | None => Done (ConvertResult EXIT_FAILURE files gaps)
        | Some files0 =>
          match write_history env SideInputRecordType side (cf_output_side f) files0 with
          | None => Done (ConvertResult EXIT_FAILURE files0 gaps)
          | Some files1 => Done (ConvertResult EXIT_SUCCESS files1 gaps)
          end
        end
      end = Done (finish f price ohlc side gaps)).
    { intros gaps price ohlc side. unfold finish.
      destruct (write_history env PriceRecordType price (cf_output_price f) []) as [files|]; [|reflexivity].
      destruct (write_history env OhlcTickType ohlc (cf_output_ohlc f) files) as [files0|]; [|reflexivity].
      destruct (write_history env SideInputRecordType side (cf_output_side f) files0); reflexivity. }
    unfold is_price_input, is_ohlc_input, read_price, read_ohlc.
    unfold check_input_flags in C.
    destruct (nonempty (price_csv (cf_input f))) eqn:E1, (nonempty (price_proto (cf_input f))) eqn:E2,
      (nonempty (ohlc_csv (cf_input f))) eqn:E3, (nonempty (ohlc_proto (cf_input f))) eqn:E4,
      (nonempty (side_csv (cf_input f))) eqn:E5; try discriminate C; cbn [orb bind].
    - destruct (ReadPriceHistoryFromCsvFile env sc _ start end_) as [h|]; [|reflexivity]. cbn [bind].
      unfold to_ohlc, printed_gaps. destruct h as [|m h]; [cbn [bind]; apply K|].
      destruct (nonempty (cf_output_ohlc f)); cbn [bind]; [apply bind_ext; intros; apply K|apply K].
    - apply bind_ext. intros [h|] _; [|reflexivity]. cbn [bind].
      unfold to_ohlc, printed_gaps. destruct h as [|m h]; [cbn [bind]; apply K|].
      destruct (nonempty (cf_output_ohlc f)); cbn [bind]; [apply bind_ext; intros; apply K|apply K].
    - destruct (ReadOhlcHistoryFromCsvFile env sc _ start end_) as [h|]; [|reflexivity]. cbn [bind]. apply K.
    - apply bind_ext. intros [h|] _; [|reflexivity]. cbn [bind]. apply K.
    - destruct (ReadSideHistoryFromCsvFile env sc _ start end_) as [h|]; [|reflexivity]. cbn [bind]. apply K.
  Qed.

  (** Nothing is written on failure when the outputs can be opened. *)
  Lemma write_history_ok T h file files : (file = EmptyString \/ writable env file = true) ->
    exists files', write_history env T h file files = Some files'.
  Proof.
    intros H. unfold write_history. destruct h; [eauto|]. destruct (nonempty file) eqn:E; [|eauto].
    destruct H as [-> | ->]; [discriminate|eauto].
  Qed.

  Lemma finish_ok f price ohlc side gaps :
    (forall o, In o [cf_output_price f; cf_output_ohlc f; cf_output_side f] -> o = EmptyString \/ writable env o = true) ->
    c_exit (finish f price ohlc side gaps) = EXIT_SUCCESS.
  Proof.
    intros H. unfold finish.
    destruct (write_history_ok PriceRecordType price (cf_output_price f) []) as [f1 ->]; [apply H; cbn; auto|].
    destruct (write_history_ok OhlcTickType ohlc (cf_output_ohlc f) f1) as [f2 ->]; [apply H; cbn; auto|].
    destruct (write_history_ok SideInputRecordType side (cf_output_side f) f2) as [f3 ->]; [apply H; cbn; auto|].
    reflexivity.
  Qed.

  (** What finish writes, in any case. *)
  Definition written (T : message_type) (h : list (msg T)) (file : string) : list (string * bytes) :=
    match h with [] => [] | _ => if nonempty file then [(file, WriteDelimitedMessages T h)] else [] end.

  Lemma write_history_written T h file files files' : write_history env T h file files = Some files' ->
    files' = files ++ written T h file.
  Proof.
    unfold write_history, written. destruct h; [intros H; injection H as <-; symmetry; apply app_nil_r|].
    destruct (nonempty file); [|intros H; injection H as <-; symmetry; apply app_nil_r].
    destruct (writable env file); [|discriminate]. intros H; injection H as <-. reflexivity.
  Qed.

  Lemma finish_written f price ohlc side gaps name b : In (name, b) (c_files (finish f price ohlc side gaps)) ->
    In (name, b) (written PriceRecordType price (cf_output_price f))
    \/ In (name, b) (written OhlcTickType ohlc (cf_output_ohlc f))
    \/ In (name, b) (written SideInputRecordType side (cf_output_side f)).
  Proof.
    unfold finish.
    destruct (write_history env PriceRecordType price (cf_output_price f) []) as [f1|] eqn:E1; [|intros []].
    apply write_history_written in E1. cbn [app] in E1. subst f1.
    destruct (write_history env OhlcTickType ohlc (cf_output_ohlc f) _) as [f2|] eqn:E2; cbn [c_files]; [|auto].
    apply write_history_written in E2. subst f2.
    destruct (write_history env SideInputRecordType side (cf_output_side f) _) as [f3|] eqn:E3; cbn [c_files].
    - apply write_history_written in E3. subst f3. rewrite !in_app_iff. tauto.
    - rewrite in_app_iff. tauto.
  Qed.

  Lemma finish_success f price ohlc side gaps : c_exit (finish f price ohlc side gaps) = EXIT_SUCCESS ->
    finish f price ohlc side gaps = ConvertResult EXIT_SUCCESS
      (written PriceRecordType price (cf_output_price f) ++ written OhlcTickType ohlc (cf_output_ohlc f)
       ++ written SideInputRecordType side (cf_output_side f)) gaps.
  Proof.
    unfold finish.
    destruct (write_history env PriceRecordType price (cf_output_price f) []) as [f1|] eqn:E1; [|discriminate].
    apply write_history_written in E1. cbn [app] in E1. subst f1.
    destruct (write_history env OhlcTickType ohlc (cf_output_ohlc f) _) as [f2|] eqn:E2; [|discriminate].
    apply write_history_written in E2. subst f2.
    destruct (write_history env SideInputRecordType side (cf_output_side f) _) as [f3|] eqn:E3; [|discriminate].
    apply write_history_written in E3. subst f3. intros _. rewrite app_assoc. reflexivity.
  Qed.
End ConvertRuns.

(** ** What the readers return *)
Lemma streamed_ok {A S} (reader : S -> A -> S * reader_status) e s ms s' :
  streamed reader e s ms s' Ok -> read_messages reader s ms = (s', Ok).
Proof.
  intros H. remember Ok as st. induction H; subst; cbn [read_messages]; [reflexivity|..]; rewrite H; auto.
Qed.

Lemma read_file_some env T ts v file start end_ h :
  ReadHistoryFromDelimitedProtoFile env T ts v file start end_ = Done (Some h) ->
  exists b ms e, readable env file = Some b /\ ReadDelimitedVector T b = Some (ms, e)
    /\ ReadHistoryFromMessages ts v ms start end_ = Some h.
Proof.
  unfold ReadHistoryFromDelimitedProtoFile, ReadHistoryFromMessages.
  destruct (readable env file) as [b|]; [|discriminate]. intros H.
  destruct (contents_total T b) as (ms & e & Hc). exists b, ms, e. split; [reflexivity|].
  split; [apply read_vector, Hc|].
  destruct (read_streamed T (history_reader ts v start end_) b ms e Hc (S (List.length b)) (0%Z, [])) as (s' & st & R & Hs); [lia|].
  unfold ReadDelimited in H. rewrite R in H. destruct s' as [q h'], st; try discriminate.
  injection H as ->. rewrite (streamed_ok _ _ _ _ _ Hs). reflexivity.
Qed.

Lemma read_file_done env T ts v file start end_ :
  exists h, ReadHistoryFromDelimitedProtoFile env T ts v file start end_ = Done h.
Proof.
  unfold ReadHistoryFromDelimitedProtoFile. destruct (readable env file) as [b|]; [|eauto].
  destruct (contents_total T b) as (ms & e & Hc).
  destruct (read_streamed T (history_reader ts v start end_) b ms e Hc (S (List.length b)) (0%Z, [])) as (s' & st & R & Hs); [lia|].
  unfold ReadDelimited. rewrite R. destruct s' as [q h'], st; eauto.
Qed.

Lemma in_rows {T} (ts : T -> Z) start end_ rows r :
  In r (rows_in_range ts start end_ rows) -> In r rows /\ in_interval start end_ (ts r) = true.
Proof.
  unfold rows_in_range. intros H. apply filter_In in H as [H1 H2].
  assert (K : In r rows /\ at_end ts start end_ r = false).
  { clear H2. induction rows as [|x rows IH]; [destruct H1|]. cbn [until] in H1.
    destruct (at_end ts start end_ x) eqn:E; [destruct H1|]. destruct H1 as [<-|H1]; [split; [left; reflexivity|exact E]|].
    destruct (IH H1). split; [right|]; assumption. }
  destruct K as [K1 K2]. split; [exact K1|]. unfold at_end, too_early, in_interval in *.
  destruct (Z.ltb_spec 0 start), (Z.leb_spec start 0), (Z.ltb_spec (ts r) start), (Z.leb_spec start (ts r)),
    (Z.ltb_spec 0 end_), (Z.leb_spec end_ 0), (Z.leb_spec end_ (ts r)), (Z.ltb_spec (ts r) end_); try lia; cbn in *; try discriminate; reflexivity.
Qed.

(** Reading a history that is already in range gives it back. *)
Lemma rows_again {T} (ts : T -> Z) start end_ h :
  ordered ts h -> (forall r, In r h -> in_interval start end_ (ts r) = true) ->
  rows_in_range ts start end_ h = h.
Proof.
  intros Ho Hi. rewrite in_range_interval by exact Ho. clear Ho.
  induction h as [|r h IH]; [reflexivity|]. cbn [filter]. rewrite Hi by (left; reflexivity).
  f_equal. apply IH. intros x Hx. apply Hi. right. exact Hx.
Qed.

Lemma ordered_map_iff {A B} (f : A -> B) (ts : B -> Z) l : ordered ts (map f l) <-> ordered (fun a => ts (f a)) l.
Proof.
  split.
  - intros H i j x y Hx Hy Hij. apply (H i j (f x) (f y)); auto; rewrite nth_error_map; [rewrite Hx|rewrite Hy]; reflexivity.
  - intros H i j x y Hx Hy Hij. rewrite nth_error_map in Hx, Hy.
    destruct (nth_error l i) as [a|] eqn:Ea; [|discriminate]. destruct (nth_error l j) as [b|] eqn:Eb; [|discriminate].
    injection Hx as <-. injection Hy as <-. apply (H i j); auto.
Qed.

Lemma valid_map_iff {A B} (f : A -> B) (ts : B -> Z) (ok : B -> Prop) l :
  valid_history ts ok (map f l) <-> valid_history (fun a => ts (f a)) (fun a => ok (f a)) l.
Proof.
  unfold valid_history. rewrite ordered_map_iff. split; intros [H1 H2]; (split; [exact H1|]).
  - intros r Hr. apply H2, in_map, Hr.
  - intros r Hr. apply in_map_iff in Hr as (a & <- & Ha). apply H2, Ha.
Qed.

Section Inputs.
  Context {lm : libm} {as_ : bool}.
  Local Notation I := (ieee lm as_).
  Context (env : environment) (sc : @scanner I).
  Local Open Scope Z_scope.

  (** Accepted histories of messages. *)
  Definition price_history (start end_ : Z) (h : list price_msg) : Prop :=
    valid_history pr_timestamp_sec price_ok (map (@price_of_msg lm as_) h)
    /\ (forall m, In m h -> in_interval start end_ (get_int (pm_timestamp m)) = true)
    /\ Forall price_message h.
  Definition tick_history (start end_ : Z) (h : list tick_msg) : Prop :=
    valid_history timestamp_sec ohlc_ok (map (@tick_of_msg lm as_) h)
    /\ (forall m, In m h -> in_interval start end_ (get_int (tm_timestamp m)) = true)
    /\ Forall tick_message h.

  Lemma scanned_int64 lines : int64_scanner sc -> forall vars, is_int64 (fst vars) ->
    Forall (fun v => is_int64 (fst v)) (scanned sc vars lines).
  Proof.
    intros Hs. induction lines as [|line lines IH]; intros vars Hv; cbn [scanned]; [constructor|].
    assert (K : is_int64 (fst (sscanf sc vars line))).
    { unfold sscanf. destruct (scan_int sc line) as [[t s]|] eqn:E; [|exact Hv]. exact (Hs _ _ _ E). }
    constructor; [exact K|]. apply IH, K.
  Qed.

  Lemma price_input_ok i start end_ h : real_files env -> int64_scanner sc ->
    read_price env sc i start end_ = Done (Some h) -> price_history start end_ h.
  Proof.
    intros Hf Hs H. unfold read_price in H. destruct (nonempty (price_csv i)).
    - injection H as H. unfold ReadPriceHistoryFromCsvFile in H.
      destruct (read_lines env (price_csv i)) as [lines|]; [|discriminate].
      destruct (ReadPriceHistoryFromCsv sc lines start end_) as [rows|] eqn:E; [|discriminate].
      injection H as <-. apply read_price_csv_spec in E as [E V]. split; [|split].
      + rewrite prices_of_msgs. exact V.
      + intros m Hm. apply in_map_iff in Hm as (r & <- & Hr). rewrite E in Hr. apply in_rows in Hr. apply Hr.
      + apply Forall_forall. intros m Hm. apply in_map_iff in Hm as (r & <- & Hr). apply price_msg_ok.
        rewrite E in Hr. apply in_rows in Hr as [Hr _]. apply in_map_iff in Hr as (v & <- & Hv).
        pose proof (scanned_int64 lines Hs (0, [fofZ 0; fofZ 0])) as K. rewrite Forall_forall in K.
        apply (K ltac:(cbn; unfold is_int64; lia) v Hv).
    - apply (read_file_some env PriceRecordType) in H as (b & ms & e & Hb & Hv & HR).
      apply (read_history_spec _ _ (fun m => price_ok (@price_of_msg lm as_ m))) in HR;
        [|intros m; apply (@price_valid_iff I (price_of_msg m))]. destruct HR as [E V]. split; [|split].
      + apply valid_map_iff. exact V.
      + intros m Hm. rewrite E in Hm. apply (in_rows (fun m => get_int (pm_timestamp m))) in Hm. apply Hm.
      + pose proof (read_vector_ok _ _ _ _ _ price_merge_ok (proj1 (Hf _ _ Hb)) Hv) as K.
        apply Forall_forall. intros m Hm. rewrite E in Hm. apply in_rows in Hm as [Hm _].
        rewrite Forall_forall in K. apply K, Hm.
  Qed.

  Lemma ohlc_input_ok i start end_ h : real_files env -> int64_scanner sc ->
    read_ohlc env sc i start end_ = Done (Some h) -> tick_history start end_ h.
  Proof.
    intros Hf Hs H. unfold read_ohlc in H. destruct (nonempty (ohlc_csv i)).
    - injection H as H. unfold ReadOhlcHistoryFromCsvFile in H.
      destruct (read_lines env (ohlc_csv i)) as [lines|]; [|discriminate].
      destruct (ReadOhlcHistoryFromCsv sc lines start end_) as [rows|] eqn:E; [|discriminate].
      injection H as <-. apply read_ohlc_csv_spec in E as [E V]. split; [|split].
      + rewrite ticks_of_msgs. exact V.
      + intros m Hm. apply in_map_iff in Hm as (r & <- & Hr). rewrite E in Hr. apply in_rows in Hr. apply Hr.
      + apply Forall_forall. intros m Hm. apply in_map_iff in Hm as (r & <- & Hr). apply tick_msg_ok.
        rewrite E in Hr. apply in_rows in Hr as [Hr _]. apply in_map_iff in Hr as (v & <- & Hv).
        pose proof (scanned_int64 lines Hs (0, [fofZ 0; fofZ 0; fofZ 0; fofZ 0; fofZ 0])) as K. rewrite Forall_forall in K.
        apply (K ltac:(cbn; unfold is_int64; lia) v Hv).
    - apply (read_file_some env OhlcTickType) in H as (b & ms & e & Hb & Hv & HR).
      apply (read_history_spec _ _ (fun m => ohlc_ok (@tick_of_msg lm as_ m))) in HR;
        [|intros m; apply (@ohlc_valid_iff I (tick_of_msg m))]. destruct HR as [E V]. split; [|split].
      + apply valid_map_iff. exact V.
      + intros m Hm. rewrite E in Hm. apply (in_rows (fun m => get_int (tm_timestamp m))) in Hm. apply Hm.
      + pose proof (read_vector_ok _ _ _ _ _ tick_merge_ok (proj1 (Hf _ _ Hb)) Hv) as K.
        apply Forall_forall. intros m Hm. rewrite E in Hm. apply in_rows in Hm as [Hm _].
        rewrite Forall_forall in K. apply K, Hm.
  Qed.

  (** Writing and reading accepted histories. *)
  Lemma price_history_read start end_ h : price_history start end_ h ->
    ReadDelimitedVector PriceRecordType (WriteDelimitedMessages PriceRecordType h) = Some (h, Ok).
  Proof.
    intros (_ & _ & H). apply read_vector.
    pose proof (contents_written _ _ price_codec h [] [] Ok) as C. rewrite !app_nil_r in C.
    apply C; [exact H|apply contents_eof; reflexivity].
  Qed.
  Lemma tick_history_read start end_ h : tick_history start end_ h ->
    ReadDelimitedVector OhlcTickType (WriteDelimitedMessages OhlcTickType h) = Some (h, Ok).
  Proof.
    intros (_ & _ & H). apply read_vector.
    pose proof (contents_written _ _ tick_codec h [] [] Ok) as C. rewrite !app_nil_r in C.
    apply C; [exact H|apply contents_eof; reflexivity].
  Qed.

  Lemma price_history_again start end_ h : price_history start end_ h ->
    ReadHistoryFromMessages (fun m => get_int (pm_timestamp m))
      (fun m => @valid_price_volume I (get_float (pm_price m)) (get_float (pm_volume m))) h start end_ = Some h.
  Proof.
    intros (V & Hi & _). apply (proj1 (valid_map_iff _ _ _ _)) in V.
    apply (read_history_spec _ _ (fun m => price_ok (@price_of_msg lm as_ m))); [intros m; apply (@price_valid_iff I (price_of_msg m))|].
    split; [|exact V]. symmetry. apply rows_again; [apply V|exact Hi].
  Qed.
  Lemma tick_history_again start end_ h : tick_history start end_ h ->
    ReadHistoryFromMessages (fun m => get_int (tm_timestamp m))
      (fun m => @valid_ohlc I (get_float (tm_open m)) (get_float (tm_high m)) (get_float (tm_low m))
                            (get_float (tm_close m)) (get_float (tm_volume m))) h start end_ = Some h.
  Proof.
    intros (V & Hi & _). apply (proj1 (valid_map_iff _ _ _ _)) in V.
    apply (read_history_spec _ _ (fun m => ohlc_ok (@tick_of_msg lm as_ m))); [intros m; apply (@ohlc_valid_iff I (tick_of_msg m))|].
    split; [|exact V]. symmetry. apply rows_again; [apply V|exact Hi].
  Qed.
End Inputs.

(** ** The OHLC history made from a price history *)
From Verif.Proofs Require Import SeriesProofs OrderLaws SeriesValid OutlierProofs ConvertProofs.

Section Converted.
  Context {lm : libm} {as_ : bool}.
  Local Notation I := (ieee lm as_).
  Local Open Scope Z_scope.

  Lemma first_selected dev (h : list (@price_record I)) mask :
    h <> [] -> (forall r, In r h -> price_ok r) -> right_mask dev h mask -> select mask h <> [].
  Proof.
    intros Hne Hok [HL HM]. destruct h as [|r h]; [contradiction|]. destruct mask as [|b mask]; [discriminate|].
    specialize (HM 0%nat r eq_refl). cbn in HM. injection HM as HM.
    destruct (Hok r (or_introl eq_refl)) as [O1 O2]. unfold bad_record in HM. rewrite O1, O2 in HM. cbn in HM. subst b.
    discriminate.
  Qed.

  Lemma converted p dev last_n (h : list (@price_record I)) :
    0 < p -> h <> [] -> valid_history pr_timestamp_sec price_ok h ->
    (forall r, In r h -> p <= pr_timestamp_sec r) -> (forall r, In r h -> is_int64 (pr_timestamp_sec r)) ->
    Z.of_nat (List.length h) < 2 ^ 63 ->
    exists ohlc, ConvertPriceHistoryToOhlcHistory dev last_n p h = Done ohlc /\ ohlc <> [] /\
      valid_history timestamp_sec ohlc_ok ohlc /\
      (forall i j t t', nth_error ohlc i = Some t -> nth_error ohlc j = Some t' -> (i < j)%nat -> timestamp_sec t < timestamp_sec t') /\
      (forall t, In t ohlc -> is_int64 (timestamp_sec t) /\ (p | timestamp_sec t) /\
         exists r r', In r h /\ In r' h /\ pr_timestamp_sec r - p < timestamp_sec t <= pr_timestamp_sec r').
  Proof.
    intros Hp Hne Hv Ht Hi Hl.
    destruct (convert_accepted (ieee_order lm as_) p Hp dev last_n h Hv Ht Hl) as (ohlc & H1 & H2 & mask & Hm & E).
    exists ohlc. split; [exact H1|].
    assert (Hsel : select mask h <> []) by (eapply first_selected; eauto; intros r Hr; apply Hv, Hr).
    assert (Hin : forall r, In r (select mask h) -> In r h) by (intros r; apply select_in).
    assert (Ho : ordered timestamp_sec (map price_tick (select mask h))).
    { apply ordered_map. apply select_ordered. apply Hv. }
    split; [|split; [|split]].
    - subst ohlc. unfold series. destruct (select mask h) as [|r q]; [contradiction|]. cbn [map grid].
      cbn [seq map]. discriminate.
    - apply (read_history_spec timestamp_sec _ ohlc_ok) in H2; [|apply ohlc_valid_iff]. apply H2.
    - intros i j t t' Hti Htj Hij. subst ohlc. apply (map_nth_error timestamp_sec) in Hti, Htj.
      rewrite (series_grid p) in Hti, Htj. exact (grid_increasing p Hp _ _ _ _ _ Hti Htj Hij).
    - intros t Hin'. subst ohlc. apply in_map_iff in Hin' as (b & <- & Hb). rewrite period_tick_ts.
      destruct (in_grid p Hp _ b Ho Hb) as (u & rest & E & Hle & Hup).
      assert (Hk : exists k, b = bucket_of p u + k * p).
      { rewrite E in Hb. unfold grid in Hb. apply in_map_iff in Hb as (i & <- & _). exists (Z.of_nat i). reflexivity. }
      destruct Hk as [k Hk].
      destruct (select mask h) as [|r q] eqn:Es; [contradiction|]. cbn [map] in E. injection E as Eu Er.
      assert (Hlast : exists r', In r' (r :: q) /\ b <= pr_timestamp_sec r').
      { exists (last (r :: q) r).
        assert (HL : In (last (r :: q) r) (r :: q)).
        { destruct (list_snoc q) as [->|(q' & x & ->)]; [left; reflexivity|].
          rewrite app_comm_cons, last_snoc. apply in_or_app. right. left. reflexivity. }
        split; [exact HL|].
        assert (EL : last (map price_tick (r :: q)) u = price_tick (last (r :: q) r)).
        { rewrite <- Eu. destruct (list_snoc q) as [->|(q' & x & ->)]; [reflexivity|].
          rewrite app_comm_cons, map_app. cbn [map]. rewrite !last_snoc. reflexivity. }
        rewrite EL in Hup. unfold bucket_of, bucket in Hup. cbn [timestamp_sec price_tick] in Hup.
        specialize (Ht _ (Hin _ HL)). rewrite Z.quot_div_nonneg in Hup by lia.
        pose proof (Z.mul_div_le (pr_timestamp_sec (last (r :: q) r)) p Hp). lia. }
      destruct Hlast as (r' & Hr' & Hb'). 
      assert (Hlo : pr_timestamp_sec r - p < bucket_of p u).
      { subst u. unfold bucket_of, bucket. cbn. specialize (Ht r (Hin r (or_introl eq_refl))).
        rewrite Z.quot_div_nonneg by lia. pose proof (Z.mul_succ_div_gt (pr_timestamp_sec r) p Hp). lia. }
      assert (Hr'h : In r' h) by (apply Hin, Hr').
      split; [|split].
      + pose proof (Hi r' Hr'h) as Hi'. pose proof (Ht r (Hin r (or_introl eq_refl))).
        unfold is_int64 in *. lia.
      + rewrite Hk. subst u. destruct (bucket_multiple p (pr_timestamp_sec r)) as [m Em].
        exists (m + k). unfold bucket_of. cbn. rewrite Em. lia.
      + exists r, r'. repeat split; [apply Hin; left; reflexivity|exact Hr'h|lia|lia].
  Qed.
End Converted.

(** ** Sizes *)
Section Sizes.
  Lemma contents_length T b ms st : contents T b ms st -> (List.length ms <= List.length b)%nat.
  Proof.
    induction 1 as [| |b m rest ms st E _ IH]; cbn [List.length]; [lia..|].
    pose proof (parse_shorter _ _ _ _ E). lia.
  Qed.

  Lemma vector_length T b ms st : ReadDelimitedVector T b = Some (ms, st) -> (List.length ms <= List.length b)%nat.
  Proof.
    intros H. destruct (contents_total T b) as (ms' & e & Hc). rewrite (read_vector T b ms' e Hc) in H.
    injection H as <- _. eapply contents_length; eauto.
  Qed.

  Lemma getlines_length s : (List.length (getlines s) <= String.length s)%nat.
  Proof.
    induction s as [|c s IH]; [reflexivity|]. cbn [getlines String.length].
    destruct (Ascii.eqb c _); [cbn; lia|]. destruct (getlines s); cbn in *; lia.
  Qed.

  Lemma string_of_bytes_length b : String.length (string_of_bytes b) = List.length b.
  Proof. induction b; cbn; congruence. Qed.

  Lemma filter_short {A} (f : A -> bool) l : (List.length (filter f l) <= List.length l)%nat.
  Proof. induction l as [|x l IH]; [reflexivity|]. cbn. destruct (f x); cbn; lia. Qed.

  Lemma rows_length {T} (ts : T -> Z) start end_ rows : (List.length (rows_in_range ts start end_ rows) <= List.length rows)%nat.
  Proof.
    unfold rows_in_range. eapply Nat.le_trans; [apply filter_short|].
    induction rows as [|r rows IH]; [reflexivity|]. cbn [until]. destruct (at_end _ _ _ r); cbn; lia.
  Qed.

  Context {lm : libm} {as_ : bool}.
  Local Notation I := (ieee lm as_).
  Context (env : environment) (sc : @scanner I).

  Lemma price_input_length i start end_ h : real_files env ->
    read_price env sc i start end_ = Done (Some h) -> (Z.of_nat (List.length h) < 2 ^ 63)%Z.
  Proof.
    intros Hf H. unfold read_price in H. destruct (nonempty (price_csv i)).
    - injection H as H. unfold ReadPriceHistoryFromCsvFile, read_lines in H.
      destruct (readable env (price_csv i)) as [b|] eqn:Eb; [|discriminate]. cbn [option_map] in H.
      destruct (ReadPriceHistoryFromCsv sc _ start end_) as [rows|] eqn:E; [|discriminate].
      injection H as <-. apply read_price_csv_spec in E as [E _]. rewrite map_length.
      pose proof (rows_length pr_timestamp_sec start end_ (map price_row (scanned sc (0%Z, [fofZ 0; fofZ 0]) (getlines (string_of_bytes b))))) as L.
      rewrite <- E, map_length, scanned_length in L. pose proof (getlines_length (string_of_bytes b)) as L2.
      rewrite string_of_bytes_length in L2. destruct (Hf _ _ Eb). lia.
    - apply (read_file_some env PriceRecordType) in H as (b & ms & e & Hb & Hv & HR).
      apply (read_history_spec _ _ (fun m => price_ok (@price_of_msg lm as_ m))) in HR;
        [|intros m; apply (@price_valid_iff I (price_of_msg m))]. destruct HR as [E _].
      pose proof (rows_length (fun m => get_int (pm_timestamp m)) start end_ ms) as L. rewrite E.
      pose proof (vector_length _ _ _ _ Hv). destruct (Hf _ _ Hb). cbn [msg PriceRecordType] in *. lia.
  Qed.
End Sizes.
