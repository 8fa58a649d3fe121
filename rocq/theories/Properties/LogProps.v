(** C65 - C67: the log files, printed durations and the flags of the converter. *)
From Coq Require Import ZArith Bool String Ascii Lia.
From Coq Require Import List.
From Flocq Require Import Core BinarySingleNaN.
From Verif.Model Require Import Outcome Machine Types Account SideInput Eval Traders CsvLogger Convert MachineIEEE.
From Verif.Spec Require Import SideInputSpec RunSpec SeriesSpec LogSpec.
From Verif.Proofs Require Import Base LogProofs.
From Verif.Properties Require Import RunProps.
Import ListNotations.
Local Open Scope string_scope.

(** ** C65: the lines of the log *)

(** The text logged for a line of the exchange log: one line feed, at its end, and the 14
    columns documented. *)
Definition line_columns {M : machine} {S} (x : log_line S) (line : string) : Prop :=
  match x with
  | TickLine t a =>
    exists tc ac oc, split comma line = (tc ++ ac ++ oc)%list
      /\ tick_columns t tc /\ account_columns a ac /\ no_order_columns oc
  | OrderLine t a o =>
    exists tc ac oc, split comma line = (tc ++ ac ++ oc)%list
      /\ tick_columns t tc /\ account_columns a ac /\ order_columns o oc
  | TraderLine _ => False
  end.

Section IEEE.
  Variables (lm : libm) (as_ : bool).
  Let I := ieee lm as_.

  Theorem C65_tick_line (t : @ohlc_tick I) (a : @account I) :
    exists line, @exchange_line I t a = text [line]
      /\ split line_feed (@exchange_line I t a) = [line; ""]
      /\ line_columns (@TickLine I unit t a) line
      /\ List.length (split comma line) = 14%nat.
  Proof.
    exists (join (@tick_cols I t ++ @account_cols I a ++ ["";"";"";"";""])).
    pose proof (tick_cols_chars lm as_ t) as Ht. pose proof (account_cols_chars lm as_ a) as Ha.
    assert (Hall : Forall (chars numeric) (@tick_cols I t ++ @account_cols I a ++ ["";"";"";"";""])).
    { repeat (apply Forall_app; split); try assumption. repeat constructor. }
    assert (E : split comma (join (@tick_cols I t ++ @account_cols I a ++ ["";"";"";"";""]))
                = (@tick_cols I t ++ @account_cols I a ++ ["";"";"";"";""])%list).
    { apply split_join; [discriminate|]. eapply Forall_impl; [|exact Hall]. apply numeric_free_comma. }
    assert (T : @exchange_line I t a = text [join (@tick_cols I t ++ @account_cols I a ++ ["";"";"";"";""])]).
    { rewrite exchange_line_join. reflexivity. }
    split; [exact T|]. split.
    { rewrite T, split_text; [reflexivity|]. constructor; [|constructor].
      apply join_free; [discriminate|]. eapply Forall_impl; [|exact Hall]. apply numeric_free_lf. }
    split.
    - eexists _, _, _. split; [exact E|]. split; [|split]; try reflexivity.
      eexists. split; [|reflexivity]. apply number_fmt_d.
    - rewrite E. reflexivity.
  Qed.

  Theorem C65_order_line (t : @ohlc_tick I) (a : @account I) (o : @order I) :
    exists line, @exchange_order_line I t a o = text [line]
      /\ split line_feed (@exchange_order_line I t a o) = [line; ""]
      /\ line_columns (@OrderLine I unit t a o) line
      /\ List.length (split comma line) = 14%nat.
  Proof.
    exists (join (@tick_cols I t ++ @account_cols I a ++ @order_cols I o)).
    pose proof (tick_cols_chars lm as_ t) as Ht. pose proof (account_cols_chars lm as_ a) as Ha.
    pose proof (order_cols_chars lm as_ o) as Ho.
    assert (Hall : Forall (chars numeric) (@tick_cols I t ++ @account_cols I a ++ @order_cols I o)).
    { repeat (apply Forall_app; split); assumption. }
    assert (E : split comma (join (@tick_cols I t ++ @account_cols I a ++ @order_cols I o))
                = (@tick_cols I t ++ @account_cols I a ++ @order_cols I o)%list).
    { apply split_join; [discriminate|]. eapply Forall_impl; [|exact Hall]. apply numeric_free_comma. }
    assert (T : @exchange_order_line I t a o = text [join (@tick_cols I t ++ @account_cols I a ++ @order_cols I o)]).
    { rewrite exchange_order_line_join. reflexivity. }
    split; [exact T|]. split.
    { rewrite T, split_text; [reflexivity|]. constructor; [|constructor].
      apply join_free; [discriminate|]. eapply Forall_impl; [|exact Hall]. apply numeric_free_lf. }
    split.
    - eexists _, _, _. split; [exact E|]. split; [|split]; try reflexivity.
      + eexists. split; [|reflexivity]. apply number_fmt_d.
      + apply order_cols_spec. reflexivity.
    - rewrite E. reflexivity.
  Qed.

  (** The two log files of a whole run: the exchange log (if there is one)
      consists of exactly one well-formed
      14-column line per tick and executed order of the story, in its order; the trader log of
      the states of the trader, one per update, each ended by a line feed. *)
  Definition is_exchange_line {S} (x : @log_line I S) : bool :=
    match x with TraderLine _ => false | _ => true end.
  Definition trader_states {S} (x : @log_line I S) : list S :=
    match x with TraderLine s => [s] | _ => [] end.

  Lemma csv_written (te : @trader_emitter I) lines : forall e t, exists elines,
      Forall2 line_columns (filter is_exchange_line lines) elines
      /\ Forall (fun line => List.length (split comma line) = 14%nat) elines
      /\ Forall (free line_feed) elines
      /\ write_lines (@csv_logger I) (te_show te) lines (e, t)
         = (option_map (fun e => e ++ text elines) e,
            option_map (fun t => t ++ text (map (te_show te) (flat_map trader_states lines))) t).
  Proof.
    induction lines as [|x lines IH]; intros e t.
      - exists []. repeat split; try constructor. cbn. destruct e, t; cbn; rewrite ?append_nil_s; reflexivity.
      - destruct x as [tk a|tk a o|st].
        + destruct (C65_tick_line tk a) as (line & T & S1 & C & L).
          destruct (IH (stream_write e (@exchange_line I tk a)) t) as (el & F & L2 & F2 & W).
          exists (line :: el). split; [|split; [|split]].
          * constructor; assumption.
          * constructor; assumption.
          * constructor; [|assumption]. rewrite T in S1. apply (text_one_free _ _ S1).
          * unfold write_lines in *. cbn [fold_left write_line].
            change (lg_tick (@csv_logger I) (e, t) tk a) with
              (stream_write e (@exchange_line I tk a), t).
            rewrite W. cbn [flat_map trader_states app].
            destruct e; cbn [option_map stream_write]; [rewrite append_assoc_s, T, <- text_app|]; reflexivity.
        + destruct (C65_order_line tk a o) as (line & T & S1 & C & L).
          destruct (IH (stream_write e (@exchange_order_line I tk a o)) t) as (el & F & L2 & F2 & W).
          exists (line :: el). split; [|split; [|split]].
          * constructor; assumption.
          * constructor; assumption.
          * constructor; [|assumption]. rewrite T in S1. apply (text_one_free _ _ S1).
          * unfold write_lines in *. cbn [fold_left write_line].
            change (lg_order (@csv_logger I) (e, t) tk a o) with
              (stream_write e (@exchange_order_line I tk a o), t).
            rewrite W. cbn [flat_map trader_states app].
            destruct e; cbn [option_map stream_write]; [rewrite append_assoc_s, T, <- text_app|]; reflexivity.
        + destruct (IH e (stream_write t (te_show te st ++ newline))) as (el & F & L2 & F2 & W).
          exists el. split; [|split; [|split]]; try assumption.
          unfold write_lines in *. cbn [fold_left write_line].
          change (lg_trader (@csv_logger I) (e, t) (te_show te st)) with
            (e, stream_write t (te_show te st ++ newline)).
          rewrite W. cbn [flat_map trader_states app map].
          destruct t; cbn [option_map stream_write]; [rewrite text_cons, !append_assoc_s|]; reflexivity.
  Qed.

  Theorem C65_log_files cfg h s fast (te : @trader_emitter I) ticks e0 t0 res (l' : csv_streams) :
    side_matches h s -> (h = None \/ time_ordered ticks) -> ticks <> [] ->
    run cfg s fast te (@csv_logger I) ticks (e0, t0) = Done (res, l') ->
    exists rows elines, story cfg h te ticks rows
      /\ Forall2 line_columns (filter is_exchange_line (story_log rows)) elines
      /\ Forall (fun line => List.length (split comma line) = 14%nat) elines
      /\ split line_feed (text elines) = (elines ++ [""])%list
      /\ fst l' = option_map (fun e => e ++ text elines) e0
      /\ snd l' = option_map (fun t => t ++ text (map (te_show te) (flat_map trader_states (story_log rows)))) t0.
  Proof.
    intros Hs Ho Hne H. destruct (C20_log cfg h s fast te (@csv_logger I) ticks _ res l' Hs Ho Hne H) as (rows & HS & -> & _).
    exists rows. clear H.
    destruct (csv_written te (story_log rows) e0 t0) as (el & F & L & F2 & W).
    exists el. rewrite W. split; [exact HS|]. split; [exact F|]. split; [exact L|].
    split; [apply split_text; exact F2|]. split; reflexivity.
  Qed.

  (** The lines of the trader log: 4 columns for a rebalancing trader, 6 for a stop trader. *)
  Theorem C65_rebalancing_line (st : @rebalancing_state I) :
    split line_feed (rebalancing_show st) = [rebalancing_show st]
    /\ exists ts, number ts = Some (rb_timestamp st)
       /\ split comma (rebalancing_show st)
          = [ts; f32_fmt3 (rb_base st); f32_fmt3 (rb_quote st); f32_fmt3 (rb_close st)].
  Proof.
    assert (E : rebalancing_show st
      = join [fmt_d (rb_timestamp st); f32_fmt3 (rb_base st); f32_fmt3 (rb_quote st); f32_fmt3 (rb_close st)])
      by reflexivity.
    assert (H : Forall (chars numeric)
      [fmt_d (rb_timestamp st); f32_fmt3 (rb_base st); f32_fmt3 (rb_quote st); f32_fmt3 (rb_close st)])
      by (repeat constructor; try apply fmt3_chars; apply fmt_d_chars).
    rewrite E. split.
    - apply split_free. apply join_free; [discriminate|]. eapply Forall_impl; [|exact H]. apply numeric_free_lf.
    - eexists. split; [apply number_fmt_d|]. apply split_join; [discriminate|].
      eapply Forall_impl; [|exact H]. apply numeric_free_comma.
  Qed.

  Theorem C65_stop_line (st : @stop_state I) :
    split line_feed (stop_show st) = [stop_show st]
    /\ exists ts, number ts = Some (sp_timestamp st)
       /\ split comma (stop_show st)
          = [ts; f32_fmt3 (sp_base st); f32_fmt3 (sp_quote st); f32_fmt3 (sp_close st);
             match sp_mode st with LONG => "LONG" | _ => "CASH" end; f32_fmt3 (stop_order_price st)].
  Proof.
    assert (E : stop_show st
      = join [fmt_d (sp_timestamp st); f32_fmt3 (sp_base st); f32_fmt3 (sp_quote st); f32_fmt3 (sp_close st);
              match sp_mode st with LONG => "LONG" | _ => "CASH" end; f32_fmt3 (stop_order_price st)])
      by (unfold stop_show; destruct (sp_mode st); reflexivity).
    assert (H : Forall (chars numeric)
      [fmt_d (sp_timestamp st); f32_fmt3 (sp_base st); f32_fmt3 (sp_quote st); f32_fmt3 (sp_close st);
       match sp_mode st with LONG => "LONG" | _ => "CASH" end; f32_fmt3 (stop_order_price st)]).
    { repeat constructor; try apply fmt3_chars; try apply fmt_d_chars.
      destruct (sp_mode st); cbn; unfold numeric, comma, line_feed; cbn; repeat split; discriminate. }
    rewrite E. split.
    - apply split_free. apply join_free; [discriminate|]. eapply Forall_impl; [|exact H]. apply numeric_free_lf.
    - eexists. split; [apply number_fmt_d|]. apply split_join; [discriminate|].
      eapply Forall_impl; [|exact H]. apply numeric_free_comma.
  Qed.
End IEEE.

(** A concrete line: a limit order for half a unit at 1000.25. *)
Lemma C65_ex (lm : libm) :
  @exchange_order_line (ieee lm true)
    (@OhlcTick (ieee lm true) 1483228800 (f32_of_Z 1000) (f32_of_Z 1001) (f32_of_Z 999) (f32_of_Z 1000) (f32_of_Z 7))
    (@Account (ieee lm true) (f32_of_Z 1) (f32_of_Z 0) (f32_of_Z 0) (f32_of_Z 0) (f32_of_Z 0) (f32_of_Z 0) (f32_of_Z 0))
    (@Order (ieee lm true) (Some LIMIT) (Some SELL) (@BaseAmount (ieee lm true) (Bdiv mode_NE (f32_of_Z 1) (f32_of_Z 2)))
           (Some (Bdiv mode_NE (f32_of_Z 4001) (f32_of_Z 4))))
  = "1483228800,1000.000,1001.000,999.000,1000.000,7.000,1.000,0.000,0.000,LIMIT,SELL,0.500,,1000.250"
    ++ newline.
Proof. vm_compute. reflexivity. Qed.

(** ** C66: durations *)

Theorem C66_duration (d : Z) : (0 <= d)%Z ->
  exists hs ms ss h m s,
    split ":" (DurationToString d) = [hs; ms; ss]
    /\ number hs = Some h /\ number ms = Some m /\ number ss = Some s
    /\ String.length ms = 2%nat /\ String.length ss = 2%nat
    /\ (0 <= h)%Z /\ (0 <= m < 60)%Z /\ (0 <= s < 60)%Z
    /\ (d = 3600 * h + 60 * m + s)%Z.
Proof.
  intros Hd. unfold DurationToString, duration_parts.
  rewrite !Z.quot_div_nonneg by lia.
  rewrite !Z.rem_mod_nonneg by (try lia; apply Z.div_pos; lia).
  pose proof (Z.mod_pos_bound (d / 60) 60 ltac:(lia)) as Hm.
  pose proof (Z.mod_pos_bound d 60 ltac:(lia)) as Hs.
  destruct (two_digits _ Hm) as (M1 & M2 & M3). destruct (two_digits _ Hs) as (S1 & S2 & S3).
  exists (fmt_d (d / 3600)), (fmt_02d ((d / 60) mod 60)), (fmt_02d (d mod 60)).
  exists (d / 3600)%Z, ((d / 60) mod 60)%Z, (d mod 60)%Z.
  split.
  { change (fmt_d (d / 3600) ++ ":" ++ fmt_02d ((d / 60) mod 60) ++ ":" ++ fmt_02d (d mod 60))
      with (fmt_d (d / 3600) ++ String ":" (fmt_02d ((d / 60) mod 60) ++ String ":" (fmt_02d (d mod 60)))).
    rewrite !split_app by (try assumption; apply numeric_free_colon, fmt_d_chars).
    rewrite split_free by assumption. reflexivity. }
  split; [apply number_fmt_d|]. repeat (split; [assumption || lia || (apply Z.div_pos; lia)|]).
  replace 3600%Z with (60 * 60)%Z by reflexivity. rewrite <- Z.div_div by lia.
  pose proof (Z.div_mod d 60 ltac:(lia)). pose proof (Z.div_mod (d / 60) 60 ltac:(lia)). lia.
Qed.

(** Two different durations are never printed alike. *)
Theorem C66_injective (d d' : Z) : (0 <= d)%Z -> (0 <= d')%Z ->
  DurationToString d = DurationToString d' -> d = d'.
Proof.
  intros H H' E.
  destruct (C66_duration d H) as (hs & ms & ss & h & m & s & Sp & N1 & N2 & N3 & _ & _ & _ & _ & _ & ->).
  destruct (C66_duration d' H') as (hs' & ms' & ss' & h' & m' & s' & Sp' & N1' & N2' & N3' & _ & _ & _ & _ & _ & ->).
  rewrite E in Sp. rewrite Sp in Sp'. injection Sp' as -> -> ->. congruence.
Qed.

Lemma C66_ex : DurationToString 90061 = "25:01:01". Proof. reflexivity. Qed.

(** ** C67: the input flags *)

Definition input_files (f : input_flags) : list string :=
  filter nonempty [price_csv f; price_proto f; ohlc_csv f; ohlc_proto f; side_csv f].

Theorem C67_one_input (f : input_flags) :
  check_input_flags f = true <-> List.length (input_files f) = 1%nat.
Proof.
  unfold check_input_flags, input_files. cbn [filter].
  destruct (nonempty (price_csv f)), (nonempty (price_proto f)), (nonempty (ohlc_csv f)),
    (nonempty (ohlc_proto f)), (nonempty (side_csv f)); cbn; split; (reflexivity || discriminate || lia).
Qed.
