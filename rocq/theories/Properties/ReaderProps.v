(** C63, C64: the history readers of convert.  Any machine, any number scanner. *)
From Coq Require Import ZArith Bool String Ascii List Lia.
From Verif.Model Require Import Outcome Machine Types History Proto Convert SideInput.
From Verif.Spec Require Import SeriesSpec ReaderSpec HistorySpec SideInputSpec.
From Verif.Proofs Require Import Base SeriesProofs ReaderProofs.
Import ListNotations.
Local Open Scope Z_scope.

Section Props.
  Context {M : machine}.

  (** ** C63 Delimited files: the result is exactly the rows in range, and it is returned
      exactly when these are a valid history. *)
  Theorem C63_price_proto ms start end_ h :
    ReadPriceHistoryFromProto ms start end_ = Some h <->
    h = rows_in_range pr_timestamp_sec start end_ ms /\ valid_history pr_timestamp_sec price_ok h.
  Proof. apply read_history_spec. apply price_valid_iff. Qed.

  Theorem C63_ohlc_proto ms start end_ h :
    ReadOhlcHistoryFromProto ms start end_ = Some h <->
    h = rows_in_range timestamp_sec start end_ ms /\ valid_history timestamp_sec ohlc_ok h.
  Proof. apply read_history_spec. apply ohlc_valid_iff. Qed.

  (** On a time-ordered file the rows in range are the records in [start, end). *)
  Theorem C63_interval {T} (ts : T -> Z) start end_ rows :
    ordered ts rows -> rows_in_range ts start end_ rows = filter (fun r => in_interval start end_ (ts r)) rows.
  Proof. apply in_range_interval. Qed.

  (** In any case every returned record lies in the interval. *)
  Theorem C63_in_interval {T} (ts : T -> Z) start end_ rows r :
    In r (rows_in_range ts start end_ rows) -> In r rows /\ in_interval start end_ (ts r) = true.
  Proof.
    unfold rows_in_range. intros H. apply filter_In in H as [H1 H2].
    assert (K : In r rows /\ at_end ts start end_ r = false).
    { clear H2. induction rows as [|x rows IH]; [destruct H1|]. cbn [until] in H1.
      destruct (at_end ts start end_ x) eqn:E; [destruct H1|]. destruct H1 as [<-|H1]; [split; [left; reflexivity|exact E]|].
      destruct (IH H1). split; [right|]; assumption. }
    destruct K as [K1 K2]. split; [exact K1|]. unfold at_end, too_early, in_interval in *.
    apply negb_true_iff in H2. rewrite H2 in K2. cbn [negb andb] in K2.
    rewrite andb_false_iff, Z.ltb_ge, Z.ltb_ge in H2. rewrite andb_false_iff, Z.ltb_ge, Z.leb_gt in K2.
    apply andb_true_iff. rewrite !orb_true_iff, !Z.leb_le, Z.ltb_lt. tauto.
  Qed.

  (** ** CSV files. *)
  Context (sc : @scanner M).

  (** C63 and C64: there is one row per line; a line with all its numbers gives exactly
      these; the result consists of the rows in range and is valid. *)
  Theorem C64_price_csv lines :
    exists rows, length rows = length lines /\
      (forall i line t p v, nth_error lines i = Some line ->
         line_numbers sc 2 line = Some (t, [p; v]) -> nth_error rows i = Some (PriceRecord t p v)) /\
      forall start end_ h,
        ReadPriceHistoryFromCsv sc lines start end_ = Some h <->
        h = rows_in_range pr_timestamp_sec start end_ rows /\ valid_history pr_timestamp_sec price_ok h.
  Proof.
    exists (map price_row (scanned sc (0, [fofZ 0; fofZ 0]) lines)). split; [|split].
    - rewrite map_length, scanned_length. reflexivity.
    - intros i line t p v Hi Hn. erewrite map_nth_error; [|eapply scanned_own; eauto]. reflexivity.
    - intros start end_ h. apply read_price_csv_spec.
  Qed.

  Theorem C64_ohlc_csv lines :
    exists rows, length rows = length lines /\
      (forall i line t o h l c v, nth_error lines i = Some line ->
         line_numbers sc 5 line = Some (t, [o; h; l; c; v]) -> nth_error rows i = Some (OhlcTick t o h l c v)) /\
      forall start end_ hist,
        ReadOhlcHistoryFromCsv sc lines start end_ = Some hist <->
        hist = rows_in_range timestamp_sec start end_ rows /\ valid_history timestamp_sec ohlc_ok hist.
  Proof.
    exists (map ohlc_row (scanned sc (0, [fofZ 0; fofZ 0; fofZ 0; fofZ 0; fofZ 0]) lines)). split; [|split].
    - rewrite map_length, scanned_length. reflexivity.
    - intros i line t o h l c v Hi Hn. erewrite map_nth_error; [|eapply scanned_own; eauto]. reflexivity.
    - intros start end_ h. apply read_ohlc_csv_spec.
  Qed.

  (** A file whose lines all have their numbers is read as written. *)
  Theorem C64_price_csv_exact lines rows start end_ :
    map (line_numbers sc 2) lines = map Some (map (fun r => (pr_timestamp_sec r, [pr_price r; pr_volume r])) rows) ->
    valid_history pr_timestamp_sec price_ok rows ->
    ReadPriceHistoryFromCsv sc lines start end_ = Some (filter (fun r => in_interval start end_ (pr_timestamp_sec r)) rows).
  Proof.
    intros Hl [Ho Hv].
    assert (E : map price_row (scanned sc (0, [fofZ 0; fofZ 0]) lines) = rows).
    { rewrite (scanned_all sc (0, [fofZ 0; fofZ 0]) _ _ Hl), map_map. rewrite <- map_id. apply map_ext. intros [t p v]. reflexivity. }
    rewrite <- in_range_interval by exact Ho. apply read_price_csv_spec. rewrite E. split; [reflexivity|].
    rewrite in_range_interval by exact Ho. split.
    - clear - Ho. revert Ho. induction rows as [|r rows IH]; intros Ho; [exact Ho|].
      assert (Ho' : ordered pr_timestamp_sec rows) by (intros i j x y Hx Hy Hij; apply (Ho (S i) (S j)); auto; lia).
      cbn [filter]. destruct (in_interval start end_ (pr_timestamp_sec r)); [|apply IH; exact Ho'].
      intros i j x y Hx Hy Hij. destruct j as [|j]; [lia|]. destruct i as [|i]; cbn in Hx, Hy.
      + injection Hx as <-. apply nth_error_In in Hy. apply filter_In in Hy as [Hy _]. apply In_nth_error in Hy as [k Hk].
        apply (Ho 0%nat (S k)); auto. lia.
      + apply (IH Ho' i j); auto. lia.
    - intros r Hr. apply filter_In in Hr as [Hr _]. apply Hv. exact Hr.
  Qed.

  (** A line without any number is not rejected: it repeats the record of the line before. *)
  Theorem C64_malformed_line_refuted line bad t p v :
    line_numbers sc 2 line = Some (t, [p; v]) -> scan_int sc bad = None ->
    0 < t -> price_ok (PriceRecord t p v) ->
    ReadPriceHistoryFromCsv sc [line; bad] 0 0 = Some [PriceRecord t p v; PriceRecord t p v].
  Proof.
    intros Hl Hb Ht Hok. apply read_price_csv_spec.
    assert (E1 : sscanf sc (0, [fofZ 0; fofZ 0]) line = (t, [p; v])) by (apply sscanf_own; exact Hl).
    assert (E2 : sscanf sc (t, [p; v]) bad = (t, [p; v])) by (unfold sscanf; rewrite Hb; reflexivity).
    cbn [scanned map]. rewrite E1, E2. split; [reflexivity|]. split.
    - intros i j x y Hx Hy Hij. assert (x = PriceRecord t p v /\ y = PriceRecord t p v) as [-> ->]; [|reflexivity].
      destruct i as [|[|[|i]]], j as [|[|[|j]]]; cbn in Hx, Hy; try discriminate; split; congruence.
    - intros r [<-|[<-|[]]]; auto.
  Qed.

  (** ** C63 Side histories: accepted exactly when valid, and then good enough for the
      side input lookup. *)
  Theorem C63_side_csv lines start end_ h :
    consuming sc ->
    ReadSideHistoryFromCsv sc lines start end_ = Some h <->
    exists rows, side_rows sc start end_ lines rows /\
      h = filter (fun r => negb (too_early sr_timestamp_sec start r)) rows /\ valid_side_history h.
  Proof. intros Hc. apply read_side_csv_spec. exact Hc. Qed.

  Theorem C63_side_usable h :
    valid_side_history h -> h <> [] -> Z.of_nat (length h) < 2 ^ 31 -> good_side_history h.
  Proof. intros (H1 & H2 & H3) H4 H5. split; auto. intros r Hr. apply H1. exact Hr. Qed.
End Props.

(** ** The hypotheses are met: a scanner for one-digit numbers. *)
Section Example_.
  Context {M : machine}.
  Fixpoint skip_spaces (s : string) : string :=
    match s with String c s' => if Ascii.eqb c " " then skip_spaces s' else s | EmptyString => s end.
  Definition digit (s : string) : option (Z * string) :=
    match skip_spaces s with
    | String c s' => let n := Z.of_nat (nat_of_ascii c) - 48 in
                     if (0 <=? n) && (n <=? 9) then Some (n, s') else None
    | EmptyString => None
    end.
  Definition digits : @scanner M :=
    Scanner digit (fun s => match digit s with Some (n, s') => Some (fofZ n, s') | None => None end).

  Lemma digits_consuming : consuming digits.
  Proof.
    intros s x s' H. cbn in H. destruct (digit s) as [[n s1]|] eqn:E; [|discriminate]. injection H as _ <-.
    unfold digit in E. assert (K : (String.length (skip_spaces s) <= String.length s)%nat).
    { clear. induction s as [|c s IH]; [reflexivity|]. cbn. destruct (Ascii.eqb c " "); cbn; lia. }
    destruct (skip_spaces s) as [|c q]; [discriminate|]. destruct (_ && _); [|discriminate]. injection E as _ <-.
    cbn in K. lia.
  Qed.

  Lemma reader_hypotheses_met :
    line_numbers digits 2 "3,7,2" = Some (3, [fofZ 7; fofZ 2]) /\ scan_int digits "oops" = None /\
    side_rows digits 0 5 ["1,2,3"; "2,0,4"; "5,1,1"; "junk"]%string
      [SideRecord 1 [fofZ 2; fofZ 3]; SideRecord 2 [fofZ 0; fofZ 4]] /\
    valid_side_history [SideRecord 1 [fofZ 2; fofZ 3]; SideRecord 2 [fofZ 0; fofZ 4]].
  Proof.
    split; [reflexivity|]. split; [reflexivity|]. split.
    - apply side_rows_next.
      { eexists. split; [reflexivity|]. eapply numbers_more; [reflexivity|]. eapply numbers_more; [reflexivity|]. apply numbers_end. reflexivity. }
      { reflexivity. }
      apply side_rows_next.
      { eexists. split; [reflexivity|]. eapply numbers_more; [reflexivity|]. eapply numbers_more; [reflexivity|]. apply numbers_end. reflexivity. }
      { reflexivity. }
      apply (side_rows_stop _ _ _ _ _ (SideRecord 5 [fofZ 1; fofZ 1])); [|reflexivity].
      eexists. split; [reflexivity|]. eapply numbers_more; [reflexivity|]. eapply numbers_more; [reflexivity|]. apply numbers_end. reflexivity.
    - split; [|split].
      + intros r [<-|[<-|[]]]; cbn; lia.
      + intros [|[|[|i]]] [|[|[|j]]] r r' Hi Hj Hij; cbn in Hi, Hj; try discriminate; try lia.
        injection Hi as <-. injection Hj as <-. cbn. lia.
      + intros r r' [<-|[<-|[]]] [<-|[<-|[]]]; reflexivity.
  Qed.
End Example_.

Print Assumptions C64_price_csv.
Print Assumptions C63_side_csv.
Print Assumptions C63_price_proto.
