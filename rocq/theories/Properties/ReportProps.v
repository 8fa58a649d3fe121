(** C100: the readers' error messages name the first offending line or record. *)
From Coq Require Import ZArith Bool String Ascii Lia.
From Coq Require Import List.
From Flocq Require Import Core BinarySingleNaN.
From Verif.Model Require Import Outcome Machine Types History Traders Proto Convert MachineIEEE Files Programs Console.
From Verif.Spec Require Import LogSpec SeriesSpec ReaderSpec ProtoSpec ProgramSpec ConsoleSpec.
From Verif.Proofs Require Import Base LogProofs ReaderProofs ProtoProofs ProgramProofs ReportProofs.
From Verif.Properties Require ReaderProps.
Import ListNotations.
Local Open Scope Z_scope.

Lemma Forall2_same_length {A B} (P : A -> B -> Prop) l l' : Forall2 P l l' -> length l = length l'.
Proof. induction 1; cbn; congruence. Qed.

Section Csv.
  Context {M : machine} (sc : @scanner M).

  (** One row per line; a line with all its numbers gives exactly these (C64); the reader
      returns the rows in range if they are a valid history and otherwise complains about
      the first line that breaks a demand, naming its number, its text and that demand. *)
  Theorem C100_price_csv lines :
    exists rows, length rows = length lines /\
      (forall i line t p v, nth_error lines i = Some line ->
         line_numbers sc 2 line = Some (t, [p; v]) -> nth_error rows i = Some (PriceRecord t p v)) /\
      forall start end_,
        match ReportPriceCsv sc lines start end_ with
        | Loaded h => h = rows_in_range pr_timestamp_sec start end_ rows /\ valid_history pr_timestamp_sec price_ok h
        | Refused msg =>
          exists i line what, nth_error lines i = Some line
            /\ offends pr_timestamp_sec start end_ price_demands rows i what
            /\ names_line what i line msg
        end.
  Proof.
    exists (map price_row (scanned sc (0, [fofZ 0; fofZ 0]) lines)). split; [|split].
    - rewrite map_length, scanned_length. reflexivity.
    - intros i line t p v Hi Hn. erewrite map_nth_error; [|eapply scanned_own; eauto]. reflexivity.
    - intros start end_. destruct (ReportPriceCsv sc lines start end_) as [h|msg] eqn:E.
      + apply read_price_csv_spec. rewrite <- price_report_forget, E. reflexivity.
      + unfold ReportPriceCsv in E. rewrite price_report in E.
        destruct (judge _ _ start end_ _ 0 []) as [[b h]|[k what]] eqn:J; [discriminate|]. cbn [line_report] in E.
        injection E as <-.
        apply (judge_offends _ _ price_content price_bad_some price_bad_none) in J.
        destruct (nth_error lines k) as [line|] eqn:N.
        * exists k, line, what. split; [exact N|]. split; [exact J|].
          rewrite (nth_error_nth lines k EmptyString N). apply names_line_intro.
        * exfalso. destruct J as (r & Hr & _). apply nth_error_None in N.
          assert (nth_error (map price_row (scanned sc (0, [fofZ 0; fofZ 0]) lines)) k <> None) as L by congruence.
          apply nth_error_Some in L. rewrite map_length, scanned_length in L. lia.
  Qed.

  Theorem C100_ohlc_csv lines :
    exists rows, length rows = length lines /\
      (forall i line t o h l c v, nth_error lines i = Some line ->
         line_numbers sc 5 line = Some (t, [o; h; l; c; v]) -> nth_error rows i = Some (OhlcTick t o h l c v)) /\
      forall start end_,
        match ReportOhlcCsv sc lines start end_ with
        | Loaded h => h = rows_in_range timestamp_sec start end_ rows /\ valid_history timestamp_sec ohlc_ok h
        | Refused msg =>
          exists i line what, nth_error lines i = Some line
            /\ offends timestamp_sec start end_ ohlc_demands rows i what
            /\ names_line what i line msg
        end.
  Proof.
    exists (map ohlc_row (scanned sc (0, [fofZ 0; fofZ 0; fofZ 0; fofZ 0; fofZ 0]) lines)). split; [|split].
    - rewrite map_length, scanned_length. reflexivity.
    - intros i line t o h l c v Hi Hn. erewrite map_nth_error; [|eapply scanned_own; eauto]. reflexivity.
    - intros start end_. destruct (ReportOhlcCsv sc lines start end_) as [h|msg] eqn:E.
      + apply read_ohlc_csv_spec. rewrite <- ohlc_report_forget, E. reflexivity.
      + unfold ReportOhlcCsv in E. rewrite ohlc_report in E.
        destruct (judge _ _ start end_ _ 0 []) as [[b h]|[k what]] eqn:J; [discriminate|]. cbn [line_report] in E.
        injection E as <-.
        apply (judge_offends _ _ ohlc_content ohlc_bad_some ohlc_bad_none) in J.
        destruct (nth_error lines k) as [line|] eqn:N.
        * exists k, line, what. split; [exact N|]. split; [exact J|].
          rewrite (nth_error_nth lines k EmptyString N). apply names_line_intro.
        * exfalso. destruct J as (r & Hr & _). apply nth_error_None in N.
          assert (nth_error (map ohlc_row (scanned sc (0, [fofZ 0; fofZ 0; fofZ 0; fofZ 0; fofZ 0]) lines)) k <> None) as L by congruence.
          apply nth_error_Some in L. rewrite map_length, scanned_length in L. lia.
  Qed.

  (** Side histories; the message shows the line with spaces for the commas. *)
  Theorem C100_side_csv lines start end_ :
    consuming sc ->
    match ReportSideCsv sc lines start end_ with
    | Loaded h => exists rows, side_rows sc start end_ lines rows /\
        h = filter (fun r => negb (too_early sr_timestamp_sec start r)) rows /\ valid_side_history h
    | Refused msg =>
      exists i line rows, nth_error lines i = Some line
        /\ Forall2 (side_line sc) (firstn i lines) rows
        /\ (forall q, In q rows -> at_end sr_timestamp_sec start end_ q = false)
        /\ ((scan_int sc (replace_commas line) = None
             /\ (forall j q, nth_error (accepted sr_timestamp_sec start rows i) j = Some q ->
                 forall w, ~ first_broken q (side_demands (firstn j (accepted sr_timestamp_sec start rows i))) w)
             /\ names_line "Cannot parse the timestamp" i (replace_commas line) msg)
            \/ exists r what, side_line sc line r
                 /\ offends sr_timestamp_sec start end_ side_demands (rows ++ [r]) i what
                 /\ names_line what i (replace_commas line) msg)
    end.
  Proof.
    intros Hc. destruct (ReportSideCsv sc lines start end_) as [h|msg] eqn:E.
    - apply (read_side_csv_spec sc Hc). rewrite <- side_report_forget, E. reflexivity.
    - destruct (side_refused sc Hc start end_ lines 0 0 0%nat [] msg) as (i & line & rows & A & B & C & D & F).
      { left. auto. }
      { intros q []. }
      { intros j q Hj. destruct j; discriminate. }
      { exact E. }
      cbn [rev app] in D, F.
      assert (Li : length rows = i).
      { rewrite <- (Forall2_same_length _ _ _ B), firstn_length. assert (nth_error lines i <> None) as L by congruence.
        apply nth_error_Some in L. lia. }
      exists i, line, rows. split; [exact A|]. split; [exact B|]. split; [exact C|].
      assert (K : accepted sr_timestamp_sec start rows i = filter (fun r => negb (too_early sr_timestamp_sec start r)) rows)
        by (unfold accepted; rewrite firstn_all2 by lia; reflexivity).
      destruct F as [[F1 F2]|(r & what & F1 & F2 & F3 & F4 & F5)].
      + left. split; [exact F1|]. split; [rewrite K; exact D|]. rewrite F2. apply names_line_intro.
      + right. exists r, what. split; [exact F1|]. split; [|rewrite F5; apply names_line_intro].
        assert (K' : accepted sr_timestamp_sec start (rows ++ [r]) i = filter (fun r => negb (too_early sr_timestamp_sec start r)) rows).
        { unfold accepted. rewrite firstn_app, Li, Nat.sub_diag. cbn [firstn]. rewrite app_nil_r, firstn_all2 by lia. reflexivity. }
        exists r. split; [rewrite nth_error_app2, Li, Nat.sub_diag by lia; reflexivity|].
        split.
        { intros q Hq. rewrite firstn_app, Li, Nat.sub_diag in Hq. cbn [firstn] in Hq. rewrite app_nil_r, firstn_all2 in Hq by lia. auto. }
        split; [exact F2|]. split; [exact F3|]. rewrite K'. split; [exact D|exact F4].
  Qed.
End Csv.

(** ** Delimited files. *)
Section Proto.
  Context {lm : libm} {as_ : bool}.
  Local Notation I := (ieee lm as_).
  Context (env : environment) (seconds : nat -> string) (dbg : forall T : message_type, msg T -> string).

  (** The message about the i-th message of the file: its number among the accepted ones
      (from 0), its text, and the broken demand. *)
  Definition names_record (what : string) (accepted_before : nat) (text msg : string) : Prop :=
    exists n, number n = Some (Z.of_nat accepted_before) /\
      msg = if String.eqb what Invalid_timestamp
            then ("Invalid timestamp on the record " ++ n ++ ":" ++ line_end ++ text)%string
            else ("Invalid record " ++ n ++ ":" ++ line_end ++ text ++ line_end ++ what)%string.

  Lemma read_proto_gen (T : message_type) {R} (f : msg T -> R) (ts : R -> Z) bad content k file b ms st start end_ :
    (forall r what, bad r = Some what -> first_broken r content what) ->
    (forall r, bad r = None -> forall what, ~ first_broken r content what) ->
    (forall r what, bad r = Some what -> String.eqb what Invalid_timestamp = false) ->
    readable env file = Some b -> ReadDelimitedVector T b = Some (ms, st) ->
    exists log l, ReadProtoFile env seconds dbg T (fun m => ts (f m)) (fun m => bad (f m)) k file start end_ = Done (log, l)
      /\ match l with
         | Loaded h => exists kk, (kk <= length ms)%nat
             /\ h = filter (fun m => negb (too_early ts start (f m))) (firstn kk ms)
             /\ (forall j q, nth_error (map f h) j = Some q ->
                 forall w, ~ first_broken q (demands ts content (firstn j (map f h))) w)
             /\ (forall q, In q (firstn kk ms) -> at_end ts start end_ (f q) = false)
             /\ ((kk = length ms /\ st = Ok) \/ exists m, nth_error ms kk = Some m /\ at_end ts start end_ (f m) = true)
         | Refused msg =>
           (exists i m what, nth_error ms i = Some m
              /\ offends ts start end_ (demands ts content) (map f ms) i what
              /\ names_record what (length (accepted ts start (map f ms) i)) (dbg T m) msg)
           \/ (st = InvalidArgument
               /\ (forall m, In m ms -> at_end ts start end_ (f m) = false)
               /\ (forall j q, nth_error (accepted ts start (map f ms) (length ms)) j = Some q ->
                   forall w, ~ first_broken q (demands ts content (firstn j (accepted ts start (map f ms) (length ms)))) w)
               /\ msg = "Cannot parse the input stream"%string)
         end.
  Proof.
    intros Hb1 Hb2 Hb3 Hf Hv. unfold ReadProtoFile. rewrite Hf.
    destruct (contents_total T b) as (ms' & ending & Hc).
    pose proof (read_vector T b ms' ending Hc) as RV. rewrite Hv in RV. injection RV as <- <-.
    destruct (read_streamed T (reporting_reader (fun m => ts (f m)) (fun m => bad (f m)) (dbg T) start end_) b ms st Hc
                (S (List.length b)) (ReaderVars 0 0 [] "")) as (s' & st' & R0 & Hs); [lia|].
    unfold ReadDelimited. rewrite R0.
    assert (He : st = Ok \/ st = InvalidArgument) by (clear -Hc; induction Hc; auto).
    pose proof (streamed_judge (fun m => ts (f m)) (fun m => bad (f m)) (dbg T) start end_ st ms _ _ _ Hs eq_refl) as SJ.
    cbn [timestamp_sec_prev read_so_far rev length] in SJ.
    pose proof (judge_map f ts bad start end_ ms 0 []) as JM. cbn [map] in JM.
    assert (Facc : forall kk, accepted ts start (map f ms) kk = map f (accepted (fun m => ts (f m)) start ms kk)).
    { intros kk. unfold accepted. rewrite firstn_map. generalize (firstn kk ms). intros l.
      induction l as [|x l IH]; [reflexivity|]. cbn [map filter].
      change (too_early (fun m => ts (f m)) start x) with (too_early ts start (f x)).
      destruct (too_early ts start (f x)); cbn [negb map]; [exact IH|f_equal; exact IH]. }
    pose proof (judge_spec ts bad content Hb1 Hb2 start end_ (map f ms) 0 [] ltac:(intros q []) (or_introl eq_refl)
                  ltac:(intros j q Hj; destruct j; discriminate)) as SP.
    destruct (judge (fun m => ts (f m)) (fun m => bad (f m)) start end_ ms 0 []) as [[stopped h]|[i what]] eqn:J.
    - destruct SJ as [SJ1 SJ2]. subst h.
      rewrite JM in SP. destruct SP as (kk & L & P1 & P2 & P3 & P4). rewrite map_length in L.
      pose proof (judge_spec (fun m => ts (f m)) (fun m => bad (f m)) (map (fun c => (fst c, fun m => snd c (f m))) content)
        ) as SP'.
      assert (Hh : read_so_far s' = accepted (fun m => ts (f m)) start ms kk).
      { clear - J P2 P1 L.
        assert (G : forall ms prev acc stopped h, judge (fun m => ts (f m)) (fun m => bad (f m)) start end_ ms prev acc = inl (stopped, h) ->
          forall kk, (kk <= length ms)%nat -> (forall q, In q (firstn kk (map f ms)) -> at_end ts start end_ q = false) ->
          (if stopped then exists r, nth_error (map f ms) kk = Some r /\ at_end ts start end_ r = true else kk = length (map f ms)) ->
          h = rev acc ++ accepted (fun m => ts (f m)) start ms kk).
        { clear. induction ms as [|m ms IH]; intros prev acc stopped h J kk L P1 P2; cbn [judge] in J.
          - injection J as <- <-. destruct kk; [|cbn in L; lia]. unfold accepted. cbn. rewrite app_nil_r. reflexivity.
          - change ((start >? 0) && (ts (f m) <? start)) with ((start >? 0) && ((fun m => ts (f m)) m <? start)) in J.
            rewrite early_cond in J. destruct (too_early (fun m => ts (f m)) start m) eqn:Et.
            + destruct kk as [|kk].
              { destruct stopped; [|discriminate]. destruct P2 as (r & Hr & He). injection Hr as <-.
                rewrite (early_not_end ts start end_ (f m)) in He by exact Et. discriminate. }
              destruct (judge _ _ start end_ ms prev acc) as [[b0 h0]|[k0 w0]] eqn:J'; [|discriminate]. injection J as <- <-.
              unfold accepted. cbn [firstn filter]. rewrite Et. cbn [negb]. apply (IH _ _ _ _ J' kk); [cbn in L; lia| |].
              * intros q Hq. apply P1. right. exact Hq.
              * destruct b0; [exact P2|cbn in P2 |- *; congruence].
            + rewrite (end_cond (fun m => ts (f m)) start end_ m Et) in J.
              destruct (at_end (fun m => ts (f m)) start end_ m) eqn:Ea.
              { injection J as <- <-. destruct kk as [|kk].
                - unfold accepted. cbn [firstn filter]. rewrite app_nil_r. reflexivity.
                - specialize (P1 (f m) (or_introl eq_refl)). change (at_end ts start end_ (f m)) with (at_end (fun m => ts (f m)) start end_ m) in P1. congruence. }
              destruct (_ || _)%bool; [discriminate|]. destruct (bad (f m)); [discriminate|].
              destruct kk as [|kk].
              { destruct stopped; [|discriminate]. destruct P2 as (r & Hr & He). injection Hr as <-.
                change (at_end ts start end_ (f m)) with (at_end (fun m => ts (f m)) start end_ m) in He. congruence. }
              destruct (judge _ _ start end_ ms _ _) as [[b0 h0]|[k0 w0]] eqn:J'; [|discriminate]. injection J as <- <-.
              rewrite (IH _ _ _ _ J' kk); [|cbn in L; lia| |].
              * unfold accepted. cbn [firstn filter rev]. rewrite Et. cbn [negb]. rewrite <- app_assoc. reflexivity.
              * intros q Hq. apply P1. right. exact Hq.
              * destruct b0; [exact P2|cbn in P2 |- *; congruence]. }
        specialize (G _ _ _ _ _ J kk L P1 P2). exact G. }
      clear SP'.
      assert (Hfirst : forall q, In q (firstn kk ms) -> at_end ts start end_ (f q) = false).
      { intros q Hq. apply P1. rewrite firstn_map. apply in_map. exact Hq. }
      destruct stopped.
      + subst st'. do 2 eexists. split; [reflexivity|]. exists kk. split; [exact L|].
        split; [rewrite Hh; reflexivity|]. split; [rewrite Hh, <- Facc; cbn [rev app] in P3; rewrite <- P3; exact P4|].
        split; [exact Hfirst|]. right.
        destruct P2 as (r & Hr & Ha). destruct (nth_error ms kk) as [m|] eqn:N.
        * exists m. split; [reflexivity|]. rewrite (map_nth_error f _ _ N) in Hr. congruence.
        * exfalso. apply nth_error_None in N. assert (nth_error (map f ms) kk <> None) as X by congruence.
          apply nth_error_Some in X. rewrite map_length in X. lia.
      + rewrite map_length in P2. subst st'. destruct He as [->| ->].
        * do 2 eexists. split; [reflexivity|]. exists kk. split; [exact L|].
          split; [rewrite Hh; reflexivity|]. split; [rewrite Hh, <- Facc; cbn [rev app] in P3; rewrite <- P3; exact P4|].
          split; [exact Hfirst|]. left. auto.
        * do 2 eexists. split; [reflexivity|]. right. split; [reflexivity|].
          split. { intros m Hm. apply Hfirst. rewrite P2, firstn_all. exact Hm. }
          split; [|reflexivity]. cbn [rev app] in P3. rewrite <- P2, <- P3. exact P4.
    - destruct SJ as (m & vb & N & Hvb & -> & Hcm). do 2 eexists. split; [reflexivity|]. left.
      exists i, m, what. split; [exact N|].
      split; [apply (judge_offends ts bad content Hb1 Hb2); exact JM|].
      rewrite Hcm. cbn [Nat.add]. exists (fmt_d (Z.of_nat (length (accepted (fun m => ts (f m)) start ms i)))).
      split; [rewrite Facc, map_length; apply number_fmt_d|].
      unfold proto_message. destruct vb; cbn [is_validated] in Hvb.
      + rewrite (Hb3 _ _ Hvb). reflexivity.
      + subst what. reflexivity.
  Qed.

  Theorem C100_price_proto k file b ms st start end_ :
    readable env file = Some b -> ReadDelimitedVector PriceRecordType b = Some (ms, st) ->
    exists log l, ReadProtoFile env seconds dbg PriceRecordType (fun m => get_int (pm_timestamp m))
                    (@price_validator lm as_) k file start end_ = Done (log, l)
      /\ match l with
         | Loaded h => exists kk, (kk <= length ms)%nat
             /\ h = filter (fun m => negb (too_early (@pr_timestamp_sec I) start (price_of_msg m))) (firstn kk ms)
             /\ (forall j q, nth_error (map price_of_msg h) j = Some q ->
                 forall w, ~ first_broken q (price_demands (firstn j (map (@price_of_msg lm as_) h))) w)
             /\ (forall q, In q (firstn kk ms) -> at_end (@pr_timestamp_sec I) start end_ (price_of_msg q) = false)
             /\ ((kk = length ms /\ st = Ok)
                 \/ exists m, nth_error ms kk = Some m /\ at_end (@pr_timestamp_sec I) start end_ (price_of_msg m) = true)
         | Refused msg =>
           (exists i m what, nth_error ms i = Some m
              /\ offends (@pr_timestamp_sec I) start end_ price_demands (map price_of_msg ms) i what
              /\ names_record what (length (accepted (@pr_timestamp_sec I) start (map price_of_msg ms) i)) (dbg PriceRecordType m) msg)
           \/ (st = InvalidArgument
               /\ (forall m, In m ms -> at_end (@pr_timestamp_sec I) start end_ (price_of_msg m) = false)
               /\ (let a := accepted (@pr_timestamp_sec I) start (map price_of_msg ms) (length ms) in
                   forall j q, nth_error a j = Some q -> forall w, ~ first_broken q (price_demands (firstn j a)) w)
               /\ msg = "Cannot parse the input stream"%string)
         end.
  Proof.
    refine (read_proto_gen PriceRecordType (@price_of_msg lm as_) (@pr_timestamp_sec I) (@price_bad I) (@price_content I)
              k file b ms st start end_ price_bad_some price_bad_none _).
    intros r what. unfold price_bad, price_complaint.
    destruct (fleb _ _); [intros H; injection H as <-; reflexivity|].
    destruct (fltb _ _); [intros H; injection H as <-; reflexivity|discriminate].
  Qed.

  Theorem C100_ohlc_proto k file b ms st start end_ :
    readable env file = Some b -> ReadDelimitedVector OhlcTickType b = Some (ms, st) ->
    exists log l, ReadProtoFile env seconds dbg OhlcTickType (fun m => get_int (tm_timestamp m))
                    (@tick_validator lm as_) k file start end_ = Done (log, l)
      /\ match l with
         | Loaded h => exists kk, (kk <= length ms)%nat
             /\ h = filter (fun m => negb (too_early (@timestamp_sec I) start (tick_of_msg m))) (firstn kk ms)
             /\ (forall j q, nth_error (map tick_of_msg h) j = Some q ->
                 forall w, ~ first_broken q (ohlc_demands (firstn j (map (@tick_of_msg lm as_) h))) w)
             /\ (forall q, In q (firstn kk ms) -> at_end (@timestamp_sec I) start end_ (tick_of_msg q) = false)
             /\ ((kk = length ms /\ st = Ok)
                 \/ exists m, nth_error ms kk = Some m /\ at_end (@timestamp_sec I) start end_ (tick_of_msg m) = true)
         | Refused msg =>
           (exists i m what, nth_error ms i = Some m
              /\ offends (@timestamp_sec I) start end_ ohlc_demands (map tick_of_msg ms) i what
              /\ names_record what (length (accepted (@timestamp_sec I) start (map tick_of_msg ms) i)) (dbg OhlcTickType m) msg)
           \/ (st = InvalidArgument
               /\ (forall m, In m ms -> at_end (@timestamp_sec I) start end_ (tick_of_msg m) = false)
               /\ (let a := accepted (@timestamp_sec I) start (map tick_of_msg ms) (length ms) in
                   forall j q, nth_error a j = Some q -> forall w, ~ first_broken q (ohlc_demands (firstn j a)) w)
               /\ msg = "Cannot parse the input stream"%string)
         end.
  Proof.
    refine (read_proto_gen OhlcTickType (@tick_of_msg lm as_) (@timestamp_sec I) (@ohlc_bad I) (@ohlc_content I)
              k file b ms st start end_ ohlc_bad_some ohlc_bad_none _).
    intros r what. unfold ohlc_bad, ohlc_complaint.
    destruct (_ || _)%bool; [intros H; injection H as <-; reflexivity|].
    destruct (fltb _ _); [intros H; injection H as <-; reflexivity|discriminate].
  Qed.
End Proto.

(** ** Concrete messages. *)
Local Open Scope string_scope.
Definition any_libm : libm := Libm (fun x => x) (fun x => x) (fun x _ => x).
Definition complaint_of {A} (l : load A) : string := match l with Refused m => m | Loaded _ => "" end.

Lemma C100_ex :
  let I := ieee any_libm true in
  let sc := @ReaderProps.digits I in
  complaint_of (ReportPriceCsv sc ["1,5,1"; "4,5,1"; "3,5,1"] 2 9) = "Invalid timestamp on the line 3: 3,5,1"
  /\ complaint_of (ReportPriceCsv sc ["1,5,1"; "4,0,1"; "3,5,1"] 0 0) = "Invalid price on the line 2: 4,0,1"
  /\ complaint_of (ReportOhlcCsv sc ["1,5,6,4,5,1"; "4,5,4,4,5,1"] 0 0) = "Invalid OHLC prices on the line 2: 4,5,4,4,5,1"
  /\ complaint_of (ReportSideCsv sc ["1,5,6"; "2,5,6"; "3,5"] 0 0) = "Invalid number of signals on the line 3: 3 5"
  /\ complaint_of (ReportSideCsv sc ["1,5,6"; ",5,6"; "x"] 0 0) = "Invalid number of signals on the line 2:  5 6"
  /\ complaint_of (ReportSideCsv sc ["1,5,6"; "2,5,6"; "x"] 2 0) = "Cannot parse the timestamp on the line 3: x"
  /\ complaint_of (ReportSideCsv sc ["1,5,6"; "2,5,6"; "x"] 0 2) = "".
Proof. vm_compute. repeat split. Qed.

(** A file with the times 1, 3, 2 read from the time 2 on, and with a price of 0. *)
Definition ex_messages (price : Z) : list (msg PriceRecordType) :=
  let f x := Some (f32_bits (f32_of_Z x)) in
  [PriceMsg (Some 1%Z) (f 5%Z) (f 1%Z); PriceMsg (Some 3%Z) (f price) (f 1%Z); PriceMsg (Some 2%Z) (f 5%Z) (f 1%Z)].
Definition ex_proto_env (price : Z) : environment :=
  Environment (fun file => if String.eqb file "p" then Some (WriteDelimitedMessages PriceRecordType (ex_messages price)) else None)
              (fun _ => false).
Lemma C100_proto_ex :
  let read price start end_ :=
    omap (fun r => complaint_of (snd r))
      (ReadProtoFile (ex_proto_env price) (fun _ => "1") (fun _ _ => "record") PriceRecordType (fun m => get_int (pm_timestamp m))
         (@price_validator any_libm true) 0 "p" start end_) in
  read 5%Z 2%Z 9%Z = Done ("Invalid timestamp on the record 1:" ++ line_end ++ "record")
  /\ read 0%Z 1%Z 9%Z = Done ("Invalid record 1:" ++ line_end ++ "record" ++ line_end ++ "Invalid price")
  /\ read 5%Z 1%Z 3%Z = Done ""
  /\ readable (ex_proto_env 5) "p" <> None
  /\ ReadDelimitedVector PriceRecordType (WriteDelimitedMessages PriceRecordType (ex_messages 5)) = Some (ex_messages 5, Ok).
Proof. vm_compute. repeat split; discriminate. Qed.
