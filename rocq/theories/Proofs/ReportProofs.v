(** The error messages of convert's readers. *)
From Coq Require Import ZArith Bool String Ascii Lia.
From Coq Require Import List.
From Verif.Model Require Import Outcome Machine Types History Traders Proto Convert Console.
From Verif.Spec Require Import LogSpec SeriesSpec ReaderSpec ProtoSpec ConsoleSpec.
From Verif.Proofs Require Import Base LogProofs ReaderProofs.
Import ListNotations.
Local Open Scope Z_scope.

Section Judge.
  Context {T : Type} (ts : T -> Z) (bad : T -> option string).

  (** [inl (stopped, history)] or [inr (index, complaint)]. *)
  Fixpoint judge (start end_ : Z) (rows : list T) (prev : Z) (acc : list T)
    : (bool * list T) + (nat * string) :=
    match rows with
    | [] => inl (false, rev acc)
    | r :: rows' =>
      let next x := match x with inr (k, what) => inr (S k, what) | inl h => inl h end in
      if (start >? 0) && (ts r <? start) then next (judge start end_ rows' prev acc)
      else if (end_ >? 0) && (ts r >=? end_) then inl (true, rev acc)
      else if (ts r <=? 0) || (ts r <? prev) then inr (0%nat, Invalid_timestamp)
      else match bad r with
           | Some what => inr (0%nat, what)
           | None => next (judge start end_ rows' (ts r) (r :: acc))
           end
    end.

  Lemma judge_loop start end_ rows : forall prev acc,
    option_map (@rev _) (row_loop ts (fun r => match bad r with None => true | Some _ => false end) start end_ rows prev acc)
    = match judge start end_ rows prev acc with inl (_, h) => Some h | inr _ => None end.
  Proof.
    induction rows as [|r rows IH]; intros prev acc; [reflexivity|]. cbn [row_loop judge].
    unfold row_action_of.
    destruct ((start >? 0) && (ts r <? start)).
    { rewrite IH. destruct (judge start end_ rows prev acc) as [[b h]|[k w]]; reflexivity. }
    destruct ((end_ >? 0) && (ts r >=? end_)); [reflexivity|].
    destruct ((ts r <=? 0) || (ts r <? prev)); [reflexivity|].
    destruct (bad r); [reflexivity|]. rewrite IH.
    destruct (judge start end_ rows (ts r) (r :: acc)) as [[b h]|[k w]]; reflexivity.
  Qed.

  Context (content : list (string * (T -> Prop))).
  Context (Hbad : forall r what, bad r = Some what -> first_broken r content what).
  Context (Hgood : forall r, bad r = None -> forall what, ~ first_broken r content what).
  Definition demands (a : list T) := (Invalid_timestamp, not_before ts a) :: content.

  (** All records of the list (oldest first) meet their demands. *)
  Definition all_meet (h : list T) : Prop :=
    forall j q, nth_error h j = Some q -> forall w, ~ first_broken q (demands (firstn j h)) w.

  Lemma meet_snoc h r : all_meet h -> (forall w, ~ first_broken r (demands h) w) -> all_meet (h ++ [r]).
  Proof.
    intros H Hr j q Hj w. destruct (Nat.lt_ge_cases j (length h)) as [L|L].
    - rewrite nth_error_app1 in Hj by exact L. rewrite firstn_app.
      replace (j - length h)%nat with 0%nat by lia. cbn [firstn]. rewrite app_nil_r. apply H. exact Hj.
    - rewrite nth_error_app2 in Hj by exact L. destruct (j - length h)%nat as [|k] eqn:E; [|destruct k; discriminate].
      injection Hj as <-. rewrite firstn_app, E. cbn [firstn]. rewrite app_nil_r, firstn_all2 by lia. apply Hr.
  Qed.

  Lemma early_cond start r : ((start >? 0) && (ts r <? start)) = too_early ts start r.
  Proof. unfold too_early. rewrite Z.gtb_ltb. reflexivity. Qed.
  Lemma end_cond start end_ r : too_early ts start r = false ->
    ((end_ >? 0) && (ts r >=? end_)) = at_end ts start end_ r.
  Proof. unfold at_end. intros ->. rewrite Z.gtb_ltb, Z.geb_leb. reflexivity. Qed.
  Lemma early_not_end start end_ r : too_early ts start r = true -> at_end ts start end_ r = false.
  Proof. unfold at_end. intros ->. reflexivity. Qed.

  Lemma judge_spec start end_ rows : forall prev acc,
    (forall q, In q acc -> ts q <= prev) -> (prev = 0 \/ exists q, In q acc /\ ts q = prev) ->
    all_meet (rev acc) ->
    match judge start end_ rows prev acc with
    | inr (k, what) =>
      exists r, nth_error rows k = Some r
        /\ (forall q, In q (firstn k rows) -> at_end ts start end_ q = false)
        /\ too_early ts start r = false /\ at_end ts start end_ r = false
        /\ let a := rev acc ++ accepted ts start rows k in
           all_meet a /\ first_broken r (demands a) what
    | inl (stopped, h) =>
      exists k, (k <= length rows)%nat
        /\ (forall q, In q (firstn k rows) -> at_end ts start end_ q = false)
        /\ (if stopped then exists r, nth_error rows k = Some r /\ at_end ts start end_ r = true else k = length rows)
        /\ h = rev acc ++ accepted ts start rows k /\ all_meet h
    end.
  Proof.
    induction rows as [|r rows IH]; intros prev acc H1 H2 H3; cbn [judge].
    - exists 0%nat. split; [cbn; lia|]. split; [intros q []|]. split; [reflexivity|].
      unfold accepted. cbn [firstn filter]. rewrite app_nil_r. auto.
    - rewrite early_cond. destruct (too_early ts start r) eqn:Et.
      { specialize (IH prev acc H1 H2 H3).
        assert (K : forall k, accepted ts start (r :: rows) (S k) = accepted ts start rows k).
        { intros k. unfold accepted. cbn [firstn filter]. rewrite Et. reflexivity. }
        destruct (judge start end_ rows prev acc) as [[b h]|[k what]].
        - destruct IH as (k & A & B & C & D). exists (S k). split; [cbn; lia|].
          split; [intros q [<-|Hq]; [apply early_not_end, Et|auto]|]. rewrite K. split; [|exact D].
          destruct b; [exact C|cbn; congruence].
        - destruct IH as (r' & A & B & C). exists r'. split; [exact A|].
          split; [intros q [<-|Hq]; [apply early_not_end, Et|auto]|]. rewrite K. exact C. }
      rewrite (end_cond start end_ r Et). destruct (at_end ts start end_ r) eqn:Ea.
      { exists 0%nat. split; [lia|]. split; [intros q []|]. split; [exists r; auto|].
        unfold accepted. cbn [firstn filter]. rewrite app_nil_r. auto. }
      assert (Hnb : forall b, (ts r <=? 0) || (ts r <? prev) = b ->
                    if b then ~ not_before ts (rev acc) r else not_before ts (rev acc) r).
      { intros [] E.
        - intros [G1 G2]. apply orb_true_iff in E. rewrite Z.leb_le, Z.ltb_lt in E.
          destruct H2 as [->|(q & Hq & Eq)]; [lia|]. specialize (G2 q (proj1 (in_rev _ _) Hq)). lia.
        - apply orb_false_iff in E. rewrite Z.leb_gt, Z.ltb_ge in E. split; [lia|].
          intros q Hq. apply in_rev in Hq. specialize (H1 q Hq). lia. }
      destruct ((ts r <=? 0) || (ts r <? prev)) eqn:Eb; specialize (Hnb _ eq_refl); cbn beta iota in Hnb.
      { exists r. split; [reflexivity|]. split; [intros q []|]. split; [exact Et|]. split; [exact Ea|].
        unfold accepted. cbn [firstn filter]. cbv zeta. rewrite app_nil_r. split; [exact H3|].
        apply broken_here. exact Hnb. }
      destruct (bad r) as [what|] eqn:Er.
      { exists r. split; [reflexivity|]. split; [intros q []|]. split; [exact Et|]. split; [exact Ea|].
        unfold accepted. cbn [firstn filter]. cbv zeta. rewrite app_nil_r. split; [exact H3|].
        apply broken_later; [exact Hnb|]. apply Hbad, Er. }
      assert (M : all_meet (rev (r :: acc))).
      { cbn [rev]. apply meet_snoc; [exact H3|]. intros w Hw. inversion Hw; subst; [contradiction|].
        eapply Hgood; eauto. }
      apply orb_false_iff in Eb. rewrite Z.leb_gt, Z.ltb_ge in Eb.
      specialize (IH (ts r) (r :: acc)
                     ltac:(intros q [<-|Hq]; [lia|specialize (H1 q Hq); lia])
                     ltac:(right; exists r; split; [left|]; reflexivity) M).
      assert (K : forall k, rev acc ++ accepted ts start (r :: rows) (S k) = rev (r :: acc) ++ accepted ts start rows k).
      { intros k. unfold accepted. cbn [firstn filter rev]. rewrite Et. cbn [negb]. rewrite <- app_assoc. reflexivity. }
      destruct (judge start end_ rows (ts r) (r :: acc)) as [[b h]|[k what]].
      + destruct IH as (k & A & B & C & D). exists (S k). split; [cbn; lia|].
        split; [intros q [<-|Hq]; [exact Ea|auto]|]. rewrite K. split; [|exact D].
        destruct b; [exact C|cbn; congruence].
      + destruct IH as (r' & A & B & C). exists r'. split; [exact A|].
        split; [intros q [<-|Hq]; [exact Ea|auto]|]. rewrite K. exact C.
  Qed.

  Lemma judge_offends start end_ rows k what :
    judge start end_ rows 0 [] = inr (k, what) -> offends ts start end_ demands rows k what.
  Proof.
    intros H. pose proof (judge_spec start end_ rows 0 [] ltac:(intros q []) (or_introl eq_refl)) as K.
    rewrite H in K. destruct K as (r & A & B & C & D & E & F).
    { intros j q Hj. destruct j; discriminate. }
    exists r. split; [exact A|]. split; [exact B|]. split; [exact C|]. split; [exact D|].
    cbn [rev app] in E, F. split; [exact E|exact F].
  Qed.
End Judge.

Lemma judge_map {A T} (f : A -> T) (ts : T -> Z) bad start end_ rows : forall prev acc,
  match judge (fun a => ts (f a)) (fun a => bad (f a)) start end_ rows prev acc with
  | inl (b, h) => judge ts bad start end_ (map f rows) prev (map f acc) = inl (b, map f h)
  | inr kw => judge ts bad start end_ (map f rows) prev (map f acc) = inr kw
  end.
Proof.
  induction rows as [|r rows IH]; intros prev acc; cbn [judge map].
  - rewrite map_rev. reflexivity.
  - destruct ((start >? 0) && (ts (f r) <? start)).
    { specialize (IH prev acc). destruct (judge _ _ start end_ rows prev acc) as [[b h]|[k w]]; rewrite IH; reflexivity. }
    destruct ((end_ >? 0) && (ts (f r) >=? end_)); [rewrite map_rev; reflexivity|].
    destruct ((ts (f r) <=? 0) || (ts (f r) <? prev)); [reflexivity|]. destruct (bad (f r)); [reflexivity|].
    specialize (IH (ts (f r)) (r :: acc)). cbn [map] in IH.
    destruct (judge _ _ start end_ rows (ts (f r)) (r :: acc)) as [[b h]|[k w]]; rewrite IH; reflexivity.
Qed.

Section Readers.
  Context {M : machine} (sc : @scanner M).

  Definition price_bad (r : price_record) : option string := price_complaint (pr_price r) (pr_volume r).
  Definition ohlc_bad (t : ohlc_tick) : option string :=
    ohlc_complaint (open t) (high t) (low t) (close t) (volume t).
  Definition price_content : list (string * (price_record -> Prop)) := tl (price_demands []).
  Definition ohlc_content : list (string * (ohlc_tick -> Prop)) := tl (ohlc_demands []).

  Lemma none_broken {T} (r : T) what : ~ first_broken r [] what.
  Proof. intros H. inversion H. Qed.

  Lemma price_bad_some r what : price_bad r = Some what -> first_broken r price_content what.
  Proof.
    unfold price_bad, price_complaint. cbn [price_content price_demands tl].
    destruct (fleb (pr_price r) (fofZ 0)) eqn:E1.
    { intros H. injection H as <-. apply broken_here. congruence. }
    destruct (fltb (pr_volume r) (fofZ 0)) eqn:E2; [|discriminate].
    intros H. injection H as <-. apply broken_later; [exact E1|]. apply broken_here. congruence.
  Qed.
  Lemma price_bad_none r : price_bad r = None -> forall what, ~ first_broken r price_content what.
  Proof.
    unfold price_bad, price_complaint. cbn [price_content price_demands tl].
    destruct (fleb (pr_price r) (fofZ 0)) eqn:E1; [discriminate|].
    destruct (fltb (pr_volume r) (fofZ 0)) eqn:E2; [discriminate|].
    intros _ what H. inversion H as [? ? ? N|? ? ? ? D H']; subst; [apply N; exact E1|].
    inversion H' as [? ? ? N|? ? ? ? D' H'']; subst; [apply N; exact E2|]. eapply none_broken; eauto.
  Qed.

  Lemma ohlc_prices_iff (t : ohlc_tick) :
    ((fleb (open t) (fofZ 0)) || (fleb (high t) (fofZ 0)) || (fleb (low t) (fofZ 0)) || (fleb (close t) (fofZ 0))
     || (fltb (open t) (low t)) || (fltb (high t) (low t)) || (fltb (close t) (low t))
     || (fltb (high t) (open t)) || (fltb (high t) (close t))) = false <->
    (fleb (open t) (fofZ 0) = false /\ fleb (high t) (fofZ 0) = false /\
        fleb (low t) (fofZ 0) = false /\ fleb (close t) (fofZ 0) = false /\
        fltb (open t) (low t) = false /\ fltb (high t) (low t) = false /\
        fltb (close t) (low t) = false /\ fltb (high t) (open t) = false /\
        fltb (high t) (close t) = false).
  Proof. rewrite !orb_false_iff. tauto. Qed.

  Lemma ohlc_bad_some r what : ohlc_bad r = Some what -> first_broken r ohlc_content what.
  Proof.
    unfold ohlc_bad, ohlc_complaint. cbn [ohlc_content ohlc_demands tl].
    pose proof (ohlc_prices_iff r) as K. destruct (_ || fltb (high r) (close r)) eqn:E1.
    { intros H. injection H as <-. apply broken_here. rewrite <- K. discriminate. }
    destruct (fltb (volume r) (fofZ 0)) eqn:E2; [|discriminate].
    intros H. injection H as <-. apply broken_later; [apply K; reflexivity|]. apply broken_here. congruence.
  Qed.
  Lemma ohlc_bad_none r : ohlc_bad r = None -> forall what, ~ first_broken r ohlc_content what.
  Proof.
    unfold ohlc_bad, ohlc_complaint. cbn [ohlc_content ohlc_demands tl].
    pose proof (ohlc_prices_iff r) as K. destruct (_ || fltb (high r) (close r)) eqn:E1; [discriminate|].
    destruct (fltb (volume r) (fofZ 0)) eqn:E2; [discriminate|].
    intros _ what H. inversion H as [? ? ? N|? ? ? ? D H']; subst; [apply N; apply K; reflexivity|].
    inversion H' as [? ? ? N|? ? ? ? D' H'']; subst; [apply N; exact E2|]. eapply none_broken; eauto.
  Qed.

  (** The CSV readers judge their rows. *)
  Definition line_report {T} (v : (bool * list T) + (nat * string)) (row : Z) (lines : list string) : load T :=
    match v with
    | inl (_, h) => Loaded h
    | inr (k, what) => Refused (on_the_line what (row + Z.of_nat k + 1) (nth k lines EmptyString))
    end.

  Lemma line_report_next {T} (v : (bool * list T) + (nat * string)) row line lines :
    line_report (match v with inr (k, what) => inr (S k, what) | inl h => inl h end) row (line :: lines)
    = line_report v (row + 1) lines.
  Proof.
    destruct v as [[b h]|[k w]]; [reflexivity|]. cbn [line_report nth]. do 2 f_equal. lia.
  Qed.

  Lemma price_report start end_ lines : forall row prev vars acc,
    price_csv_report sc start end_ lines row prev vars acc
    = line_report (judge pr_timestamp_sec price_bad start end_ (map price_row (scanned sc vars lines)) prev acc) row lines.
  Proof.
    induction lines as [|l lines IH]; intros row prev vars acc; [reflexivity|].
    cbn [price_csv_report scanned map judge]. cbv zeta. cbn [pr_timestamp_sec pr_price pr_volume price_row].
    set (v := sscanf sc vars l).
    destruct ((start >? 0) && (fst v <? start)); [rewrite line_report_next; apply IH|].
    destruct ((end_ >? 0) && (fst v >=? end_)); [reflexivity|].
    destruct ((fst v <=? 0) || (fst v <? prev)).
    { cbn [line_report nth]. do 2 f_equal. lia. }
    unfold price_bad, price_complaint. cbn [pr_price pr_volume price_row].
    destruct (fleb (nth 0 (snd v) (fofZ 0)) (fofZ 0)); [cbn [line_report nth]; do 2 f_equal; lia|].
    destruct (fltb (nth 1 (snd v) (fofZ 0)) (fofZ 0)); [cbn [line_report nth]; do 2 f_equal; lia|].
    rewrite line_report_next. apply IH.
  Qed.

  Lemma ohlc_report start end_ lines : forall row prev vars acc,
    ohlc_csv_report sc start end_ lines row prev vars acc
    = line_report (judge timestamp_sec ohlc_bad start end_ (map ohlc_row (scanned sc vars lines)) prev acc) row lines.
  Proof.
    induction lines as [|l lines IH]; intros row prev vars acc; [reflexivity|].
    cbn [ohlc_csv_report scanned map judge]. cbv zeta.
    set (v := sscanf sc vars l). unfold ohlc_bad, ohlc_complaint.
    cbn [timestamp_sec open high low close volume ohlc_row].
    destruct ((start >? 0) && (fst v <? start)); [rewrite line_report_next; apply IH|].
    destruct ((end_ >? 0) && (fst v >=? end_)); [reflexivity|].
    destruct ((fst v <=? 0) || (fst v <? prev)).
    { cbn [line_report nth]. do 2 f_equal. lia. }
    destruct (_ || fltb (nth 1 (snd v) (fofZ 0)) (nth 3 (snd v) (fofZ 0))); [cbn [line_report nth]; do 2 f_equal; lia|].
    destruct (fltb (nth 4 (snd v) (fofZ 0)) (fofZ 0)); [cbn [line_report nth]; do 2 f_equal; lia|].
    rewrite line_report_next. apply IH.
  Qed.

  Definition forget {A} (l : load A) : option (list A) :=
    match l with Loaded h => Some h | Refused _ => None end.

  Lemma forget_line_report {T} (v : (bool * list T) + (nat * string)) row lines :
    forget (line_report v row lines) = match v with inl (_, h) => Some h | inr _ => None end.
  Proof. destruct v as [[b h]|[k w]]; reflexivity. Qed.

  Lemma row_loop_ext {T} (ts : T -> Z) v1 v2 start end_ rows : (forall r, v1 r = v2 r) ->
    forall prev acc, row_loop ts v1 start end_ rows prev acc = row_loop ts v2 start end_ rows prev acc.
  Proof.
    intros E. induction rows as [|r rows IH]; intros prev acc; [reflexivity|]. cbn [row_loop].
    rewrite E. destruct (row_action_of _ _ _ _ _); auto.
  Qed.

  Lemma price_report_forget lines start end_ :
    forget (ReportPriceCsv sc lines start end_) = ReadPriceHistoryFromCsv sc lines start end_.
  Proof.
    unfold ReportPriceCsv, ReadPriceHistoryFromCsv. rewrite price_report, price_csv_rows, forget_line_report.
    rewrite <- judge_loop. f_equal. apply row_loop_ext. intros r. unfold price_bad, price_complaint, valid_price_volume.
    destruct (fleb (pr_price r) (fofZ 0)), (fltb (pr_volume r) (fofZ 0)); reflexivity.
  Qed.
  Lemma ohlc_report_forget lines start end_ :
    forget (ReportOhlcCsv sc lines start end_) = ReadOhlcHistoryFromCsv sc lines start end_.
  Proof.
    unfold ReportOhlcCsv, ReadOhlcHistoryFromCsv. rewrite ohlc_report, ohlc_csv_rows, forget_line_report.
    rewrite <- judge_loop. f_equal. apply row_loop_ext. intros r. unfold ohlc_bad, ohlc_complaint, valid_ohlc.
    destruct (_ || fltb (high r) (close r)), (fltb (volume r) (fofZ 0)); reflexivity.
  Qed.

  Lemma side_report_forget_loop start end_ lines : forall row prev n acc,
    forget (side_csv_report sc start end_ lines row prev n acc)
    = option_map (@rev _) (side_csv_loop sc start end_ lines prev n acc).
  Proof.
    induction lines as [|l lines IH]; intros row prev n acc; [reflexivity|].
    cbn [side_csv_report side_csv_loop]. cbv zeta.
    destruct (scan_int sc (replace_commas l)) as [[t s]|]; [|reflexivity].
    destruct ((start >? 0) && (t <? start)); [apply IH|].
    destruct ((end_ >? 0) && (t >=? end_)); [reflexivity|].
    destruct ((t <=? 0) || (t <=? prev)); [reflexivity|].
    destruct (_ || _)%bool; [reflexivity|]. apply IH.
  Qed.
  Lemma side_report_forget lines start end_ :
    forget (ReportSideCsv sc lines start end_) = ReadSideHistoryFromCsv sc lines start end_.
  Proof. apply side_report_forget_loop. Qed.

  Lemma names_line_intro what i line :
    names_line what i line (on_the_line what (0 + Z.of_nat i + 1) line).
  Proof.
    exists (fmt_d (Z.of_nat i + 1)). split; [apply number_fmt_d|]. unfold on_the_line. rewrite Z.add_0_l. reflexivity.
  Qed.
End Readers.

Section Side.
  Context {M : machine} (sc : @scanner M) (Hc : consuming sc).

  Definition side_meet (h : list side_record) : Prop :=
    forall j q, nth_error h j = Some q -> forall w, ~ first_broken q (side_demands (firstn j h)) w.

  Lemma side_meet_snoc h r : side_meet h -> (forall w, ~ first_broken r (side_demands h) w) -> side_meet (h ++ [r]).
  Proof.
    intros H Hr j q Hj w. destruct (Nat.lt_ge_cases j (length h)) as [L|L].
    - rewrite nth_error_app1 in Hj by exact L. rewrite firstn_app.
      replace (j - length h)%nat with 0%nat by lia. cbn [firstn]. rewrite app_nil_r. apply H. exact Hj.
    - rewrite nth_error_app2 in Hj by exact L. destruct (j - length h)%nat as [|k] eqn:E; [|destruct k; discriminate].
      injection Hj as <-. rewrite firstn_app, E. cbn [firstn]. rewrite app_nil_r, firstn_all2 by lia. apply Hr.
  Qed.

  Lemma side_refused start end_ lines : forall row prev n acc msg,
    (acc = [] /\ prev = 0 /\ n = 0%nat) \/
      ((exists q, In q acc /\ sr_timestamp_sec q = prev /\ length (sr_signal q) = n) /\ (0 < n)%nat) ->
    (forall q, In q acc -> sr_timestamp_sec q <= prev /\ length (sr_signal q) = n) ->
    side_meet (rev acc) ->
    side_csv_report sc start end_ lines row prev n acc = Refused msg ->
    exists i line rows, nth_error lines i = Some line
      /\ Forall2 (side_line sc) (firstn i lines) rows
      /\ (forall q, In q rows -> at_end sr_timestamp_sec start end_ q = false)
      /\ let a := rev acc ++ filter (fun r => negb (too_early sr_timestamp_sec start r)) rows in
         side_meet a
         /\ ((scan_int sc (replace_commas line) = None
              /\ msg = on_the_line "Cannot parse the timestamp" (row + Z.of_nat i + 1) (replace_commas line))
             \/ exists r what, side_line sc line r
                  /\ too_early sr_timestamp_sec start r = false /\ at_end sr_timestamp_sec start end_ r = false
                  /\ first_broken r (side_demands a) what
                  /\ msg = on_the_line what (row + Z.of_nat i + 1) (replace_commas line)).
  Proof.
    induction lines as [|l lines IH]; intros row prev n acc msg H1 H2 H3; cbn [side_csv_report]; [discriminate|]. cbv zeta.
    destruct (scan_int sc (replace_commas l)) as [[t s]|] eqn:Es.
    2:{ intros E. injection E as <-. exists 0%nat, l, []. split; [reflexivity|]. split; [constructor|]. split; [intros q []|].
        cbn [filter]. cbv zeta. rewrite app_nil_r. split; [exact H3|]. left. split; [exact Es|]. f_equal. lia. }
    set (r := SideRecord t (stream_floats sc (String.length s) s)).
    assert (Hl : side_line sc l r).
    { exists s. split; [exact Es|]. apply stream_numbers; [exact Hc|lia]. }
    change ((start >? 0) && (t <? start)) with ((start >? 0) && (sr_timestamp_sec r <? start)).
    change ((end_ >? 0) && (t >=? end_)) with ((end_ >? 0) && (sr_timestamp_sec r >=? end_)).
    change ((t <=? 0) || (t <=? prev)) with ((sr_timestamp_sec r <=? 0) || (sr_timestamp_sec r <=? prev)).
    rewrite early_cond. destruct (too_early sr_timestamp_sec start r) eqn:Et.
    { intros E. destruct (IH _ _ _ _ _ H1 H2 H3 E) as (i & line & rows & A & B & C & D). exists (S i), line, (r :: rows).
      split; [exact A|]. split; [constructor; assumption|].
      split; [intros q [<-|Hq]; [apply early_not_end, Et|auto]|].
      cbn [filter]. rewrite Et. cbn [negb]. cbv zeta in D |- *. destruct D as [D1 D2]. split; [exact D1|].
      replace (row + Z.of_nat (S i) + 1) with (row + 1 + Z.of_nat i + 1) by lia. exact D2. }
    rewrite (end_cond sr_timestamp_sec start end_ r Et). destruct (at_end sr_timestamp_sec start end_ r) eqn:Ea; [discriminate|].
    destruct ((sr_timestamp_sec r <=? 0) || (sr_timestamp_sec r <=? prev)) eqn:Eb.
    { intros E. injection E as <-. exists 0%nat, l, []. split; [reflexivity|]. split; [constructor|]. split; [intros q []|].
      cbn [filter]. cbv zeta. rewrite app_nil_r. split; [exact H3|]. right. exists r, Invalid_timestamp.
      split; [exact Hl|]. split; [exact Et|]. split; [exact Ea|]. split; [|unfold Invalid_timestamp; f_equal; lia].
      apply broken_here. intros [G1 G2]. apply orb_true_iff in Eb. rewrite !Z.leb_le in Eb.
      destruct H1 as [(-> & -> & ->)|[(q & Hq & Eq & _) _]]; [lia|]. specialize (G2 q (proj1 (in_rev _ _) Hq)). lia. }
    apply orb_false_iff in Eb. rewrite !Z.leb_gt in Eb.
    assert (Hafter : after_all sr_timestamp_sec (rev acc) r).
    { split; [lia|]. intros q Hq. apply in_rev in Hq. apply H2 in Hq. lia. }
    change (stream_floats sc (String.length s) s) with (sr_signal r).
    set (n' := if (n =? 0)%nat then length (sr_signal r) else n).
    destruct ((n' =? 0)%nat || negb (n' =? length (sr_signal r))%nat) eqn:En.
    { intros E. injection E as <-. exists 0%nat, l, []. split; [reflexivity|]. split; [constructor|]. split; [intros q []|].
      cbn [filter]. cbv zeta. rewrite app_nil_r. split; [exact H3|]. right. exists r. eexists.
      split; [exact Hl|]. split; [exact Et|]. split; [exact Ea|]. split; [|f_equal; lia].
      apply broken_later; [exact Hafter|]. apply broken_here. intros [G1 G2].
      apply orb_true_iff in En. rewrite negb_true_iff, Nat.eqb_eq, Nat.eqb_neq in En.
      destruct H1 as [(-> & -> & ->)|[(q & Hq & Eq & Eq') Hn]].
      - subst n'. cbn [Nat.eqb] in En. lia.
      - specialize (G2 q (proj1 (in_rev _ _) Hq)). subst n'. destruct (Nat.eqb_spec n 0); lia. }
    apply orb_false_iff in En. rewrite negb_false_iff, Nat.eqb_eq, Nat.eqb_neq in En. destruct En as [En1 En2].
    intros E.
    assert (Hn : forall q, In q acc -> length (sr_signal q) = length (sr_signal r)).
    { intros q Hq. destruct H1 as [(-> & _)|[_ Hn]]; [destruct Hq|]. apply H2 in Hq. subst n'.
      destruct (Nat.eqb_spec n 0); lia. }
    destruct (IH (row + 1) t n' (r :: acc) msg
                 ltac:(right; split; [exists r; split; [left; reflexivity|]; split; [reflexivity|lia]|lia])
                 ltac:(intros q [<-|Hq]; [change t with (sr_timestamp_sec r); lia|
                        pose proof (H2 q Hq); specialize (Hn q Hq); change t with (sr_timestamp_sec r); lia])
                 ltac:(cbn [rev]; apply side_meet_snoc; [exact H3|]; intros w Hw;
                       inversion Hw as [? ? ? N|? ? ? ? D H']; subst; [apply N; exact Hafter|];
                       inversion H' as [? ? ? N|? ? ? ? D' H'']; subst; [|eapply none_broken; eauto];
                       apply N; split; [lia|]; intros q Hq; apply Hn, in_rev, Hq) E)
      as (i & line & rows & A & B & C & D).
    exists (S i), line, (r :: rows).
    split; [exact A|]. split; [constructor; assumption|].
    split; [intros q [<-|Hq]; [exact Ea|auto]|].
    cbn [filter]. rewrite Et. cbn [negb]. cbn [rev] in D. rewrite <- app_assoc in D. cbn [app] in D.
    cbv zeta in D |- *. destruct D as [D1 D2]. split; [exact D1|].
    replace (row + Z.of_nat (S i) + 1) with (row + 1 + Z.of_nat i + 1) by lia. exact D2.
  Qed.
End Side.

(** The delimited reader judges the messages before the first damage. *)
Section ProtoReader.
  Context {T : Type} (ts : T -> Z) (validate : T -> option string) (dbg : T -> string).

  Definition proto_message (n : nat) (what : string) (validated : bool) (m : T) : string :=
    (if validated then "Invalid record " ++ fmt_d (Z.of_nat n) ++ ":" ++ newline ++ dbg m ++ newline ++ what
     else what ++ " on the record " ++ fmt_d (Z.of_nat n) ++ ":" ++ newline ++ dbg m)%string.

  (** The complaint is about the timestamp, or it is the validator's. *)
  Definition is_validated (m : T) (what : string) (b : bool) : Prop :=
    if b then validate m = Some what else what = Invalid_timestamp.

  Lemma streamed_judge start end_ ending ms : forall s s' st, streamed (reporting_reader ts validate dbg start end_) ending s ms s' st ->
    record_index s = Z.of_nat (length (read_so_far s)) ->
    match judge ts validate start end_ ms (timestamp_sec_prev s) (rev (read_so_far s)) with
    | inl (stopped, h) => read_so_far s' = h /\ st = if stopped then Ok else ending
    | inr (k, what) =>
      exists m b, nth_error ms k = Some m /\ is_validated m what b /\ st = Aborted
        /\ complaint s' = proto_message (length (read_so_far s) + length (accepted ts start ms k)) what b m
    end.
  Proof.
    induction ms as [|m ms IH]; intros s s' st Hs Hi; cbn [judge].
    - inversion Hs; subst. rewrite rev_involutive. auto.
    - assert (Skip : forall s1, (start >? 0) && (ts m <? start) = true -> reporting_reader ts validate dbg start end_ s m = (s1, kContinue) -> s1 = s).
      { intros s1 E H. unfold reporting_reader in H. rewrite E in H. congruence. }
      inversion Hs as [|? ? ? s1 ? ? Hr Hrest|? ? ? s1 Hr|? ? ? s1 Hr]; subst; unfold reporting_reader in Hr.
      + destruct ((start >? 0) && (ts m <? start)) eqn:E1.
        { injection Hr as <-. specialize (IH _ _ _ Hrest Hi).
          assert (K : forall k, accepted ts start (m :: ms) (S k) = accepted ts start ms k).
          { intros k. unfold accepted. cbn [firstn filter]. rewrite early_cond in E1. rewrite E1. reflexivity. }
          destruct (judge _ _ start end_ ms _ _) as [[b h]|[k what]]; [exact IH|].
          destruct IH as (m' & b & A & B & C & D). exists m', b. rewrite K. auto. }
        destruct ((end_ >? 0) && (ts m >=? end_)); [discriminate|].
        destruct ((ts m <=? 0) || (ts m <? timestamp_sec_prev s)); [discriminate|].
        destruct (validate m) as [what|] eqn:Ev; [discriminate|]. injection Hr as <-.
        specialize (IH _ _ _ Hrest). cbn [record_index timestamp_sec_prev read_so_far] in IH.
        rewrite app_length in IH. cbn [length] in IH. specialize (IH ltac:(lia)). rewrite rev_app_distr in IH. cbn [rev app] in IH.
        assert (K : forall k, length (accepted ts start (m :: ms) (S k)) = S (length (accepted ts start ms k))).
        { intros k. unfold accepted. cbn [firstn filter]. rewrite early_cond in E1. rewrite E1. reflexivity. }
        destruct (judge _ _ start end_ ms _ _) as [[b h]|[k what]]; [exact IH|].
        destruct IH as (m' & b & A & B & C & D). exists m', b. rewrite K. split; [exact A|]. split; [exact B|]. split; [exact C|].
        rewrite D. f_equal. lia.
      + destruct ((start >? 0) && (ts m <? start)); [discriminate|].
        destruct ((end_ >? 0) && (ts m >=? end_)).
        { injection Hr as <-. rewrite rev_involutive. auto. }
        destruct ((ts m <=? 0) || (ts m <? timestamp_sec_prev s)); [discriminate|].
        destruct (validate m); discriminate.
      + destruct ((start >? 0) && (ts m <? start)); [discriminate|].
        destruct ((end_ >? 0) && (ts m >=? end_)); [discriminate|].
        destruct ((ts m <=? 0) || (ts m <? timestamp_sec_prev s)).
        { injection Hr as <-. exists m, false. split; [reflexivity|]. split; [reflexivity|]. split; [reflexivity|].
          cbn [complaint proto_message]. unfold accepted. cbn [firstn filter length]. rewrite Nat.add_0_r, Hi. reflexivity. }
        destruct (validate m) as [what|] eqn:Ev; [|discriminate].
        injection Hr as <-. exists m, true. split; [reflexivity|]. split; [exact Ev|]. split; [reflexivity|].
        cbn [complaint proto_message]. unfold accepted. cbn [firstn filter length]. rewrite Nat.add_0_r, Hi. reflexivity.
  Qed.
End ProtoReader.
