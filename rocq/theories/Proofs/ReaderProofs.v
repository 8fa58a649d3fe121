(** The history readers of convert. *)
From Coq Require Import ZArith Bool String Ascii List Lia.
From Verif.Model Require Import Outcome Machine Types History Proto Convert.
From Verif.Spec Require Import SeriesSpec ReaderSpec HistorySpec SideInputSpec.
From Verif.Proofs Require Import Base SeriesProofs.
Import ListNotations.
Local Open Scope Z_scope.

Section Rows.
  Context {T : Type} (ts : T -> Z) (validb : T -> bool).

  Fixpoint row_loop (start end_ : Z) (rows : list T) (prev : Z) (acc : list T) : option (list T) :=
    match rows with
    | [] => Some acc
    | r :: rows' =>
      match row_action_of start end_ prev (ts r) (validb r) with
      | Skip => row_loop start end_ rows' prev acc
      | Stop => Some acc
      | Fail => None
      | Take => row_loop start end_ rows' (ts r) (r :: acc)
      end
    end.

  Lemma action_spec start end_ prev r :
    row_action_of start end_ prev (ts r) (validb r) =
    if too_early ts start r then Skip
    else if at_end ts start end_ r then Stop
    else if (0 <? ts r) && (prev <=? ts r) && validb r then Take else Fail.
  Proof.
    unfold row_action_of, at_end, too_early. rewrite !Z.gtb_ltb, Z.geb_leb.
    destruct ((0 <? start) && (ts r <? start)); [reflexivity|]. cbn [negb andb].
    destruct ((0 <? end_) && (end_ <=? ts r)); [reflexivity|].
    rewrite Z.leb_antisym, (Z.ltb_antisym prev (ts r)).
    destruct (0 <? ts r), (prev <=? ts r), (validb r); reflexivity.
  Qed.

  (** acc is newest first. *)
  Lemma row_loop_spec start end_ rows : forall prev acc,
    (forall r, In r acc -> ts r <= prev) ->
    forall h, row_loop start end_ rows prev acc = Some h <->
      exists h', h = rev h' ++ acc /\ h' = rows_in_range ts start end_ rows /\
        (forall r, In r h' -> 0 < ts r /\ validb r = true /\ prev <= ts r) /\ ordered ts h'.
  Proof.
    induction rows as [|r rows IH]; intros prev acc Ha h; cbn [row_loop].
    - split.
      + intros H. injection H as <-. exists []. split; [reflexivity|]. split; [reflexivity|]. split; [intros r []|].
        intros i j x y Hx. destruct i; discriminate.
      + intros (h' & -> & -> & _). reflexivity.
    - rewrite action_spec. unfold rows_in_range. cbn [until filter].
      assert (Eat : too_early ts start r = true -> at_end ts start end_ r = false) by (unfold at_end; intros ->; reflexivity).
      destruct (too_early ts start r) eqn:Et.
      { rewrite (Eat eq_refl). cbn [filter]. rewrite Et. cbn [negb]. apply IH; auto. }
      destruct (at_end ts start end_ r) eqn:Ee.
      { cbn [filter]. split.
        - intros H. injection H as <-. exists []. split; [reflexivity|]. split; [reflexivity|]. split; [intros x []|].
          intros i j x y Hx. destruct i; discriminate.
        - intros (h' & -> & -> & _). reflexivity. }
      cbn [filter]. rewrite Et. cbn [negb].
      destruct ((0 <? ts r) && (prev <=? ts r) && validb r) eqn:Ev.
      + rewrite !andb_true_iff, Z.ltb_lt, Z.leb_le in Ev. destruct Ev as [[V1 V2] V3].
        rewrite IH.
        * split.
          -- intros (h' & -> & Eh & Hv & Ho). exists (r :: h'). split; [cbn [rev]; rewrite <- app_assoc; reflexivity|].
             split; [f_equal; exact Eh|]. split.
             ++ intros x [<-|Hx]; [auto|]. specialize (Hv x Hx). intuition lia.
             ++ intros i j x y Hx Hy Hij. destruct j as [|j]; [lia|]. destruct i as [|i]; cbn in Hx, Hy.
                ** injection Hx as <-. apply Hv. eapply nth_error_In; eauto.
                ** apply (Ho i j); auto. lia.
          -- intros (h' & -> & -> & Hv & Ho). eexists. split; [cbn [rev]; rewrite <- app_assoc; reflexivity|].
             split; [reflexivity|]. split.
             ++ intros x Hx. specialize (Hv x (or_intror Hx)). split; [tauto|]. split; [tauto|].
                apply In_nth_error in Hx as [k Hk]. apply (Ho 0%nat (S k)); auto. lia.
             ++ intros i j x y Hx Hy Hij. apply (Ho (S i) (S j)); auto. lia.
        * intros x [<-|Hx]; [lia|]. specialize (Ha x Hx). lia.
      + split; [discriminate|]. intros (h' & _ & -> & Hv & _). exfalso.
        specialize (Hv r (or_introl eq_refl)).
        rewrite !andb_false_iff, Z.ltb_ge, Z.leb_gt in Ev. destruct Hv as (? & ? & ?).
        destruct Ev as [[?|?]|?]; [lia|lia|congruence].
  Qed.

  Theorem row_loop_top start end_ rows h (valid : T -> Prop) :
    (forall r, validb r = true <-> valid r) ->
    option_map (@rev _) (row_loop start end_ rows 0 []) = Some h <->
    h = rows_in_range ts start end_ rows /\ valid_history ts valid h.
  Proof.
    intros Hval.
    pose proof (row_loop_spec start end_ rows 0 [] ltac:(intros ? [])) as K.
    destruct (row_loop start end_ rows 0 []) as [h0|]; cbn [option_map].
    - specialize (K h0). destruct K as [K _]. destruct (K eq_refl) as (h' & E & E' & Hv & Ho).
      rewrite app_nil_r in E. subst h0. rewrite rev_involutive. split.
      + intros H. injection H as <-. split; [exact E'|]. split; [exact Ho|]. intros r Hr. specialize (Hv r Hr). rewrite <- Hval. tauto.
      + intros [-> _]. rewrite E'. reflexivity.
    - split; [discriminate|]. intros (E & Ho & Hv). exfalso. specialize (K (rev h)). destruct K as [_ K].
      assert (None = Some (rev h)); [|discriminate]. apply K. exists h. split; [rewrite app_nil_r; reflexivity|].
      split; [exact E|]. split; [|exact Ho]. intros r Hr. specialize (Hv r Hr). rewrite Hval. intuition lia.
  Qed.

  (** On an ordered file the rows in range are those in the interval. *)
  Lemma in_range_interval start end_ rows :
    ordered ts rows -> rows_in_range ts start end_ rows = filter (fun r => in_interval start end_ (ts r)) rows.
  Proof.
    unfold rows_in_range, in_interval. induction rows as [|r rows IH]; intros Ho; [reflexivity|].
    assert (Ho' : ordered ts rows) by (intros i j x y Hx Hy Hij; apply (Ho (S i) (S j)); auto; lia).
    assert (Hr : forall x, In x rows -> ts r <= ts x).
    { intros x Hx. apply In_nth_error in Hx as [k Hk]. apply (Ho 0%nat (S k)); auto. lia. }
    cbn [until filter]. destruct (at_end ts start end_ r) eqn:Ea.
    - cbn [filter]. unfold at_end, too_early in Ea. rewrite !andb_true_iff, negb_true_iff, Z.ltb_lt, Z.leb_le in Ea.
      destruct Ea as [[E1 E2] E3].
      assert (K : forall x, In x (r :: rows) -> ((start <=? 0) || (start <=? ts x)) && ((end_ <=? 0) || (ts x <? end_)) = false).
      { intros x Hx. assert (ts r <= ts x) by (destruct Hx as [<-|Hx]; [lia|auto]).
        apply andb_false_iff. right. apply orb_false_iff. split; [apply Z.leb_gt; lia|apply Z.ltb_ge; lia]. }
      rewrite (K r) by (left; reflexivity).
      assert (K' : forall x, In x rows -> ((start <=? 0) || (start <=? ts x)) && ((end_ <=? 0) || (ts x <? end_)) = false)
        by (intros; apply K; right; assumption).
      clear - K'. induction rows as [|x l IHl]; [reflexivity|]. cbn [filter]. rewrite (K' x) by (left; reflexivity).
      apply IHl. intros y Hy. apply K'. right. exact Hy.
    - cbn [filter]. rewrite IH by exact Ho'. unfold at_end in Ea.
      assert (E : negb (too_early ts start r) = ((start <=? 0) || (start <=? ts r)) && ((end_ <=? 0) || (ts r <? end_))).
      { unfold too_early in *. rewrite negb_andb in *. rewrite <- Z.leb_antisym in *. rewrite <- Z.leb_antisym in *.
        destruct ((start <=? 0) || (start <=? ts r)); [|reflexivity]. cbn [andb] in *.
        apply andb_false_iff in Ea. rewrite Z.ltb_ge, Z.leb_gt in Ea. symmetry. apply orb_true_iff.
        rewrite Z.leb_le, Z.ltb_lt. exact Ea. }
      rewrite E. reflexivity.
  Qed.
End Rows.

Section Readers.
  Context {M : machine}.

  Lemma price_valid_iff r : valid_price_volume (pr_price r) (pr_volume r) = true <-> price_ok r.
  Proof. unfold valid_price_volume, price_ok. rewrite andb_true_iff, !negb_true_iff. tauto. Qed.

  Lemma ohlc_valid_iff t : valid_ohlc (open t) (high t) (low t) (close t) (volume t) = true <-> ohlc_ok t.
  Proof.
    unfold valid_ohlc, ohlc_ok. rewrite andb_true_iff, !negb_true_iff, !orb_false_iff. tauto.
  Qed.

  (** ** Delimited messages. *)
  Lemma read_messages_loop {T} (ts : T -> Z) validb start end_ ms : forall prev h,
    (match read_messages (history_reader ts validb start end_) (prev, h) ms with
     | ((_, h'), Ok) => Some h' | _ => None end)
    = option_map (@rev _) (row_loop ts validb start end_ ms prev (rev h)).
  Proof.
    induction ms as [|m ms IH]; intros prev h; cbn [read_messages row_loop].
    - cbn [option_map]. rewrite rev_involutive. reflexivity.
    - unfold history_reader at 1. cbn [fst snd].
      destruct (row_action_of start end_ prev (ts m) (validb m)); cbn [option_map].
      + apply IH.
      + rewrite rev_involutive. reflexivity.
      + reflexivity.
      + rewrite IH, rev_app_distr. reflexivity.
  Qed.

  Theorem read_history_spec {T} (ts : T -> Z) validb (valid : T -> Prop) ms start end_ h :
    (forall r, validb r = true <-> valid r) ->
    ReadHistoryFromMessages ts validb ms start end_ = Some h <->
    h = rows_in_range ts start end_ ms /\ valid_history ts valid h.
  Proof.
    intros Hv. unfold ReadHistoryFromMessages. rewrite read_messages_loop. cbn [rev]. apply row_loop_top. exact Hv.
  Qed.

  (** ** CSV lines. *)
  Context (sc : @scanner M).

  (** The values of the variables after each line. *)
  Fixpoint scanned (vars : Z * list flt) (lines : list string) : list (Z * list flt) :=
    match lines with
    | [] => []
    | l :: lines' => let v := sscanf sc vars l in v :: scanned v lines'
    end.

  Definition price_row (v : Z * list flt) : price_record :=
    PriceRecord (fst v) (nth 0 (snd v) (fofZ 0)) (nth 1 (snd v) (fofZ 0)).
  Definition ohlc_row (v : Z * list flt) : ohlc_tick :=
    OhlcTick (fst v) (nth 0 (snd v) (fofZ 0)) (nth 1 (snd v) (fofZ 0)) (nth 2 (snd v) (fofZ 0))
             (nth 3 (snd v) (fofZ 0)) (nth 4 (snd v) (fofZ 0)).

  Lemma price_csv_rows start end_ lines : forall prev vars acc,
    price_csv_loop sc start end_ lines prev vars acc =
    row_loop pr_timestamp_sec (fun r => valid_price_volume (pr_price r) (pr_volume r)) start end_
             (map price_row (scanned vars lines)) prev acc.
  Proof.
    induction lines as [|l lines IH]; intros prev vars acc; [reflexivity|].
    cbn [price_csv_loop scanned map row_loop]. cbn [pr_timestamp_sec pr_price pr_volume price_row].
    destruct (row_action_of start end_ prev _ _); auto.
  Qed.

  Lemma ohlc_csv_rows start end_ lines : forall prev vars acc,
    ohlc_csv_loop sc start end_ lines prev vars acc =
    row_loop timestamp_sec (fun t => valid_ohlc (open t) (high t) (low t) (close t) (volume t)) start end_
             (map ohlc_row (scanned vars lines)) prev acc.
  Proof.
    induction lines as [|l lines IH]; intros prev vars acc; [reflexivity|].
    cbn [ohlc_csv_loop scanned map row_loop]. cbn [timestamp_sec open high low close volume ohlc_row].
    destruct (row_action_of start end_ prev _ _); auto.
  Qed.

  Theorem read_price_csv_spec lines start end_ h :
    ReadPriceHistoryFromCsv sc lines start end_ = Some h <->
    h = rows_in_range pr_timestamp_sec start end_ (map price_row (scanned (0, [fofZ 0; fofZ 0]) lines)) /\
    valid_history pr_timestamp_sec price_ok h.
  Proof. unfold ReadPriceHistoryFromCsv. rewrite price_csv_rows. apply row_loop_top. apply price_valid_iff. Qed.

  (** *** Own line. *)
  Lemma scan_floats_own vars s xs : comma_numbers sc (length vars) s = Some xs -> scan_floats sc vars s = xs.
  Proof.
    revert s xs. induction vars as [|v vars IH]; intros s xs H; cbn [comma_numbers scan_floats length] in *.
    - injection H as <-. reflexivity.
    - unfold scan_comma. destruct s as [|c s]; [discriminate|]. destruct (Ascii.eqb c ","); [|discriminate].
      destruct (scan_float sc s) as [[x s']|]; [|discriminate].
      destruct (comma_numbers sc (length vars) s') as [ys|] eqn:E; [|discriminate]. injection H as <-.
      f_equal. apply IH. exact E.
  Qed.

  Lemma scan_floats_length vars s : length (scan_floats sc vars s) = length vars.
  Proof.
    revert s. induction vars as [|v vars IH]; intros s; [reflexivity|]. cbn [scan_floats].
    destruct (scan_comma s); [|reflexivity]. destruct (scan_float sc s0) as [[x s']|]; [|reflexivity].
    cbn [length]. f_equal. apply IH.
  Qed.

  Lemma sscanf_length vars line : length (snd (sscanf sc vars line)) = length (snd vars).
  Proof. unfold sscanf. destruct (scan_int sc line) as [[t s]|]; [|reflexivity]. cbn. apply scan_floats_length. Qed.

  Lemma sscanf_own vars line row : line_numbers sc (length (snd vars)) line = Some row -> sscanf sc vars line = row.
  Proof.
    unfold line_numbers, sscanf. destruct (scan_int sc line) as [[t s]|]; [|discriminate].
    destruct (comma_numbers sc (length (snd vars)) s) as [xs|] eqn:E; [|discriminate]. intros H. injection H as <-.
    f_equal. apply scan_floats_own. exact E.
  Qed.

  Lemma scanned_length vars lines : length (scanned vars lines) = length lines.
  Proof. revert vars. induction lines as [|l lines IH]; intros vars; [reflexivity|]. cbn. f_equal. apply IH. Qed.

  Lemma scanned_own vars lines i line row :
    nth_error lines i = Some line -> line_numbers sc (length (snd vars)) line = Some row ->
    nth_error (scanned vars lines) i = Some row.
  Proof.
    revert vars i. induction lines as [|l lines IH]; intros vars i Hi Hr; [destruct i; discriminate|].
    cbn [scanned]. destruct i as [|i]; cbn [nth_error] in *.
    - injection Hi as ->. f_equal. apply sscanf_own. exact Hr.
    - apply IH; [exact Hi|]. rewrite sscanf_length. exact Hr.
  Qed.

  Lemma scanned_all vars lines rows :
    map (line_numbers sc (length (snd vars))) lines = map Some rows -> scanned vars lines = rows.
  Proof.
    revert vars rows. induction lines as [|l lines IH]; intros vars [|row rows] H; try discriminate; [reflexivity|].
    cbn [map] in H. injection H as H1 H2. cbn [scanned]. rewrite (sscanf_own _ _ _ H1). f_equal. apply IH.
    rewrite <- H2. apply sscanf_own in H1. rewrite <- H1 at 1. rewrite sscanf_length. reflexivity.
  Qed.

  Theorem read_ohlc_csv_spec lines start end_ h :
    ReadOhlcHistoryFromCsv sc lines start end_ = Some h <->
    h = rows_in_range timestamp_sec start end_
          (map ohlc_row (scanned (0, [fofZ 0; fofZ 0; fofZ 0; fofZ 0; fofZ 0]) lines)) /\
    valid_history timestamp_sec ohlc_ok h.
  Proof. unfold ReadOhlcHistoryFromCsv. rewrite ohlc_csv_rows. apply row_loop_top. apply ohlc_valid_iff. Qed.
End Readers.

Section Side.
  Context {M : machine} (sc : @scanner M) (Hc : consuming sc).

  Lemma stream_numbers fuel s : (String.length s <= fuel)%nat -> numbers sc s (stream_floats sc fuel s).
  Proof.
    revert s. induction fuel as [|fuel IH]; intros s Hs.
    - cbn. apply numbers_end. destruct (scan_float sc s) as [[x s']|] eqn:E; [|reflexivity]. apply Hc in E. lia.
    - cbn [stream_floats]. destruct (scan_float sc s) as [[x s']|] eqn:E.
      + eapply numbers_more; [exact E|]. apply IH. apply Hc in E. lia.
      + apply numbers_end. exact E.
  Qed.

  Lemma numbers_unique s xs ys : numbers sc s xs -> numbers sc s ys -> xs = ys.
  Proof.
    intros H. revert ys. induction H as [s H|s x s' xs H H0 IH]; intros ys Hy; inversion Hy; subst; try congruence.
    rewrite H in H1. injection H1 as <- <-. f_equal. apply IH. exact H2.
  Qed.

  Lemma side_line_unique line r r' : side_line sc line r -> side_line sc line r' -> r = r'.
  Proof.
    intros (s & H1 & H2) (s' & H1' & H2'). rewrite H1 in H1'. injection H1' as E1 <-.
    pose proof (numbers_unique _ _ _ H2 H2'). destruct r, r'; cbn in *; congruence.
  Qed.

  (** The rest of the history after a row with timestamp prev, given n signals (0: none yet). *)
  Fixpoint side_good (prev : Z) (n : nat) (h : list side_record) : Prop :=
    match h with
    | [] => True
    | r :: h' =>
      0 < sr_timestamp_sec r /\ prev < sr_timestamp_sec r /\ (0 < List.length (sr_signal r))%nat /\
      (n = 0%nat \/ n = List.length (sr_signal r)) /\
      side_good (sr_timestamp_sec r) (List.length (sr_signal r)) h'
    end.

  Lemma side_loop_spec start end_ lines : forall prev n acc h,
    side_csv_loop sc start end_ lines prev n acc = Some h <->
    exists rows h', side_rows sc start end_ lines rows /\
      h' = filter (fun r => negb (too_early sr_timestamp_sec start r)) rows /\
      h = rev h' ++ acc /\ side_good prev n h'.
  Proof.
    induction lines as [|line lines IH]; intros prev n acc h; cbn [side_csv_loop].
    - split.
      + intros H. injection H as <-. exists [], []. repeat split. constructor.
      + intros (rows & h' & Hr & -> & -> & _). inversion Hr; subst. reflexivity.
    - destruct (scan_int sc (replace_commas line)) as [[ts s]|] eqn:Es.
      2:{ split; [discriminate|]. intros (rows & h' & Hr & _). exfalso.
          inversion Hr as [|? ? r (s & Hs & _)|? ? r rows' (s & Hs & _)]; subst; congruence. }
      set (r0 := SideRecord ts (stream_floats sc (String.length s) s)).
      assert (Hl : side_line sc line r0).
      { exists s. split; [exact Es|]. apply stream_numbers. lia. }
      assert (Erow : forall rows, side_rows sc start end_ (line :: lines) rows <->
                (at_end sr_timestamp_sec start end_ r0 = true /\ rows = []) \/
                (at_end sr_timestamp_sec start end_ r0 = false /\ exists rows', rows = r0 :: rows' /\ side_rows sc start end_ lines rows')).
      { intros rows. split.
        - intros H. inversion H as [|? ? r Hr He|? ? r rows' Hr He Hs]; subst.
          + left. rewrite (side_line_unique _ _ _ Hl Hr). auto.
          + right. rewrite (side_line_unique _ _ _ Hl Hr). split; [exact He|]. exists rows'. auto.
        - intros [[He ->]|[He (rows' & -> & Hs)]]; [eapply side_rows_stop; eauto|eapply side_rows_next; eauto]. }
      assert (Ete : ((start >? 0) && (ts <? start)) = too_early sr_timestamp_sec start r0)
        by (unfold too_early; rewrite Z.gtb_ltb; reflexivity).
      assert (Eat : too_early sr_timestamp_sec start r0 = false -> ((end_ >? 0) && (ts >=? end_)) = at_end sr_timestamp_sec start end_ r0).
      { unfold at_end. intros ->. rewrite Z.gtb_ltb, Z.geb_leb. reflexivity. }
      rewrite Ete. destruct (too_early sr_timestamp_sec start r0) eqn:Et.
      { assert (Ha : at_end sr_timestamp_sec start end_ r0 = false) by (unfold at_end; rewrite Et; reflexivity).
        rewrite IH. split.
        - intros (rows & h' & H1 & H2 & H3). exists (r0 :: rows), h'. split; [apply Erow; right; split; [exact Ha|exists rows; auto]|].
          split; [cbn [filter]; rewrite Et; exact H2|exact H3].
        - intros (rows & h' & H1 & H2 & H3). apply Erow in H1 as [[H1 _]|[_ (rows' & -> & H1)]]; [congruence|].
          exists rows', h'. split; [exact H1|]. split; [cbn [filter] in H2; rewrite Et in H2; exact H2|exact H3]. }
      rewrite (Eat eq_refl). destruct (at_end sr_timestamp_sec start end_ r0) eqn:Ea.
      { split.
        - intros H. injection H as <-. exists [], []. split; [apply Erow; left; auto|]. repeat split.
        - intros (rows & h' & H1 & -> & -> & _). apply Erow in H1 as [[_ ->]|[H1 _]]; [reflexivity|discriminate]. }
      assert (Efilter : forall rows', filter (fun r => negb (too_early sr_timestamp_sec start r)) (r0 :: rows')
                = r0 :: filter (fun r => negb (too_early sr_timestamp_sec start r)) rows').
      { intros rows'. cbn [filter]. rewrite Et. reflexivity. }
      set (sig := stream_floats sc (String.length s) s) in *.
      destruct ((ts <=? 0) || (ts <=? prev)) eqn:Ets.
      { split; [discriminate|]. intros (rows & h' & H1 & -> & -> & H4). exfalso.
        apply Erow in H1 as [[? _]|[_ (rows' & -> & H1)]]; [discriminate|]. rewrite Efilter in H4.
        destruct H4 as (G1 & G2 & _). cbn in G1, G2. apply orb_true_iff in Ets. rewrite !Z.leb_le in Ets. lia. }
      apply orb_false_iff in Ets. rewrite !Z.leb_gt in Ets.
      set (n' := if (n =? 0)%nat then List.length sig else n).
      destruct ((n' =? 0)%nat || negb (n' =? List.length sig)%nat) eqn:En.
      { split; [discriminate|]. intros (rows & h' & H1 & -> & -> & H4). exfalso.
        apply Erow in H1 as [[? _]|[_ (rows' & -> & H1)]]; [discriminate|]. rewrite Efilter in H4.
        destruct H4 as (_ & _ & G3 & G4 & _). cbn [sr_signal r0] in G3, G4. unfold n' in En.
        rewrite orb_true_iff, negb_true_iff, Nat.eqb_eq, Nat.eqb_neq in En.
        destruct (Nat.eqb_spec n 0); lia. }
      rewrite orb_false_iff, negb_false_iff, Nat.eqb_eq, Nat.eqb_neq in En. destruct En as [En1 En2].
      assert (En3 : n = 0%nat \/ n = List.length sig) by (unfold n' in *; destruct (Nat.eqb_spec n 0); lia).
      rewrite IH, En2. split.
      + intros (rows & h' & H1 & H2 & H3 & H4). exists (r0 :: rows), (r0 :: h').
        split; [apply Erow; right; split; [reflexivity|exists rows; auto]|].
        split; [rewrite Efilter; congruence|]. split; [rewrite H3; cbn [rev]; rewrite <- app_assoc; reflexivity|].
        cbn [side_good sr_timestamp_sec sr_signal r0]. repeat split; auto; lia.
      + intros (rows & h' & H1 & -> & -> & H4). apply Erow in H1 as [[? _]|[_ (rows' & -> & H1)]]; [discriminate|].
        rewrite Efilter in *. cbn [side_good] in H4. destruct H4 as (G1 & G2 & G3 & G4 & G5).
        eexists rows', _. split; [exact H1|]. split; [reflexivity|].
        split; [cbn [rev]; rewrite <- app_assoc; reflexivity|exact G5].
  Qed.

  Lemma side_good_in prev n h r : side_good prev n h -> In r h ->
    0 < sr_timestamp_sec r /\ prev < sr_timestamp_sec r /\ (0 < List.length (sr_signal r))%nat /\
    (n = 0%nat \/ n = List.length (sr_signal r)).
  Proof.
    revert prev n. induction h as [|x h IH]; intros prev n Hg Hr; [destruct Hr|].
    destruct Hg as (G1 & G2 & G3 & G4 & G5). destruct Hr as [<-|Hr]; [auto|].
    destruct (IH _ _ G5 Hr) as (A & B & C & D). split; [exact A|]. split; [lia|]. split; [exact C|]. lia.
  Qed.

  Lemma side_good_iff h : side_good 0 0 h <-> valid_side_history h.
  Proof.
    assert (K : forall h prev n, side_good prev n h -> forall i j r r', nth_error h i = Some r -> nth_error h j = Some r' ->
                (i < j)%nat -> sr_timestamp_sec r < sr_timestamp_sec r' /\ List.length (sr_signal r) = List.length (sr_signal r')).
    { clear. induction h as [|x h IH]; intros prev n G i j r r' Hi Hj Hij; [destruct i; discriminate|].
      destruct G as (G1 & G2 & G3 & G4 & G5). destruct j as [|j]; [lia|]. destruct i as [|i]; cbn in Hi, Hj.
      - injection Hi as <-. apply nth_error_In in Hj. pose proof (side_good_in _ _ _ _ G5 Hj). intuition lia.
      - apply (IH _ _ G5 i j); auto. lia. }
    split.
    - intros G. split; [|split].
      + intros r Hr. pose proof (side_good_in _ _ _ _ G Hr). tauto.
      + intros i j r r' Hi Hj Hij. apply (K _ _ _ G i j); auto.
      + intros r r' Hr Hr'. apply In_nth_error in Hr as [i Hi]. apply In_nth_error in Hr' as [j Hj].
        destruct (lt_eq_lt_dec i j) as [[H| ->]|H].
        * apply (K _ _ _ G i j); auto.
        * congruence.
        * symmetry. apply (K _ _ _ G j i); auto.
    - intros (H1 & H2 & H3).
      assert (Z : forall h prev n, (forall r, In r h -> prev < sr_timestamp_sec r /\ (n = 0%nat \/ n = List.length (sr_signal r))) ->
                  (forall r, In r h -> 0 < sr_timestamp_sec r /\ (0 < List.length (sr_signal r))%nat) ->
                  (forall i j r r', nth_error h i = Some r -> nth_error h j = Some r' -> (i < j)%nat -> sr_timestamp_sec r < sr_timestamp_sec r') ->
                  (forall r r', In r h -> In r' h -> List.length (sr_signal r) = List.length (sr_signal r')) -> side_good prev n h).
      { clear. induction h as [|x h IH]; intros prev n A B C D; [exact I|].
        destruct (A x (or_introl eq_refl)) as [A1 A2]. destruct (B x (or_introl eq_refl)) as [B1 B2].
        cbn [side_good]. split; [exact B1|]. split; [exact A1|]. split; [exact B2|]. split; [exact A2|].
        apply IH.
        - intros r Hr. split; [|right; apply D; [left; reflexivity|right; exact Hr]].
          apply In_nth_error in Hr as [k Hk]. apply (C 0%nat (S k)); auto. lia.
        - intros r Hr. apply B. right. exact Hr.
        - intros i j r r' Hi Hj Hij. apply (C (S i) (S j)); auto. lia.
        - intros r r' Hr Hr'. apply D; right; assumption. }
      apply Z; auto. intros r Hr. split; [apply H1; exact Hr|left; reflexivity].
  Qed.

  Theorem read_side_csv_spec lines start end_ h :
    ReadSideHistoryFromCsv sc lines start end_ = Some h <->
    exists rows, side_rows sc start end_ lines rows /\
      h = filter (fun r => negb (too_early sr_timestamp_sec start r)) rows /\ valid_side_history h.
  Proof.
    unfold ReadSideHistoryFromCsv. pose proof (side_loop_spec start end_ lines 0 0%nat []) as K.
    destruct (side_csv_loop sc start end_ lines 0 0 []) as [h0|]; cbn [option_map].
    - destruct (K h0) as [K1 _]. destruct (K1 eq_refl) as (rows & h' & H1 & H2 & H3 & H4).
      rewrite app_nil_r in H3. subst h0. rewrite rev_involutive. split.
      + intros H. injection H as <-. exists rows. split; [exact H1|]. split; [exact H2|]. apply side_good_iff. exact H4.
      + intros (rows' & A1 & -> & A3). apply side_good_iff in A3. destruct (K (rev (filter (fun r => negb (too_early sr_timestamp_sec start r)) rows'))) as [_ K2].
        assert (Some (rev h') = Some (rev (filter (fun r => negb (too_early sr_timestamp_sec start r)) rows'))) as E.
        { apply K2. eexists rows', _. split; [exact A1|]. split; [reflexivity|]. split; [rewrite app_nil_r; reflexivity|exact A3]. }
        injection E as E. apply (f_equal (@rev _)) in E. rewrite !rev_involutive in E. congruence.
    - split; [discriminate|]. intros (rows & A1 & -> & A3). exfalso. apply side_good_iff in A3.
      destruct (K (rev (filter (fun r => negb (too_early sr_timestamp_sec start r)) rows))) as [_ K2].
      assert (None = Some (rev (filter (fun r => negb (too_early sr_timestamp_sec start r)) rows))); [|discriminate].
      apply K2. eexists rows, _. split; [exact A1|]. split; [reflexivity|]. split; [rewrite app_nil_r; reflexivity|exact A3].
  Qed.
End Side.
